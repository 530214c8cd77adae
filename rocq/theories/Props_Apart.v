(** One amount subtracted from different moments (C119). *)
Require Import ZArith Bool List Lia.
From Verif Require Import Prelude Spec Chrono TimeType SpecTree SpecMoment SpecExact SpecWide SpecApart ApartProofs.
Local Open Scope Z_scope.

(** C119. One amount subtracted from different moments with whole seconds never gives one moment. *)
Theorem C119_apart : forall md u n a b x, takable u n -> dt_valid a = true -> dt_valid b = true ->
  calculate md (Subtraction (Moment a) (mk u n)) = Ok (Moment x) -> calculate md (Subtraction (Moment b) (mk u n)) = Ok (Moment x) -> whole_second a = whole_second b.
Proof. exact apart. Qed.
Print Assumptions C119_apart.
(** Exactly which moments are some moment less an amount. *)
Theorem C119_left : forall md u n x, 0 <= n -> takable u n -> dt_valid x = true -> nano x = 0 ->
  ((exists m, dt_valid m = true /\ calculate md (Subtraction (Moment m) (mk u n)) = Ok (Moment x)) <-> left_over u n x).
Proof. exact left_iff. Qed.
Print Assumptions C119_left.
(** The same of a negative amount. *)
Theorem C119_left_negative : forall md u n x, -2147483648 <= n < 0 -> dt_valid x = true -> nano x = 0 ->
  ((exists m, dt_valid m = true /\ calculate md (Subtraction (Moment m) (mk u n)) = Ok (Moment x)) <-> raised u n x).
Proof. exact left_negative. Qed.
Print Assumptions C119_left_negative.
(** Less -5 days: 26 February 2015 is 21 February less that, 5 March is nothing; less -3 months: 30 May is nothing, 30 June is 30 March less that. *)
Example C119_left_negative_case : raised UDay (-5) (mkdt 2015 2 26 0 0 0 0) /\ ~ raised UDay (-5) (mkdt 2015 3 5 0 0 0 0) /\
  calculate Checked (Subtraction (Moment (mkdt 2015 2 21 0 0 0 0)) (Days (-5))) = Ok (Moment (mkdt 2015 2 26 0 0 0 0)) /\
  ~ raised UMonth (-3) (mkdt 2015 5 30 0 0 0 0) /\ raised UMonth (-3) (mkdt 2015 6 30 0 0 0 0) /\
  calculate Checked (Subtraction (Moment (mkdt 2015 3 30 0 0 0 0)) (Months (-3))) = Ok (Moment (mkdt 2015 6 30 0 0 0 0)) /\
  ~ raised USec (-30) (mkdt 2015 5 30 10 0 29 0) /\ raised USec (-30) (mkdt 2015 5 30 10 0 30 0).
Proof.
  split; [vm_compute; discriminate|]. split; [intro H; vm_compute in H; apply H; reflexivity|]. split; [vm_compute; reflexivity|].
  split; [intros [_ H]; vm_compute in H; apply H; reflexivity|]. split; [vm_compute; split; discriminate|]. split; [vm_compute; reflexivity|].
  split; [intro H; vm_compute in H; apply H; reflexivity|vm_compute; discriminate].
Qed.

(** 4 days taken from 5 March 2015 at 7:00:00, half a second later, and from 1 March. *)
Example C119_apart_case : let a := mkdt 2015 3 1 7 0 0 0 in let b := mkdt 2015 3 5 7 0 0 0 in let c := mkdt 2015 3 5 7 0 0 500000000 in
  takable UDay 4 /\ dt_valid a = true /\ dt_valid b = true /\ dt_valid c = true /\ c <> b /\
  calculate Checked (Subtraction (Moment c) (Days 4)) = Ok (Moment (mkdt 2015 3 1 7 0 0 0)) /\
  calculate Checked (Subtraction (Moment a) (Days 4)) = Ok (Moment (mkdt 2015 2 28 7 0 0 0)) /\
  calculate Checked (Subtraction (Moment b) (Days 4)) = Ok (Moment (mkdt 2015 3 1 7 0 0 0)).
Proof. vm_compute. repeat split; discriminate. Qed.
(** No moment less 3 or 4 days is 27 February 2015, 1 March less 5 days is.  No moment less 8 hours is 18 o'clock on 28 February, but on 31 January.
    No moment less 90 minutes is at 10:50; 10:20 less 80 minutes is 8 o'clock.  29 February 2016 is some moment less 13 months or 4 years, not less 12
    or 24 months or a year. *)
Example C119_left_case : let x := mkdt 2015 2 27 0 0 0 0 in dt_valid x = true /\ takable UDay 5 /\
  ~ left_over UDay 3 x /\ ~ left_over UDay 4 x /\ left_over UDay 5 x /\ calculate Checked (Subtraction (Moment (mkdt 2015 3 1 0 0 0 0)) (Days 5)) = Ok (Moment x) /\
  ~ left_over UHour 8 (mkdt 2015 2 28 18 0 0 0) /\ left_over UHour 8 (mkdt 2015 1 31 18 0 0 0) /\
  calculate Checked (Subtraction (Moment (mkdt 2015 2 1 2 0 0 0)) (Hours 8)) = Ok (Moment (mkdt 2015 1 31 18 0 0 0)) /\
  ~ left_over UMin 90 (mkdt 2015 3 4 10 50 0 0) /\ left_over UMin 80 (mkdt 2015 3 4 8 0 0 0) /\
  calculate Checked (Subtraction (Moment (mkdt 2015 3 4 10 20 0 0)) (Minutes 80)) = Ok (Moment (mkdt 2015 3 4 8 0 0 0)) /\
  left_over UMonth 13 (mkdt 2016 2 29 0 0 0 0) /\ ~ left_over UMonth 12 (mkdt 2016 2 29 0 0 0 0) /\ ~ left_over UMonth 24 (mkdt 2016 2 29 0 0 0 0) /\
  left_over UYear 4 (mkdt 2016 2 29 0 0 0 0) /\ ~ left_over UYear 1 (mkdt 2016 2 29 0 0 0 0).
Proof.
  cbv zeta. split; [reflexivity|]. split; [vm_compute; split; [discriminate|reflexivity]|].
  split; [intros [_ [H|(_ & H & _)]]; [vm_compute in H; apply H; reflexivity|vm_compute in H; apply H; reflexivity]|].
  split; [intros [_ [H|(_ & H & _)]]; [vm_compute in H; apply H; reflexivity|vm_compute in H; apply H; reflexivity]|].
  split; [split; [left; reflexivity|right; vm_compute; repeat split; discriminate]|].
  split; [vm_compute; reflexivity|].
  split; [intros [_ [H|(_ & H & _)]]; [vm_compute in H; apply H; reflexivity|vm_compute in H; apply H; reflexivity]|].
  split; [split; [right; vm_compute; discriminate|right; vm_compute; repeat split; discriminate]|].
  split; [vm_compute; reflexivity|].
  split; [intros [[H|H] _]; [discriminate H|vm_compute in H; apply H; reflexivity]|].
  split; [split; [right; vm_compute; discriminate|left; vm_compute; discriminate]|].
  split; [vm_compute; reflexivity|].
  split; [vm_compute; repeat split; discriminate|].
  split; [intros (_ & _ & H); vm_compute in H; apply H; reflexivity|].
  split; [intros (_ & H & _); vm_compute in H; apply H; reflexivity|].
  split; [vm_compute; split; discriminate|]. intros [_ H]. vm_compute in H; apply H; reflexivity.
Qed.
