(** Different moments and one amount (C118). *)
Require Import ZArith Bool List Lia.
From Verif Require Import Prelude Spec Chrono TimeType SpecTree SpecMoment SpecExact SpecOrder SpecMeet MeetProofs.
Local Open Scope Z_scope.

(** C118. The full statement: one amount added to different moments (with whole seconds) gives different moments, and every moment far enough
    from the first one is some moment plus that amount.  Both are false. *)
Theorem C118_refuted : let a := mkdt 2015 1 31 9 0 0 0 in let b := mkdt 2015 2 3 9 0 0 0 in let x := mkdt 2015 3 1 0 0 0 0 in
  dt_valid a = true /\ dt_valid b = true /\ (forall md, calculate md (Addition (Moment a) (Months 1)) = calculate md (Addition (Moment b) (Months 1)) /\
    exists c, calculate md (Addition (Moment a) (Months 1)) = Ok (Moment c)) /\
  dt_valid x = true /\ forall md m, dt_valid m = true -> calculate md (Addition (Moment m) (Days 60)) <> Ok (Moment x).
Proof.
  cbv zeta. split; [reflexivity|]. split; [reflexivity|]. split.
  { intros []; (split; [vm_compute; reflexivity|exists (mkdt 2015 3 3 9 0 0 0); vm_compute; reflexivity]). }
  split; [reflexivity|]. intros md m Hm E.
  assert (H : hit UDay 60 (mkdt 2015 3 1 0 0 0 0)).
  { apply (hit_iff md); [reflexivity|reflexivity|lia|vm_compute; discriminate|]. exists m. split; [exact Hm|exact E]. }
  vm_compute in H. destruct H as [H|(_ & H & _)]; [apply H; reflexivity|discriminate H].
Qed.
Print Assumptions C118_refuted.

(** Exactly when it gives the same moment. *)
Theorem C118_meet_partial : forall md u n a b x, dt_valid a = true -> dt_valid b = true -> inst a < inst b -> 0 <= n -> n * unit_secs u <= span32 ->
  calculate md (Addition (Moment a) (mk u n)) = Ok (Moment x) ->
  (calculate md (Addition (Moment b) (mk u n)) = Ok (Moment x) <-> meet u n a b x).
Proof. exact meet_iff. Qed.
Print Assumptions C118_meet_partial.
(** Never from three moments. *)
Theorem C118_three_partial : forall md u n a b c x, dt_valid a = true -> dt_valid b = true -> dt_valid c = true -> inst a < inst b -> inst b < inst c -> 0 <= n -> n * unit_secs u <= span32 ->
  calculate md (Addition (Moment a) (mk u n)) = Ok (Moment x) -> calculate md (Addition (Moment b) (mk u n)) = Ok (Moment x) ->
  calculate md (Addition (Moment c) (mk u n)) <> Ok (Moment x).
Proof. exact not_three. Qed.
Print Assumptions C118_three_partial.
(** Clock units keep the moments of a year apart. *)
Theorem C118_year_partial : forall md u n a b x, clock_unit u = true -> dt_valid a = true -> dt_valid b = true -> year a = year b -> 0 <= n -> n * unit_secs u <= span32 ->
  calculate md (Addition (Moment a) (mk u n)) = Ok (Moment x) -> calculate md (Addition (Moment b) (mk u n)) = Ok (Moment x) -> whole_second a = whole_second b.
Proof. exact year_apart. Qed.
Print Assumptions C118_year_partial.
(** 5 days around the new year of 2017 vanish on the way to 2018, and 4 of them on the way to December 2017; days 29 to 31 of January are added to
    those of February; 29 February to 1 March. *)
Example C118_meet_case : let a := mkdt 2016 12 29 10 0 0 0 in let b := mkdt 2017 1 3 10 0 0 0 in let c := mkdt 2017 1 2 10 0 0 0 in
  let x := mkdt 2018 2 5 10 0 0 0 in let y := mkdt 2017 12 5 10 0 0 0 in
  dt_valid a = true /\ dt_valid b = true /\ inst a < inst b /\ 397 * unit_secs UDay <= span32 /\
  calculate Checked (Addition (Moment a) (Days 397)) = Ok (Moment x) /\ calculate Checked (Addition (Moment b) (Days 397)) = Ok (Moment x) /\ meet UDay 397 a b x /\
  calculate Checked (Addition (Moment a) (Days 337)) = Ok (Moment y) /\ calculate Checked (Addition (Moment c) (Days 337)) = Ok (Moment y) /\ meet UDay 337 a c y /\
  meet UMonth 1 (mkdt 2015 1 31 9 0 0 0) (mkdt 2015 2 3 9 0 0 0) (mkdt 2015 3 3 9 0 0 0) /\
  meet UYear 1 (mkdt 2016 2 29 9 0 0 0) (mkdt 2016 3 1 9 0 0 0) (mkdt 2017 3 1 9 0 0 0) /\
  calculate Checked (Addition (Moment (mkdt 2016 2 29 9 0 0 0)) (Years 1)) = calculate Checked (Addition (Moment (mkdt 2016 3 1 9 0 0 0)) (Years 1)).
Proof. vm_compute. repeat split; discriminate. Qed.

(** Negative amounts: clock units keep all moments apart, and months and years confuse two as above. *)
Theorem C118_negative_partial : forall md u n a b x y, dt_valid a = true -> dt_valid b = true -> inst a < inst b -> -2147483648 <= n < 0 ->
  calculate md (Addition (Moment a) (mk u n)) = Ok (Moment x) -> calculate md (Addition (Moment b) (mk u n)) = Ok (Moment y) ->
  (x = y <-> meet_back u n a b).
Proof. exact meet_negative. Qed.
Print Assumptions C118_negative_partial.
(** 31 March and 3 April 2015 plus -1 months; 29 February and 1 March 2016 plus -1 years. *)
Example C118_negative_case : let a := mkdt 2015 3 31 9 0 0 0 in let b := mkdt 2015 4 3 9 0 0 0 in dt_valid a = true /\ dt_valid b = true /\ inst a < inst b /\
  calculate Checked (Addition (Moment a) (Months (-1))) = Ok (Moment (mkdt 2015 3 3 9 0 0 0)) /\
  calculate Checked (Addition (Moment b) (Months (-1))) = Ok (Moment (mkdt 2015 3 3 9 0 0 0)) /\ meet_back UMonth (-1) a b /\
  calculate Checked (Addition (Moment (mkdt 2016 2 29 9 0 0 0)) (Years (-1))) = Ok (Moment (mkdt 2015 3 1 9 0 0 0)) /\
  calculate Checked (Addition (Moment (mkdt 2016 3 1 9 0 0 0)) (Years (-1))) = Ok (Moment (mkdt 2015 3 1 9 0 0 0)) /\
  meet_back UYear (-1) (mkdt 2016 2 29 9 0 0 0) (mkdt 2016 3 1 9 0 0 0).
Proof. vm_compute. repeat split. Qed.

(** Exactly which moments are some moment plus an amount. *)
Theorem C118_hit_partial : forall md u n x, dt_valid x = true -> nano x = 0 -> 0 <= n -> n * unit_secs u <= span32 ->
  ((exists m, dt_valid m = true /\ calculate md (Addition (Moment m) (mk u n)) = Ok (Moment x)) <-> hit u n x).
Proof. exact hit_iff. Qed.
Print Assumptions C118_hit_partial.
(** 1 March 2015 is some moment plus 59 or 61 days and not plus 60; 31 March and 31 January are not some moment plus a month;
    29 February 2016 is some moment plus four years and not plus two. *)
Example C118_hit_case : let x := mkdt 2015 3 1 0 0 0 0 in dt_valid x = true /\ hit UDay 59 x /\ ~ hit UDay 60 x /\ hit UDay 61 x /\
  calculate Checked (Addition (Moment (mkdt 2014 12 31 0 0 0 0)) (Days 61)) = Ok (Moment x) /\
  ~ hit UMonth 1 (mkdt 2015 3 31 0 0 0 0) /\ hit UMonth 2 (mkdt 2015 3 31 0 0 0 0) /\ ~ hit UMonth 1 (mkdt 2015 1 31 0 0 0 0) /\ hit UMonth 1 (mkdt 2015 1 30 0 0 0 0) /\
  hit UYear 4 (mkdt 2016 2 29 0 0 0 0) /\ ~ hit UYear 2 (mkdt 2016 2 29 0 0 0 0).
Proof.
  cbv zeta. split; [reflexivity|]. split; [left; vm_compute; discriminate|].
  split; [intro H; vm_compute in H; destruct H as [H|(_ & H & _)]; [apply H; reflexivity|discriminate H]|].
  split; [right; vm_compute; repeat split; discriminate|]. split; [vm_compute; reflexivity|].
  split; [intros (_ & H & _); vm_compute in H; apply H; reflexivity|].
  split; [vm_compute; repeat split; try discriminate; left; reflexivity|].
  split; [intros (_ & _ & [H|H]); vm_compute in H; [discriminate H|apply H; reflexivity]|].
  split; [vm_compute; repeat split; try discriminate; right; discriminate|].
  split; [vm_compute; split; discriminate|]. intros [_ H]. vm_compute in H. apply H. reflexivity.
Qed.
