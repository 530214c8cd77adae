(** The moments subtractions can reach (C116). *)
Require Import ZArith Bool List Lia.
From Verif Require Import Prelude Spec Chrono TimeType SpecTree SpecMoment SpecExact SpecBack BackProofs.
Import ListNotations.
Local Open Scope Z_scope.

(** C116. The full statement: every moment with whole seconds that is not after [m] is the value of [m] less some amounts.  It is false: from
    1 March no subtractions lead to the evening of 28 February. *)
Theorem C116_refuted : let m := mkdt 2015 3 1 0 0 0 0 in let m' := mkdt 2015 2 28 18 0 0 0 in
  dt_valid m = true /\ dt_valid m' = true /\ inst m' < inst m /\
  forall md l, Forall small l -> calculate md (less (Moment m) l) <> Ok (Moment m').
Proof.
  cbv zeta. split; [reflexivity|]. split; [reflexivity|]. split; [reflexivity|]. intros md l Fl E.
  refine (proj1 (back_iff md (mkdt 2015 3 1 0 0 0 0) (mkdt 2015 2 28 18 0 0 0) eq_refl eq_refl eq_refl _) (ex_intro _ l (conj Fl E)) _).
  - vm_compute. discriminate.
  - vm_compute. repeat split.
Qed.
Print Assumptions C116_refuted.

(** Exactly: every one, unless [m] is on the first of a month and the moment is later in the day on the last of the month before,
    which has not 31 days. *)
Theorem C116_exactly_partial : forall md m m', dt_valid m = true -> dt_valid m' = true -> nano m' = 0 -> inst m' <= inst m ->
  ((exists l, Forall small l /\ calculate md (less (Moment m) l) = Ok (Moment m')) <-> ~ stuck m m').
Proof. exact back_iff. Qed.
Print Assumptions C116_exactly_partial.
(** Nine subtractions are enough. *)
Theorem C116_nine_partial : forall md m m', dt_valid m = true -> dt_valid m' = true -> nano m' = 0 -> inst m' <= inst m -> ~ stuck m m' ->
  exists l, (length l <= 9)%nat /\ Forall small l /\ calculate md (less (Moment m) l) = Ok (Moment m').
Proof. exact back_nine. Qed.
Print Assumptions C116_nine_partial.
(** From 30 March 2016 to 30 December 2014; from 1 March 2016 to 27 February; 31 January is reached from 1 February, not 28 February from 1 March. *)
Example C116_case : let m := mkdt 2016 3 30 9 0 0 0 in let m' := mkdt 2014 12 30 20 25 4 0 in dt_valid m = true /\ dt_valid m' = true /\ inst m' <= inst m /\
  ~ stuck m m' /\
  calculate Checked (less (Moment m) [(UDay, 29); (UYear, 1); (UMonth, 1); (UDay, 30); (UDay, 0); (UHour, 12); (UMin, 34); (USec, 56); (UDay, 2)]) = Ok (Moment m') /\
  calculate Checked (less (Moment (mkdt 2016 3 1 0 0 0 0)) [(UDay, 4); (UHour, 14)]) = Ok (Moment (mkdt 2016 2 27 10 0 0 0)) /\
  calculate Checked (less (Moment (mkdt 2015 2 1 0 0 0 0)) [(UHour, 14)]) = Ok (Moment (mkdt 2015 1 31 10 0 0 0)) /\
  ~ stuck (mkdt 2015 2 1 0 0 0 0) (mkdt 2015 1 31 10 0 0 0) /\ stuck (mkdt 2015 3 1 0 0 0 0) (mkdt 2015 2 28 10 0 0 0).
Proof.
  unfold stuck. vm_compute. repeat split; try discriminate; intros (A & _ & _ & _ & B); (discriminate A || discriminate B).
Qed.
