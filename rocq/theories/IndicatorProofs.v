(** Comparisons of weekdays and months. *)
Require Import ZArith Bool List Lia ZifyBool.
From Verif Require Import Prelude Spec Chrono TimeType Matcher Indicator SpecMoment PreludeProofs CalendarProofs EvalProofs AddProofs.
Local Open Scope Z_scope.

Lemma wday_order : forall d e f,
  (wday_compare d e = Eq <-> d = e) /\ wday_compare e d = CompOpp (wday_compare d e) /\ (wday_compare d e = Lt -> wday_compare e f = Lt -> wday_compare d f = Lt).
Proof. intros d e f. split; [split; destruct d, e; vm_compute; congruence|split; [destruct d, e; reflexivity|destruct d, e, f; vm_compute; congruence]]. Qed.
Lemma ymonth_order : forall d e f,
  (ymonth_compare d e = Eq <-> d = e) /\ ymonth_compare e d = CompOpp (ymonth_compare d e) /\ (ymonth_compare d e = Lt -> ymonth_compare e f = Lt -> ymonth_compare d f = Lt).
Proof.
  intros d e f. split; [split; destruct d, e; vm_compute; congruence|split; [destruct d, e; reflexivity|]].
  unfold ymonth_compare. rewrite !Z.compare_lt_iff. lia.
Qed.
Lemma wday_chrono : forall d, wday_variant d = wday_into d.
Proof. intros []; reflexivity. Qed.
Lemma ymonth_chrono : forall d, ymonth_variant d = ymonth_into d - 1.
Proof. intros []; reflexivity. Qed.
Lemma week_days : forall m1 m2 d1 d2, (day_number (year m1) (month m1) (day m1) - 1) / 7 = (day_number (year m2) (month m2) (day m2) - 1) / 7 ->
  is_a (Moment m1) d1 = Ok true -> is_a (Moment m2) d2 = Ok true ->
  wday_compare d1 d2 = (day_number (year m1) (month m1) (day m1) ?= day_number (year m2) (month m2) (day m2)).
Proof.
  intros m1 m2 d1 d2 W A B. cbn [is_a] in A, B. injection A as A. injection B as B. apply Z.eqb_eq in A, B.
  unfold dt_weekday, weekday in A, B. unfold wday_compare. rewrite (wday_chrono d1), (wday_chrono d2), <- A, <- B.
  set (x := day_number (year m1) (month m1) (day m1)) in *. set (y := day_number (year m2) (month m2) (day m2)) in *. clearbody x y.
  pose proof (Z.div_mod (x - 1) 7 ltac:(lia)). pose proof (Z.div_mod (y - 1) 7 ltac:(lia)).
  destruct (Z.compare_spec x y) as [C|C|C]; [apply Z.compare_eq_iff|apply Z.compare_lt_iff|apply Z.compare_gt_iff]; lia.
Qed.
Lemma year_months : forall m1 m2 d1 d2, year m1 = year m2 -> is_in (Moment m1) d1 = Ok true -> is_in (Moment m2) d2 = Ok true ->
  (ymonth_compare d1 d2 = Lt -> dt_compare m1 m2 = Lt) /\ (dt_compare m1 m2 = Lt -> ymonth_compare d1 d2 <> Gt).
Proof.
  intros m1 m2 d1 d2 Y A B. cbn [is_in] in A, B. injection A as A. injection B as B. apply Z.eqb_eq in A, B.
  unfold ymonth_compare. rewrite (ymonth_chrono d1), (ymonth_chrono d2), <- A, <- B. unfold dt_compare. rewrite Y, Z.compare_refl. split.
  - intro L. pose proof (proj1 (Z.compare_lt_iff _ _) L). rewrite (proj2 (Z.compare_lt_iff (month m1) (month m2))) by lia. reflexivity.
  - intros L G. pose proof (proj1 (Z.compare_gt_iff _ _) G). rewrite (proj2 (Z.compare_gt_iff (month m1) (month m2))) in L by lia. discriminate L.
Qed.
