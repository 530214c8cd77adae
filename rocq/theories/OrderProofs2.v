(** Proofs about the order of sums with amounts of either sign (C18). *)
Require Import ZArith Bool List Lia ZifyBool.
From Verif Require Import Prelude Spec Chrono Util TimeType SpecTree SpecMoment SpecExact SpecWide SpecOrder PreludeProofs CalendarProofs EvalProofs AmountProofs AddProofs AddProofs2 SubProofs WideProofs NegProofs FarProofs OrderProofs FurtherProofs.
Local Open Scope Z_scope.
Ltac Zify.zify_post_hook ::= Z.div_mod_to_equations.

Section Dh.
Variable md : mode.

(** Months of 30, or of the calendar. *)
Lemma months_form : forall m n m', dt_valid m = true -> -2147483648 <= n -> n * unit_secs UMonth <= span32 ->
  calculate md (Addition (Moment m) (Months n)) = Ok (Moment m') ->
  exists y mo d, m' = at_time y mo d (sod m) /\ representable y mo d = true /\
    ((spill_any UMonth n m = 0 /\ 12 * y + mo = 12 * year m + month m + n /\ d = day m) \/
     (0 < spill_any UMonth n m /\ 12 * y + mo = 12 * year m + month m + n + 1 /\ d = spill_any UMonth n m)).
Proof.
  intros m n m' Hm Hn Hs E. destruct (valid_facts m Hm) as (Vy & Vmo & Vd & Vml & Vh & Vmi & Vs). cbn [unit_secs] in Hs.
  assert (Key : forall y mo d, built y mo d (sod m) = Ok (Moment m') -> m' = at_time y mo d (sod m) /\ representable y mo d = true).
  { intros y mo d Q. apply built_ok in Q as [P Q]. injection Q as ->. auto. }
  destruct (months_key md m n m' Hm Hn ltac:(cbn [unit_secs]; lia) E) as (y & mo & d & s & K & P & I & _).
  exists y, mo, d. split; [exact K|]. split; [exact P|].
  unfold spill_any, spill. pose proof P as P'. apply representable_iff in P' as [Py P']. apply date_exists_iff in P'.
  assert (X : forall Y Mo D, representable Y Mo D = true -> m' = at_time Y Mo D (sod m) -> y = Y /\ mo = Mo /\ d = D).
  { intros Y Mo D _ Q. rewrite K in Q. unfold at_time in Q. apply (f_equal (fun z => (year z, month z, day z))) in Q. cbn [year month day] in Q. apply triple_eq in Q. exact Q. }
  destruct (Z_le_gt_dec 1 (month m + n)) as [HM|HM].
  - replace (month m + n <=? 0) with false by lia.
    destruct (Z_le_gt_dec 0 n) as [N|N].
    + rewrite add_months in E by (try assumption; unfold span32, i64_max in *; lia).
      destruct (plus_months (year m) (month m) (day m) n) as [[Y Mo] D] eqn:Q.
      assert (W : wrap32 Y = Y).
      { apply wrap32_id. unfold plus_months in Q. cbv zeta in Q. unfold span32, min_year, max_year in *.
        destruct (month m + n <=? 12), (day m <=? _); apply triple_eq in Q as (Q1 & Q2 & Q3); lia. }
      rewrite W in E. destruct (Key _ _ _ E) as [K1 P1]. destruct (X _ _ _ P1 K1) as (-> & -> & ->).
      unfold plus_months in Q. cbv zeta in Q. destruct (month m + n <=? 12) eqn:L1.
      * destruct (day m <=? month_length (year m) (month m + n)) eqn:L2; apply triple_eq in Q as (Q1 & Q2 & Q3); lia.
      * destruct (day m <=? 30) eqn:L2; apply triple_eq in Q as (Q1 & Q2 & Q3); destruct (day m =? 31) eqn:L3; lia.
    + replace (month m + n <=? 12) with true by lia.
      destruct (add_months_negative md m n Hm ltac:(lia)) as (X1 & X2 & _). cbv zeta in X1, X2.
      destruct (day m <=? month_length (year m) (month m + n)) eqn:L.
      * rewrite X1 in E by lia. injection E as E. rewrite K in E. apply (f_equal (fun z => (year z, month z, day z))) in E. cbn [year month day at_time] in E. apply triple_eq in E. lia.
      * rewrite X2 in E by lia. injection E as E. rewrite K in E. apply (f_equal (fun z => (year z, month z, day z))) in E. cbn [year month day at_time] in E. apply triple_eq in E. lia.
  - replace (month m + n <=? 0) with true by lia. rewrite add_months_wide in E by (try assumption; unfold i64_min; lia). cbv zeta in E. unfold low32 in E.
    destruct (day m <=? 30) eqn:L; destruct (Key _ _ _ E) as [K1 P1]; destruct (X _ _ _ P1 K1) as (-> & -> & ->).
    + exfalso. lia.
    + replace (day m =? 31) with true by lia. lia.
Qed.

Lemma years_form : forall m n m', dt_valid m = true -> -2147483648 <= n -> n * unit_secs UYear <= span32 ->
  calculate md (Addition (Moment m) (Years n)) = Ok (Moment m') ->
  exists y mo d, m' = at_time y mo d (sod m) /\ representable y mo d = true /\
    ((spill_any UYear n m = 0 /\ 12 * y + mo = 12 * year m + month m + 12 * n /\ d = day m) \/
     (0 < spill_any UYear n m /\ 12 * y + mo = 12 * year m + month m + 12 * n + 1 /\ d = spill_any UYear n m)).
Proof.
  intros m n m' Hm Hn Hs E. pose proof (years_key md m n m' Hm Hn Hs E) as Y. destruct (valid_facts m Hm) as (Vy & Vmo & _). cbn [unit_secs] in Hs. unfold span32 in Hs.
  rewrite add_years in E by first [assumption | apply in_i64_iff; unfold i64_min, i64_max; lia | unfold i64_min, i64_max, min_year, max_year in *; lia].
  destruct (in_year (wrap32 (year m + n)) (month m) (day m)) as [[y mo] d] eqn:Q. apply built_ok in E as [P F]. injection F as ->. cbn [year at_time] in Y. subst y.
  exists (year m + n), mo, d. split; [reflexivity|]. split; [exact P|]. unfold spill_any, spill.
  unfold in_year in Q. destruct ((month m =? 2) && (day m =? 29) && negb (leap (wrap32 (year m + n)))) eqn:C; apply triple_eq in Q as (Q1 & Q2 & Q3); rewrite Q1 in C; rewrite C.
  - right. apply andb_true_iff in C as [C _]. apply andb_true_iff in C as [C C']. lia.
  - left. lia.
Qed.

Lemma spill_range : forall u n m, dt_valid m = true -> clock_unit u = false -> 0 <= spill_any u n m <= 3 /\ (0 < spill_any u n m -> 29 <= day m).
Proof.
  intros u n m Hm Hu. destruct (valid_facts m Hm) as (Vy & Vmo & Vd & Vml & Vh & Vmi & Vs). pose proof (month_length_bounds (year m) (month m) Vmo).
  destruct u; try discriminate Hu; unfold spill_any, spill.
  - destruct (month m + n <=? 0) eqn:A; [destruct (day m =? 31) eqn:B; lia|]. destruct (month m + n <=? 12) eqn:B; [|destruct (day m =? 31) eqn:C; lia].
    pose proof (month_length_bounds (year m) (month m + n) ltac:(lia)). lia.
  - destruct ((month m =? 2) && (day m =? 29) && _) eqn:C; [|lia]. apply andb_true_iff in C as [C _]. apply andb_true_iff in C as [_ C]. lia.
Qed.
Lemma spill_same : forall u n a b, clock_unit u = false -> year a = year b -> month a = month b -> day a <= day b -> 0 < spill_any u n a ->
  dt_valid b = true -> 0 < spill_any u n b /\ (day a < day b -> spill_any u n a < spill_any u n b) /\ (day a = day b -> spill_any u n a = spill_any u n b).
Proof.
  intros u n a b Hu Ey Em Ed S Hb. destruct (valid_facts b Hb) as (Vy & Vmo & Vd & Vml & Vh & Vmi & Vs). pose proof (month_length_bounds (year b) (month b) Vmo) as Lb.
  destruct u; try discriminate Hu; unfold spill_any, spill in *; rewrite Ey, Em in *.
  - destruct (month b + n <=? 0) eqn:A; [|destruct (month b + n <=? 12) eqn:B].
    + destruct (day a =? 31) eqn:C; [|lia]. destruct (day b =? 31) eqn:D; lia.
    + lia.
    + destruct (day a =? 31) eqn:C; [|lia]. destruct (day b =? 31) eqn:D; lia.
  - destruct ((month b =? 2) && (day a =? 29) && _) eqn:C; [|lia]. apply andb_true_iff in C as [C C2]. apply andb_true_iff in C as [C C1].
    assert (M2 : month b = 2) by lia. rewrite M2 in *. assert (month_length (year b) 2 <= 29) by (change (month_length (year b) 2) with (if leap (year b) then 29 else 28); destruct (leap (year b)); lia).
    replace (day b =? 29) with true by lia. rewrite C2. cbn. lia.
Qed.

Lemma order_any : forall u n m1 m2 m1' m2', dt_valid m1 = true -> dt_valid m2 = true -> clock_unit u = false -> -2147483648 <= n -> n * unit_secs u <= span32 ->
  calculate md (Addition (Moment m1) (mk u n)) = Ok (Moment m1') -> calculate md (Addition (Moment m2) (mk u n)) = Ok (Moment m2') -> inst m1 <= inst m2 ->
  (inst m2' < inst m1' <-> month_index m2 = month_index m1 + 1 /\ (day m2 < spill_any u n m1 \/ (day m2 = spill_any u n m1 /\ sod m2 < sod m1))).
Proof.
  intros u n m1 m2 m1' m2' H1 H2 Hu Hn Hs E1 E2 L.
  assert (F : forall m m', dt_valid m = true -> calculate md (Addition (Moment m) (mk u n)) = Ok (Moment m') -> exists y mo d k, k = (match u with UMonth => n | _ => 12 * n end) /\
    m' = at_time y mo d (sod m) /\ representable y mo d = true /\
    ((spill_any u n m = 0 /\ 12 * y + mo = 12 * year m + month m + k /\ d = day m) \/
     (0 < spill_any u n m /\ 12 * y + mo = 12 * year m + month m + k + 1 /\ d = spill_any u n m))).
  { intros m m' Hm E. destruct u; try discriminate Hu; cbn [mk] in E.
    - destruct (months_form m n m' Hm Hn Hs E) as (y & mo & d & X). exists y, mo, d, n. split; [reflexivity|exact X].
    - destruct (years_form m n m' Hm Hn Hs E) as (y & mo & d & X). exists y, mo, d, (12 * n). split; [reflexivity|exact X]. }
  destruct (F m1 m1' H1 E1) as (y1 & mo1 & d1 & k & Ek & -> & P1 & F1). destruct (F m2 m2' H2 E2) as (y2 & mo2 & d2 & k' & Ek' & -> & P2 & F2). rewrite <- Ek in Ek'. subst k'. clear F Ek E1 E2.
  pose proof (sod_range m1 H1) as R1. pose proof (sod_range m2 H2) as R2.
  destruct (spill_range u n m1 H1 Hu) as [S1 S1']. destruct (spill_range u n m2 H2 Hu) as [S2 S2'].
  destruct (valid_facts m1 H1) as (Vy & Vmo & Vd & _). destruct (valid_facts m2 H2) as (Wy & Wmo & Wd & _).
  pose proof (month_index_le m1 m2 H1 H2 L) as IL. unfold month_index.
  assert (Same : year m1 = year m2 -> month m1 = month m2 -> day m1 * 86400 + sod m1 <= day m2 * 86400 + sod m2 -> 0 < spill_any u n m1 ->
    0 < spill_any u n m2 /\ (day m1 < day m2 -> spill_any u n m1 < spill_any u n m2) /\ (day m1 = day m2 -> spill_any u n m1 = spill_any u n m2)).
  { intros A B C D. apply spill_same; try assumption. lia. }
  assert (Lt : forall y mo d r y' mo' d' r', representable y mo d = true -> representable y' mo' d' = true -> 0 <= r < 86400 -> 0 <= r' < 86400 ->
    (inst (at_time y mo d r) < inst (at_time y' mo' d' r') <-> 12 * y + mo < 12 * y' + mo' \/ (12 * y + mo = 12 * y' + mo' /\ (d < d' \/ (d = d' /\ r < r'))))).
  { intros y mo d r y' mo' d' r' P P' R R'. split; [|apply at_lt; assumption]. intro Q.
    destruct (Z_lt_le_dec (12 * y' + mo') (12 * y + mo)) as [G|G].
    - pose proof (at_lt _ _ _ _ _ _ _ _ P' P R' R (or_introl G)). lia.
    - destruct (Z.eq_dec (12 * y + mo) (12 * y' + mo')) as [Eq|Ne]; [right; split; [exact Eq|]|left; lia].
      apply representable_iff in P as [_ P]. apply representable_iff in P' as [_ P']. apply date_exists_iff in P. apply date_exists_iff in P'.
      assert (y = y') by lia. assert (mo = mo') by lia. subst y' mo'. rewrite !inst_at in Q by assumption. unfold day_number in Q. lia. }
  rewrite Lt by assumption. clear Lt P1 P2.
  destruct IL as [IL|(A & B & C)].
  - lia.
  - specialize (Same A B C). lia.
Qed.

(** Negative clock amounts keep the distance. *)
Lemma order_minus : forall u n m1 m2 m1' m2', dt_valid m1 = true -> dt_valid m2 = true -> clock_unit u = true -> -2147483648 <= n < 0 ->
  calculate md (Addition (Moment m1) (mk u n)) = Ok (Moment m1') -> calculate md (Addition (Moment m2) (mk u n)) = Ok (Moment m2') ->
  inst m2' - inst m1' = inst m2 - inst m1.
Proof.
  intros u n m1 m2 m1' m2' H1 H2 Hu Hn E1 E2.
  assert (N : forall m m', dt_valid m = true -> calculate md (Addition (Moment m) (mk u n)) = Ok (Moment m') -> inst m' = inst m + n * unit_secs u).
  { intros m m' Hm E. destruct (add_negative md m u n Hm Hu Hn) as [O|(w & W & _ & _ & I)]; [exfalso; exact (not_oob _ _ O E)|]. rewrite W in E. injection E as <-. exact I. }
  rewrite (N m1 m1'), (N m2 m2') by assumption. lia.
Qed.
End Dh.
