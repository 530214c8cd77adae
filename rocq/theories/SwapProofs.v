(** The order of two steps (C114). *)
Require Import ZArith Bool List Lia ZifyBool.
From Verif Require Import Prelude Spec Chrono Util TimeType SpecTree SpecMoment SpecExact SpecWide SpecOrder SpecSwap PreludeProofs EvalProofs AmountProofs
  ShapeProofs CompProofs CalendarProofs OrdProofs AddProofs AddProofs2 SubProofs NegProofs WideProofs WideProofs2 FarProofs SeqProofs OrderProofs FurtherProofs OrderProofs2.
Local Open Scope Z_scope.
Local Ltac Zify.zify_post_hook ::= Z.to_euclidean_division_equations.

Section Swap.
Variable md : mode.

Lemma index_day_of : forall y mo d i, 1 <= mo <= 12 -> 12 * y + mo = i + 1 -> index_day i d = day_number y mo d.
Proof. intros y mo d i H E. unfold index_day. replace (i / 12) with y by lia. replace (i mod 12 + 1) with mo by lia. reflexivity. Qed.

Lemma repr_month : forall y mo d, representable y mo d = true -> 1 <= mo <= 12.
Proof. intros y mo d H. apply representable_iff in H as [_ H]. apply date_exists_iff in H. lia. Qed.

(** Months and years. *)
Lemma date_step : forall m s m', dt_valid m = true -> clock_unit (munit s) = false -> move_ok s -> calculate md (taking m s) = Ok (Moment m') ->
  let c := if backward s then 0 else spill_any (munit s) (mcount s) m in
  exists y mo d, m' = at_time y mo d (sod m) /\ representable y mo d = true /\
    12 * y + mo - 1 = month_index m + month_count s + (if 0 <? c then 1 else 0) /\ d = (if 0 <? c then c else day m).
Proof.
  intros m [bk u n] m' Hm Hu [Hn Hs] E. cbn [munit mcount backward] in *. unfold taking in E. cbn [munit mcount backward] in E. unfold month_index, month_count. cbn [munit mcount backward].
  destruct (valid_facts m Hm) as (Vy & Vmo & Vd & _).
  destruct bk; cbv zeta.
  - rewrite Hu in Hs. change (0 <? 0) with false. cbv iota.
    assert (K : forall y mo, built y mo (day m) (sod m) = Ok (Moment m') -> m' = at_time y mo (day m) (sod m) /\ representable y mo (day m) = true).
    { intros y mo Q. apply built_ok in Q as [P Q]. injection Q as ->. auto. }
    destruct u; try discriminate Hu; cbn [mk] in E.
    + destruct (Z_lt_le_dec n 0) as [L|L].
      * pose proof (sub_negative_wide md m UMonth n Hm ltac:(discriminate) ltac:(unfold i64_min; lia) ltac:(cbn [field]; unfold i64_max; lia)) as X. cbv zeta in X. cbn [mk field] in X.
        rewrite X in E. unfold low32 in E. rewrite Z.mod_small in E by lia. destruct (K _ _ E) as [K1 K2]. exists (year m), (month m - n), (day m). repeat split; try assumption. lia.
      * destruct (sub_months md m n Hm ltac:(lia)) as (X & Y & Z). cbv zeta in X, Y, Z.
        destruct (Z_lt_le_dec (month m - n) (-11)) as [Q|Q]; [exfalso; exact (not_oob _ _ (Z Q) E)|].
        destruct (Z_le_gt_dec 1 (month m - n)) as [Q'|Q'].
        -- rewrite (X Q') in E. destruct (K _ _ E) as [K1 K2]. exists (year m), (month m - n), (day m). repeat split; try assumption. lia.
        -- rewrite (Y ltac:(lia)) in E. destruct (K _ _ E) as [K1 K2]. exists (year m - 1), (month m - n + 12), (day m). repeat split; try assumption. lia.
    + rewrite sub_years in E by first [assumption | apply in_i64_iff; unfold i64_min, i64_max; lia | unfold i64_min, i64_max, min_year, max_year in *; lia].
      destruct (K _ _ E) as [-> P]. exists (wrap32 (year m - n)), (month m), (day m). repeat split; try assumption. pose proof P as P'. apply representable_iff in P' as [P' _].
      replace (year m - n) with (year m + - n) in * by lia. rewrite (year_near m (- n) Hm ltac:(lia) P'). lia.
  - destruct (spill_range u n m Hm Hu) as [S _].
    destruct u; try discriminate Hu; cbn [mk] in E.
    + destruct (months_form md m n m' Hm Hn Hs E) as (y & mo & d & -> & P & F). exists y, mo, d. repeat split; try assumption; destruct (0 <? spill_any UMonth n m) eqn:Q; lia.
    + destruct (years_form md m n m' Hm Hn Hs E) as (y & mo & d & -> & P & F). exists y, mo, d. repeat split; try assumption; destruct (0 <? spill_any UYear n m) eqn:Q; lia.
Qed.

Lemma move_i64 : forall s, move_ok s -> in_i64 (mcount s) = true.
Proof.
  intros [bk u n] [Hn Hs]. cbn [munit mcount backward] in *. apply in_i64_iff. unfold i64_min, i64_max, span32, period in *. destruct bk, u; cbn [clock_unit unit_secs] in Hs; lia.
Qed.

Lemma taking_valid : forall m s m', dt_valid m = true -> move_ok s -> calculate md (taking m s) = Ok (Moment m') -> dt_valid m' = true /\ nano m' = 0.
Proof.
  intros m s m' Hm Hs E. assert (T : tt_ok (taking m s) = true).
  { unfold taking. destruct (backward s); [apply minus_ok|apply plus_ok]; try exact Hm; apply move_i64, Hs. }
  split; [exact (moment_valid md _ _ T E)|]. refine (calculate_whole md _ _ E _). unfold taking. destruct (backward s); reflexivity.
Qed.

Lemma displaced : forall m s m', dt_valid m = true -> move_ok s -> calculate md (taking m s) = Ok (Moment m') ->
  dt_valid m' = true /\ nano m' = 0 /\ inst m' = inst m + displacement s m.
Proof.
  intros m s m' Hm Hs E. destruct (taking_valid m s m' Hm Hs E) as [V N]. split; [exact V|]. split; [exact N|]. unfold displacement.
  destruct (clock_unit (munit s)) eqn:Hu.
  - destruct s as [bk u n], Hs as [Hn Hs]. unfold taking in E. cbn [munit mcount backward] in *. rewrite Hu in Hs. destruct bk, (n <? 0) eqn:L.
    + destruct (sub_negative md m u n Hm Hu ltac:(lia)) as [O|(w & W & _ & _ & I)]; [exfalso; exact (not_oob _ _ O E)|]. rewrite W in E. injection E as <-. lia.
    + rewrite (clock_back_inst md m u n m' Hm Hu ltac:(lia) E). lia.
    + destruct (add_negative md m u n Hm Hu ltac:(lia)) as [O|(w & W & _ & _ & I)]; [exfalso; exact (not_oob _ _ O E)|]. rewrite W in E. injection E as <-. lia.
    + rewrite (ahead_inst md m u n m' Hm Hu ltac:(lia) Hs E). lia.
  - destruct (date_step m s m' Hm Hu Hs E) as (y & mo & d & -> & P & I & D). pose proof (repr_month _ _ _ P) as Mo. pose proof (sod_range m Hm) as R.
    rewrite inst_at, inst_sod by exact R.
    destruct (0 <? _); rewrite (index_day_of y mo) by lia; subst d; lia.
Qed.

Lemma swap_exactly : forall m p q m1 m12 m2 m21, dt_valid m = true -> move_ok p -> move_ok q ->
  calculate md (taking m p) = Ok (Moment m1) -> calculate md (taking m1 q) = Ok (Moment m12) ->
  calculate md (taking m q) = Ok (Moment m2) -> calculate md (taking m2 p) = Ok (Moment m21) ->
  (m12 = m21 <-> displacement p m + displacement q m1 = displacement q m + displacement p m2).
Proof.
  intros m p q m1 m12 m2 m21 Hm Hp Hq E1 E12 E2 E21.
  destruct (displaced _ _ _ Hm Hp E1) as (V1 & _ & D1). destruct (displaced _ _ _ V1 Hq E12) as (V12 & N12 & D12).
  destruct (displaced _ _ _ Hm Hq E2) as (V2 & _ & D2). destruct (displaced _ _ _ V2 Hp E21) as (V21 & N21 & D21).
  split; intro H.
  - subst m21. lia.
  - apply same_moment; try assumption. lia.
Qed.

(** Sums and differences as expressions. *)
Lemma swap_sums : forall m u a v b m1 m12 m2 m21, dt_valid m = true -> move_ok (mkmove false u a) -> move_ok (mkmove false v b) ->
  calculate md (Addition (Moment m) (mk u a)) = Ok (Moment m1) -> calculate md (Addition (Addition (Moment m) (mk u a)) (mk v b)) = Ok (Moment m12) ->
  calculate md (Addition (Moment m) (mk v b)) = Ok (Moment m2) -> calculate md (Addition (Addition (Moment m) (mk v b)) (mk u a)) = Ok (Moment m21) ->
  (m12 = m21 <-> displacement (mkmove false u a) m + displacement (mkmove false v b) m1 = displacement (mkmove false v b) m + displacement (mkmove false u a) m2).
Proof.
  intros m u a v b m1 m12 m2 m21 Hm Hp Hq E1 E12 E2 E21.
  assert (A : forall w n, move_ok (mkmove false w n) -> tt_ok (mk w n) = true /\ amount_only (mk w n) = true /\ abs_secs (mk w n) <= i64_max).
  { intros w n Hw. pose proof (move_i64 _ Hw) as I. destruct Hw as [L U]. cbn [backward munit mcount] in L, U, I.
    repeat split; [destruct w; exact I|destruct w; reflexivity|]. rewrite abs_secs_mk. unfold span32, i64_max in *. clear - L U. destruct w; cbn [unit_secs] in *; lia. }
  destruct (A _ _ Hp) as (P1 & P2 & P3). destruct (A _ _ Hq) as (Q1 & Q2 & Q3).
  rewrite (add_twice md m (mk u a) (mk v b) m1) in E12 by assumption. rewrite (add_twice md m (mk v b) (mk u a) m2) in E21 by assumption.
  exact (swap_exactly m (mkmove false u a) (mkmove false v b) m1 m12 m2 m21 Hm Hp Hq E1 E12 E2 E21).
Qed.

(** Negative amounts of clock units. *)
Lemma swap_negative : forall m p q m1 m12 m2 m21, dt_valid m = true -> clock_unit (munit p) = true -> clock_unit (munit q) = true ->
  -2147483648 <= mcount p < 0 -> -2147483648 <= mcount q < 0 ->
  calculate md (taking m p) = Ok (Moment m1) -> calculate md (taking m1 q) = Ok (Moment m12) ->
  calculate md (taking m q) = Ok (Moment m2) -> calculate md (taking m2 p) = Ok (Moment m21) -> m12 = m21.
Proof.
  intros m p q m1 m12 m2 m21 Hm Up Uq Np Nq E1 E12 E2 E21.
  assert (K : forall s, clock_unit (munit s) = true -> -2147483648 <= mcount s < 0 -> move_ok s /\ forall a b, displacement s a = displacement s b).
  { intros [bk u n] U N. cbn [munit mcount] in U, N. split.
    - split; cbn [munit mcount backward]; [lia|]. rewrite U. unfold span32, period. destruct bk, u; cbn [unit_secs]; lia.
    - intros a b. unfold displacement. cbn [munit mcount backward]. rewrite U. replace (n <? 0) with true by lia. destruct bk; reflexivity. }
  destruct (K p Up Np) as [Hp Kp]. destruct (K q Uq Nq) as [Hq Kq].
  apply (swap_exactly m p q m1 m12 m2 m21 Hm Hp Hq E1 E12 E2 E21). rewrite (Kp m2 m), (Kq m1 m). lia.
Qed.

(** From a day up to the 28th, steps of months and years. *)
Lemma early_step : forall m s m', dt_valid m = true -> clock_unit (munit s) = false -> move_ok s -> day m <= 28 -> calculate md (taking m s) = Ok (Moment m') ->
  exists y mo, m' = at_time y mo (day m) (sod m) /\ representable y mo (day m) = true /\ 12 * y + mo - 1 = month_index m + month_count s.
Proof.
  intros m s m' Hm Hu Hs Hd E. destruct (date_step m s m' Hm Hu Hs E) as (y & mo & d & -> & P & I & D). exists y, mo.
  assert (Z : (0 <? (if backward s then 0 else spill_any (munit s) (mcount s) m)) = false).
  { destruct (backward s); [reflexivity|]. destruct (spill_range (munit s) (mcount s) m Hm Hu) as [_ X]. lia. }
  rewrite Z in I, D. subst d. repeat split; try assumption. lia.
Qed.
Lemma same_index : forall y mo y' mo', 1 <= mo <= 12 -> 1 <= mo' <= 12 -> 12 * y + mo = 12 * y' + mo' -> y = y' /\ mo = mo'.
Proof. intros. lia. Qed.
Lemma at_day_sod : forall y mo d r, 0 <= r < 86400 -> sod (at_time y mo d r) = r.
Proof. intros y mo d r H. unfold sod, at_time. cbn [hour minute second]. lia. Qed.

Lemma swap_dates : forall m p q m1 m12 m2 m21, dt_valid m = true -> day m <= 28 -> clock_unit (munit p) = false -> clock_unit (munit q) = false -> move_ok p -> move_ok q ->
  calculate md (taking m p) = Ok (Moment m1) -> calculate md (taking m1 q) = Ok (Moment m12) ->
  calculate md (taking m q) = Ok (Moment m2) -> calculate md (taking m2 p) = Ok (Moment m21) -> m12 = m21.
Proof.
  intros m p q m1 m12 m2 m21 Hm Hd Up Uq Hp Hq E1 E12 E2 E21. pose proof (sod_range m Hm) as R.
  assert (T : forall s s' a b, move_ok s -> move_ok s' -> clock_unit (munit s) = false -> clock_unit (munit s') = false ->
    calculate md (taking m s) = Ok (Moment a) -> calculate md (taking a s') = Ok (Moment b) ->
    exists y mo, b = at_time y mo (day m) (sod m) /\ 1 <= mo <= 12 /\ 12 * y + mo - 1 = month_index m + month_count s + month_count s').
  { intros s s' a b Hs Hs' U U' Ea Eb. destruct (taking_valid _ _ _ Hm Hs Ea) as [Va _].
    destruct (early_step m s a Hm U Hs Hd Ea) as (y & mo & A & P & I). assert (Da : day a = day m) by (rewrite A; reflexivity).
    assert (Sa : sod a = sod m) by (rewrite A; apply at_day_sod, R). assert (Ia : month_index a = 12 * y + mo - 1) by (rewrite A; reflexivity).
    destruct (early_step a s' b Va U' Hs' ltac:(lia) Eb) as (y' & mo' & B & P' & I'). rewrite Da, Sa in B. exists y', mo'. split; [exact B|]. split; [exact (repr_month _ _ _ P')|]. lia. }
  destruct (T p q m1 m12 Hp Hq Up Uq E1 E12) as (y & mo & -> & M & I). destruct (T q p m2 m21 Hq Hp Uq Up E2 E21) as (y' & mo' & -> & M' & I').
  destruct (same_index y mo y' mo' M M' ltac:(lia)) as [-> ->]. reflexivity.
Qed.

(** Clock units up to 30 January of the next year. *)
Lemma swap_clock : forall m u a v b, dt_valid m = true -> clock_unit u = true -> clock_unit v = true -> 0 <= a -> 0 <= b ->
  inst m + a * unit_secs u + b * unit_secs v < instant (year m + 1) 1 31 0 0 0 -> inst m + a * unit_secs u + b * unit_secs v < instant (max_year + 1) 1 1 0 0 0 ->
  exists m1 m2 m', calculate md (Addition (Moment m) (mk u a)) = Ok (Moment m1) /\ calculate md (Addition (Moment m1) (mk v b)) = Ok (Moment m') /\
    calculate md (Addition (Moment m) (mk v b)) = Ok (Moment m2) /\ calculate md (Addition (Moment m2) (mk u a)) = Ok (Moment m').
Proof.
  intros m u a v b Hm Hu Hv Ha Hb L1 L2.
  assert (Pu : 0 <= a * unit_secs u) by (destruct u; cbn [unit_secs]; lia). assert (Pv : 0 <= b * unit_secs v) by (destruct v; cbn [unit_secs]; lia).
  assert (T : forall w x n n', clock_unit w = true -> clock_unit x = true -> 0 <= n -> 0 <= n' -> 0 <= n * unit_secs w -> 0 <= n' * unit_secs x ->
    inst m + n * unit_secs w + n' * unit_secs x < instant (year m + 1) 1 31 0 0 0 -> inst m + n * unit_secs w + n' * unit_secs x < instant (max_year + 1) 1 1 0 0 0 ->
    exists c e, calculate md (Addition (Moment m) (mk w n)) = Ok (Moment c) /\ calculate md (Addition (Moment c) (mk x n')) = Ok (Moment e) /\
      dt_valid e = true /\ nano e = 0 /\ inst e = inst m + n * unit_secs w + n' * unit_secs x).
  { intros w x n n' Hw Hx Hn Hn' Pw Px B1 B2.
    destruct (add_clock_exact md m w n Hm Hw Hn ltac:(lia) ltac:(lia)) as (c & C & Vc & _ & Ic).
    assert (Y : year m <= year c).
    { destruct (Z_le_gt_dec (year m) (year c)) as [Q|Q]; [exact Q|exfalso]. pose proof (inst_lt_date c m Vc Hm ltac:(lia)). lia. }
    assert (instant (year m + 1) 1 31 0 0 0 <= instant (year c + 1) 1 31 0 0 0).
    { unfold instant, day_number. rewrite !days_before_1. unfold days_before_year. lia. }
    destruct (add_clock_exact md c x n' Vc Hx Hn' ltac:(lia) ltac:(lia)) as (e & E & Ve & Ne & Ie). exists c, e. repeat split; try assumption. lia. }
  destruct (T u v a b Hu Hv Ha Hb Pu Pv ltac:(lia) ltac:(lia)) as (c & e & C & E & Ve & Ne & Ie).
  destruct (T v u b a Hv Hu Hb Ha Pv Pu ltac:(lia) ltac:(lia)) as (c' & e' & C' & E' & Ve' & Ne' & Ie').
  assert (e' = e) as -> by (apply same_moment; try assumption; lia).
  exists c, c', e. auto.
Qed.

(** Clock units within the month, and months or years. *)
Lemma swap_month : forall m u n q m1 m12 m2 m21, dt_valid m = true -> clock_unit u = true -> clock_unit (munit q) = false -> 0 <= n -> n * unit_secs u <= span32 -> move_ok q ->
  calculate md (Addition (Moment m) (mk u n)) = Ok (Moment m1) -> year m1 = year m -> month m1 = month m -> day m1 <= 28 ->
  calculate md (taking m1 q) = Ok (Moment m12) -> calculate md (taking m q) = Ok (Moment m2) -> calculate md (Addition (Moment m2) (mk u n)) = Ok (Moment m21) -> m12 = m21.
Proof.
  intros m u n q m1 m12 m2 m21 Hm Hu Uq Hn Hl Hq E1 Y1 M1 D1 E12 E2 E21.
  assert (Hp : move_ok (mkmove false u n)) by (split; cbn [backward munit mcount]; [lia|exact Hl]).
  assert (Pn : 0 <= n * unit_secs u) by (destruct u; cbn [unit_secs]; lia).
  destruct (taking_valid m (mkmove false u n) m1 Hm Hp E1) as [V1 _]. destruct (taking_valid m q m2 Hm Hq E2) as [V2 _].
  destruct (taking_valid m1 q m12 V1 Hq E12) as [V12 N12]. destruct (taking_valid m2 (mkmove false u n) m21 V2 Hp E21) as [V21 N21].
  pose proof (sod_range m Hm) as R. pose proof (sod_range m1 V1) as R1.
  assert (I1 : inst m1 = inst m + n * unit_secs u).
  { destruct (clock_key md m u n m1 Hm Hu Hn Hl E1) as [A B]. cbv zeta in A, B.
    destruct (Z_lt_le_dec (days_before (year m) (month m) + day m + (sod m + n * unit_secs u) / 86400 - year_length (year m) - 1) 0) as [L|L]; [apply (A L)|].
    destruct (B L) as (y & mo & d & -> & _ & _ & _ & Q). cbn [at_time year] in Y1. lia. }
  assert (D : day m <= 28).
  { rewrite !inst_sod in I1. unfold day_number in I1. rewrite Y1, M1 in I1. lia. }
  destruct (early_step m1 q m12 V1 Uq Hq D1 E12) as (y & mo & A & P & J). destruct (early_step m q m2 Hm Uq Hq D E2) as (y' & mo' & A' & P' & J').
  unfold month_index in J, J'. rewrite Y1, M1 in J.
  destruct (same_index y' mo' y mo (repr_month _ _ _ P') (repr_month _ _ _ P) ltac:(lia)) as [-> ->].
  apply same_moment; try assumption.
  assert (Q : inst m2 + n * unit_secs u = inst m12).
  { rewrite A, A'. rewrite !inst_at by assumption. rewrite !inst_sod in I1. unfold day_number in *. rewrite Y1, M1 in I1. lia. }
  assert (Y2 : year m2 = y) by (rewrite A'; reflexivity). assert (Y12 : year m12 = y) by (rewrite A; reflexivity).
  destruct (valid_facts m2 V2) as (B2 & _).
  assert (inst m12 < instant (y + 1) 1 1 0 0 0).
  { rewrite A. rewrite inst_at by assumption. pose proof P as P2. apply representable_iff in P2 as [_ P2]. 
    pose proof (day_number_lt_year y mo (day m1) (y + 1) 1 1 P2 ltac:(reflexivity) ltac:(lia)). unfold instant. lia. }
  assert (instant (y + 1) 1 1 0 0 0 <= instant (max_year + 1) 1 1 0 0 0).
  { unfold instant, day_number. rewrite !days_before_1. unfold days_before_year, max_year in *. lia. }
  destruct (add_clock_exact md m2 u n V2 Hu Hn) as (e & E & _ & _ & Ie).
  - rewrite Y2, Q. unfold instant, day_number in *. lia.
  - lia.
  - rewrite E in E21. injection E21 as <-. lia.
Qed.
End Swap.
