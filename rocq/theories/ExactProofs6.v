(** Subtracting one amount after the other. *)
Require Import ZArith Bool List Lia ZifyBool.
From Verif Require Import Prelude Spec Chrono Util TimeType Iter SpecTree SpecMoment SpecIter SpecExact PreludeProofs EvalProofs AmountProofs ShapeProofs CompProofs CalendarProofs
  AddProofs AddProofs2 SubProofs SubProofs2 EndProofs IterProofs IterProofs2 ExactProofs2 ExactProofs4.
Local Open Scope Z_scope.
Local Ltac Zify.zify_post_hook ::= Z.to_euclidean_division_equations.

Section Twice.
Variable md : mode.

(** Where a clock subtraction that succeeds ends. *)
Definition total (u : tunit) (n : Z) (m : datetime) : Z := sod m - n * unit_secs u - skip_count u n m * (modulus u * unit_secs u).
Lemma sub_shape : forall m u n m', dt_valid m = true -> clock_unit u = true -> 0 <= n < 2147483648 ->
  calculate md (Subtraction (Moment m) (mk u n)) = Ok (Moment m') ->
  -30 <= day m + total u n m / 86400 /\ (u <> UDay -> -2 <= total u n m / 86400) /\
  built3 (back_day (year m) (month m) (day m + total u n m / 86400)) (total u n m mod 86400) = Ok (Moment m').
Proof.
  intros m u n m' Hm Hu Hn E. pose proof (sod_range m Hm) as Sr. destruct (valid_facts m Hm) as (Vy & Vmo & Vd & Vml & Vh & Vmi & Vs).
  unfold total, skip_count. rewrite Hu. cbn [andb]. assert (Cu : u = UDay \/ u <> UDay) by (destruct u; auto; right; discriminate). destruct Cu as [->|Cu].
  - cbn [sub_skips mk unit_secs] in *. destruct (sub_days md m n Hm Hn) as [A B]. cbv zeta in A, B.
    replace ((sod m - n * 86400 - 0 * (modulus UDay * 86400)) / 86400) with (- n) by lia. replace ((sod m - n * 86400 - 0 * (modulus UDay * 86400)) mod 86400) with (sod m) by lia.
    destruct (Z_le_gt_dec (-30) (day m - n)) as [L|L].
    + split; [lia|]. split; [intro C; contradiction C; reflexivity|]. rewrite A in E by lia. replace (day m + - n) with (day m - n) by lia. exact E.
    + exfalso. exact (oob_err _ (B ltac:(lia)) _ E).
  - destruct (sub_clock md m u n Hm Hu Cu Hn) as (A & B & C). cbv zeta in A, B, C.
    assert (Sk : sub_skips u n m = (field u m - n =? - modulus u)) by (destruct u; try reflexivity; contradiction Cu; reflexivity).
    assert (Fb : 0 <= field u m < modulus u /\ field u m * unit_secs u <= sod m < field u m * unit_secs u + 86400 /\ modulus u * unit_secs u <= 86400)
      by (unfold sod in *; destruct u; try discriminate Hu; try (contradiction Cu; reflexivity); cbn [field modulus unit_secs]; lia).
    rewrite Sk. destruct (Z.lt_trichotomy (- modulus u) (field u m - n)) as [L|[L|L]].
    + replace (field u m - n =? - modulus u) with false by lia.
      replace (sod m - n * unit_secs u - 0 * (modulus u * unit_secs u)) with (sod m - n * unit_secs u) by lia. rewrite A in E by lia.
      assert (-1 <= (sod m - n * unit_secs u) / 86400) by (destruct u; try discriminate Hu; try (contradiction Cu; reflexivity); cbn [field modulus unit_secs] in *; lia).
      split; [lia|]. split; [lia|exact E].
    + replace (field u m - n =? - modulus u) with true by lia.
      replace (sod m - n * unit_secs u - 1 * (modulus u * unit_secs u)) with (sod m - n * unit_secs u - modulus u * unit_secs u) by lia. rewrite B in E by lia.
      assert (-2 <= (sod m - n * unit_secs u - modulus u * unit_secs u) / 86400) by (destruct u; try discriminate Hu; try (contradiction Cu; reflexivity); cbn [field modulus unit_secs] in *; lia).
      split; [lia|]. split; [lia|exact E].
    + exfalso. exact (oob_err _ (C ltac:(lia)) _ E).
Qed.
(** Days and seconds back, counting months as 31 days; [x] is day * 86400 + second of the day. *)
Definition back_to (y mo x : Z) : Z * Z * Z := back_day y mo (x / 86400).
Lemma back_to_inj : forall y mo x x', 1 <= mo <= 12 -> -30 <= x / 86400 -> -30 <= x' / 86400 ->
  back_to y mo x = back_to y mo x' -> x mod 86400 = x' mod 86400 -> x = x'.
Proof.
  intros y mo x x' Hmo H H' E M. unfold back_to, back_day, prev_month in E.
  destruct (1 <=? x / 86400) eqn:C, (1 <=? x' / 86400) eqn:C'; destruct (mo =? 1) eqn:M1; apply triple_eq in E as (E1 & E2 & E3); lia.
Qed.

Lemma at_inj : forall y mo d y' mo' d' r r', 0 <= r < 86400 -> 0 <= r' < 86400 -> at_time y mo d r = at_time y' mo' d' r' -> (y, mo, d) = (y', mo', d') /\ r = r'.
Proof. intros y mo d y' mo' d' r r' H H' E. unfold at_time in E. injection E as E1 E2 E3 E4 E5 E6. split; [congruence|lia]. Qed.
Lemma built3_ok : forall q r v, built3 q r = Ok v -> v = Moment (let '(y, mo, d) := q in at_time y mo d r).
Proof. intros [[y mo] d] r v E. cbn [built3] in E. apply built_ok in E as [_ E]. exact E. Qed.

Lemma sub_twice_clock : forall m u a b m1 m2 m3, dt_valid m = true -> dt_valid m1 = true -> clock_unit u = true -> 0 <= a -> 0 <= b -> a + b < 2147483648 ->
  calculate md (Subtraction (Moment m) (mk u a)) = Ok (Moment m1) -> calculate md (Subtraction (Moment m1) (mk u b)) = Ok (Moment m2) ->
  calculate md (Subtraction (Moment m) (mk u (a + b))) = Ok (Moment m3) ->
  (m2 = m3 <-> skip_count u a m + skip_count u b m1 = skip_count u (a + b) m).
Proof.
  intros m u a b m1 m2 m3 Hm V1 Hu Ha Hb Hab E1 E2 E3.
  destruct (sub_shape m u a m1 Hm Hu ltac:(lia) E1) as (L1 & N1 & F1). destruct (sub_shape m1 u b m2 V1 Hu ltac:(lia) E2) as (L2 & N2 & F2).
  destruct (sub_shape m u (a + b) m3 Hm Hu ltac:(lia) E3) as (L3 & N3 & F3).
  destruct (valid_facts m Hm) as (Vy & Vmo & Vd & _). destruct (valid_facts m1 V1) as (Wy & Wmo & Wd & _).
  assert (Q : (u = UDay /\ skip_count u a m = 0 /\ skip_count u b m1 = 0 /\ skip_count u (a + b) m = 0) \/ (u <> UDay /\ 0 < modulus u * unit_secs u)).
  { destruct u; try discriminate Hu; [right|right|right|left]; cbn [modulus unit_secs]; unfold skip_count; cbn [sub_skips clock_unit andb]; (split; [first [reflexivity|discriminate]|]); try lia. }
  set (x1 := day m * 86400 + total u a m). set (x2 := day m1 * 86400 + total u b m1). set (x3 := day m * 86400 + total u (a + b) m).
  assert (D1 : day m + total u a m / 86400 = x1 / 86400 /\ total u a m mod 86400 = x1 mod 86400) by (subst x1; lia).
  assert (D2 : day m1 + total u b m1 / 86400 = x2 / 86400 /\ total u b m1 mod 86400 = x2 mod 86400) by (subst x2; lia).
  assert (D3 : day m + total u (a + b) m / 86400 = x3 / 86400 /\ total u (a + b) m mod 86400 = x3 mod 86400) by (subst x3; lia).
  destruct D1 as [D1 R1]. destruct D2 as [D2 R2]. destruct D3 as [D3 R3]. rewrite D1, R1 in F1. rewrite D2, R2 in F2. rewrite D3, R3 in F3. rewrite D1 in L1. rewrite D2 in L2. rewrite D3 in L3.
  apply built3_ok in F1. apply built3_ok in F2. apply built3_ok in F3. injection F1 as F1. injection F2 as F2. injection F3 as F3.
  assert (P1 : 0 <= x1 mod 86400 < 86400) by (apply Z.mod_pos_bound; lia). assert (P2 : 0 <= x2 mod 86400 < 86400) by (apply Z.mod_pos_bound; lia). assert (P3 : 0 <= x3 mod 86400 < 86400) by (apply Z.mod_pos_bound; lia).
  assert (S1 : sod m1 = x1 mod 86400).
  { rewrite F1. destruct (back_day (year m) (month m) (x1 / 86400)) as [[y mo] d]. apply at_facts. exact P1. }
  (* totals *)
  assert (T : x3 - x1 = - b * unit_secs u + (skip_count u a m - skip_count u (a + b) m) * (modulus u * unit_secs u)) by (subst x1 x3; unfold total; ring).
  assert (T2 : x2 = day m1 * 86400 + x1 mod 86400 - b * unit_secs u - skip_count u b m1 * (modulus u * unit_secs u)) by (subst x2; unfold total; rewrite S1; ring).
  assert (Us : 0 < unit_secs u) by (destruct u; reflexivity).
  assert (Main : forall s, back_day (year m1) (month m1) (x2 / 86400) = back_to (year m) (month m) (x2 - s * 86400) -> -30 <= (x2 - s * 86400) / 86400 -> x2 - s * 86400 = x1 - b * unit_secs u - skip_count u b m1 * (modulus u * unit_secs u) ->
    (m2 = m3 <-> skip_count u a m + skip_count u b m1 = skip_count u (a + b) m)).
  { intros s B Ls X. assert (I : m2 = m3 <-> x2 - s * 86400 = x3).
    { rewrite F2, F3. rewrite B. replace (x2 mod 86400) with ((x2 - s * 86400) mod 86400) by lia. split.
      - intro E. apply (back_to_inj (year m) (month m)); [exact Vmo|exact Ls|exact L3| |]; unfold back_to in *;
          destruct (back_day (year m) (month m) ((x2 - s * 86400) / 86400)) as [[y mo] d], (back_day (year m) (month m) (x3 / 86400)) as [[y' mo'] d'];
          apply at_inj in E; try (apply Z.mod_pos_bound; lia); destruct E as [E1' E2']; assumption.
      - intros <-. reflexivity. }
    rewrite I. clear I B F1 F2 F3. destruct Q as [(-> & K1 & K2 & K3)|[_ Qp]].
    - rewrite K1, K2, K3 in *. lia.
    - clear - T X Qp. set (q := modulus u * unit_secs u) in *. generalize dependent q. intros q T X Qp.
      assert (Y : x2 - s * 86400 - x3 = (skip_count u (a + b) m - skip_count u a m - skip_count u b m1) * q) by lia. split; intro Z.
      + assert (W : (skip_count u (a + b) m - skip_count u a m - skip_count u b m1) * q = 0) by lia. apply Z.mul_eq_0 in W. lia.
      + assert (W : skip_count u (a + b) m - skip_count u a m - skip_count u b m1 = 0) by lia. rewrite W in Y. lia. }
  unfold back_day in F1. destruct (1 <=? x1 / 86400) eqn:C1.
  - assert (Fd : year m1 = year m /\ month m1 = month m /\ day m1 = x1 / 86400) by (rewrite F1; auto). destruct Fd as (Y1 & M1 & Dd).
    apply (Main 0); [rewrite Y1, M1; unfold back_to; do 2 f_equal; lia|lia|]. rewrite T2, Dd. clear. lia.
  - assert (Fd : (year m1, month m1) = prev_month (year m) (month m) /\ day m1 = 31 + x1 / 86400) by (rewrite F1; destruct (prev_month (year m) (month m)) as [py pm]; auto).
    destruct Fd as (Y1 & Dd).
    assert (X : x2 - 31 * 86400 = x1 - b * unit_secs u - skip_count u b m1 * (modulus u * unit_secs u)) by (rewrite T2, Dd; clear; lia).
    destruct (Z_le_gt_dec 1 (x2 / 86400)) as [G|G].
    + apply (Main 31); [|lia|exact X].
      unfold back_to, back_day. replace (1 <=? x2 / 86400) with true by lia.
      assert (Hneg : 0 <= b * unit_secs u /\ 0 <= skip_count u b m1 * (modulus u * unit_secs u))
        by (split; [nia|]; destruct Q as [(_ & _ & -> & _)|[_ Qp]]; [lia|]; unfold skip_count; destruct (_ && _); nia).
      replace (1 <=? (x2 - 31 * 86400) / 86400) with false by lia.
      destruct (prev_month (year m) (month m)) as [py pm]. injection Y1 as -> ->. f_equal. lia.
    + exfalso. destruct Q as [(-> & K1 & K2 & K3)|[Cu Qp]].
      * rewrite K1, K2, K3 in *. lia.
      * specialize (N1 Cu). specialize (N2 Cu). assert (-1 <= x1 / 86400) by lia. lia.
Qed.
Lemma sub_twice : forall m u a b m1 v w, dt_valid m = true -> 0 <= a -> 0 <= b -> a + b < 2147483648 -> 
  calculate md (Subtraction (Moment m) (mk u a)) = Ok (Moment m1) ->
  calculate md (Subtraction (Subtraction (Moment m) (mk u a)) (mk u b)) = Ok v ->
  calculate md (Subtraction (Moment m) (mk u (a + b))) = Ok w ->
  (v = w <-> skip_count u a m + skip_count u b m1 = skip_count u (a + b) m).
Proof.
  intros m u a b m1 v w Hm Ha Hb Hab E1 E2 E3.
  assert (Ia : in_i64 a = true /\ in_i64 b = true /\ in_i64 (a + b) = true) by (repeat split; apply in_i64_iff; unfold i64_min, i64_max; lia). destruct Ia as (Ia & Ib & Iab).
  assert (Ht : tt_ok (Subtraction (Moment m) (mk u a)) = true) by (cbn [tt_ok]; rewrite Hm, ok_mk; exact Ia).
  assert (V1 : dt_valid m1 = true) by (pose proof (calculate_good md _ Ht) as G; rewrite E1 in G; apply G).
  assert (E4 : calculate md (Subtraction (Moment m1) (mk u b)) = Ok v).
  { destruct (calc_sub_comp md (Subtraction (Moment m) (mk u a)) (mk u b) Ht) as (C & _); [rewrite ok_mk; exact Ib|cbn [shape_of is_end]; rewrite !shape_mk; discriminate|].
    rewrite <- E2. symmetry. apply C; [exact E1|]. apply calc_value. destruct u; reflexivity. }
  assert (Mo : forall x t n, calculate md (Subtraction (Moment x) (mk u n)) = Ok t -> exists y, t = Moment y).
  { intros x t n E. pose proof (calculate_shape md (Subtraction (Moment x) (mk u n))) as K. rewrite E in K. cbn [shape_of is_end] in K. rewrite shape_mk in K.
    destruct t; try discriminate K; eauto. }
  destruct (Mo _ _ _ E4) as [m2 ->]. destruct (Mo _ _ _ E3) as [m3 ->]. destruct (valid_facts m Hm) as (Vy & Vmo & Vd & _). destruct (valid_facts m1 V1) as (Wy & Wmo & Wd & _).
  destruct (clock_unit u) eqn:Cu.
  - rewrite <- (sub_twice_clock m u a b m1 m2 m3 Hm V1 Cu Ha Hb Hab E1 E4 E3). split; [intro E; injection E; auto|intros ->; reflexivity].
  - unfold skip_count. rewrite Cu. cbn [andb]. split; [reflexivity|intros _]. f_equal. pose proof (sod_range m Hm) as Sr.
    destruct u; try discriminate Cu; cbn [mk] in *.
    + assert (G : forall x n x', dt_valid x = true -> 0 <= n < 2147483648 -> calculate md (Subtraction (Moment x) (Months n)) = Ok (Moment x') ->
        x' = at_time ((12 * year x + month x - 1 - n) / 12) ((12 * year x + month x - 1 - n) mod 12 + 1) (day x) (sod x)).
      { intros x n x' Hx Hn E. destruct (valid_facts x Hx) as (_ & Xm & _). destruct (sub_months md x n Hx Hn) as (A & B & C). cbv zeta in A, B, C.
        destruct (Z_le_gt_dec 1 (month x - n)); [|destruct (Z_le_gt_dec (-11) (month x - n))].
        - rewrite A in E by lia. apply built_ok in E as [_ E]. injection E as ->. f_equal; lia.
        - rewrite B in E by lia. apply built_ok in E as [_ E]. injection E as ->. f_equal; lia.
        - exfalso. exact (oob_err _ (C ltac:(lia)) _ E). }
      rewrite (G m1 b m2 V1 ltac:(lia) E4), (G m (a + b) m3 Hm ltac:(lia) E3). rewrite (G m a m1 Hm ltac:(lia) E1). rewrite at_facts by exact Sr. cbn [at_time year month day]. f_equal; lia.
    + assert (G : forall x n x', dt_valid x = true -> 0 <= n < 2147483648 -> calculate md (Subtraction (Moment x) (Years n)) = Ok (Moment x') ->
        x' = at_time (year x - n) (month x) (day x) (sod x)).
      { intros x n x' Hx Hn E. destruct (valid_facts x Hx) as (Xy & _). unfold min_year, max_year in Xy. assert (In : in_i64 n = true) by (apply in_i64_iff; unfold i64_min, i64_max; lia).
        rewrite sub_years in E by (try assumption; unfold i64_min, i64_max; lia).
        apply built_ok in E as [R E]. injection E as ->. f_equal. apply representable_iff in R as [R _]. unfold wrap32, min_year, max_year in *. lia. }
      rewrite (G m1 b m2 V1 ltac:(lia) E4), (G m (a + b) m3 Hm ltac:(lia) E3). rewrite (G m a m1 Hm ltac:(lia) E1). rewrite at_facts by exact Sr. cbn [at_time year month day]. f_equal; lia.
Qed.
Lemma sub_twice_dates : forall m u a b v w, u = UDay \/ u = UMonth \/ u = UYear -> dt_valid m = true -> 0 <= a -> 0 <= b -> a + b < 2147483648 ->
  calculate md (Subtraction (Subtraction (Moment m) (mk u a)) (mk u b)) = Ok v ->
  calculate md (Subtraction (Moment m) (mk u (a + b))) = Ok w -> v = w.
Proof.
  intros m u a b v w Hu Hm Ha Hb Hab E2 E3. assert (Ia : in_i64 a = true /\ in_i64 b = true) by (split; apply in_i64_iff; unfold i64_min, i64_max; lia). destruct Ia as [Ia Ib].
  assert (Ht : tt_ok (Subtraction (Moment m) (mk u a)) = true) by (cbn [tt_ok]; rewrite Hm, ok_mk; exact Ia).
  destruct (calc_sub_comp md (Subtraction (Moment m) (mk u a)) (mk u b) Ht) as (_ & C & _); [rewrite ok_mk; exact Ib|cbn [shape_of is_end]; rewrite !shape_mk; discriminate|].
  rewrite E2 in C. pose proof (calculate_shape md (Subtraction (Moment m) (mk u a))) as K. cbn [shape_of is_end] in K. rewrite shape_mk in K.
  destruct (calculate md (Subtraction (Moment m) (mk u a))) as [x| | |] eqn:E1; try discriminate (C eq_refl). destruct x; try discriminate K.
  apply (sub_twice m u a b _ v w Hm Ha Hb Hab E1 E2 E3). unfold skip_count. destruct Hu as [->|[->| ->]]; reflexivity.
Qed.
End Twice.
