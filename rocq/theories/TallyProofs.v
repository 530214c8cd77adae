(** Number of given weekdays up to an end. *)
Require Import ZArith Znumtheory Bool List Lia ZifyBool.
From Verif Require Import Prelude Spec PreludeProofs CalendarProofs Chrono TimeType Matcher Iter SpecTree SpecMoment SpecIter SpecAdapt SpecSeq SpecExact SpecHang
  EvalProofs ShapeProofs CompProofs AmountProofs AddProofs AddProofs2 OrdProofs IterProofs IterProofs2 AdapterProofs AdapterProofs2 AdapterProofs3 SeqProofs VisitProofs ForeverProofs OftenProofs.
Import ListNotations.
Local Open Scope Z_scope.

Section Tally.
Variable md : mode.
Lemma before_steps : forall m x e st k, 0 < st -> dt_valid e = true -> nano x = 0 -> inst x = inst m + k * st -> (before x e <-> k < steps_before m e st).
Proof.
  intros m x e st k S0 He N0 I. pose proof (nano_range e He) as Ne. unfold before, steps_before. rewrite N0, I.
  set (b := if 0 <? nano e then 1 else 0). assert (Hb : b = 1 /\ 0 < nano e \/ b = 0 /\ nano e = 0) by (unfold b; destruct (0 <? nano e) eqn:Z0; lia). clearbody b.
  set (D := inst e - inst m + b - 1). pose proof (Z.div_mod D st ltac:(lia)) as E. pose proof (Z.mod_pos_bound D st S0) as M.
  assert (Q : k * st <= D <-> k < D / st + 1).
  { split; intro H; [|nia]. destruct (Z_lt_le_dec k (D / st + 1)) as [L|L]; [exact L|nia]. }
  rewrite <- Q. unfold D. lia.
Qed.
Lemma in_nth : forall {A} (l : list A) x, In x l <-> exists j, (j < length l)%nat /\ nth_error l j = Some x.
Proof.
  intros A l x. split.
  - intro H. destruct (In_nth_error l x H) as [j E]. exists j. split; [|exact E]. apply nth_error_Some. rewrite E. discriminate.
  - intros (j & _ & E). exact (nth_error_In l j E).
Qed.
Lemma tally_bounds : forall p N g, 0 < p -> 0 < N -> g < p -> let L := (N + p - 1 - g) / p in 0 <= L /\ g + p * (L - 1) < N /\ N <= g + p * L.
Proof.
  intros p N g Hp HN Hg L. pose proof (Z.div_mod (N + p - 1 - g) p ltac:(lia)) as E. pose proof (Z.mod_pos_bound (N + p - 1 - g) p Hp) as M.
  assert (L0 : 0 <= L) by (apply Z.div_pos; lia). fold L in E. clearbody L. split; [exact L0|]. rewrite Z.mul_sub_distr_l. lia.
Qed.
Lemma tally : forall m u n c it d fuel ending, build m (mk u n) = Ok it -> dt_valid m = true -> nano m = 0 -> clock_unit u = true -> n * unit_secs u = c * 86400 -> 1 <= c <= 30 ->
  (Z.gcd c 7 | wday_into d - weekday (year m) (month m) (day m)) -> (7 <= fuel)%nat -> dt_valid ending = true -> before m ending ->
  let p := 7 / Z.gcd c 7 in let N := steps_before m ending (c * 86400) in
  inst m + (N + p) * (c * 86400) < instant (max_year + 1) 1 1 0 0 0 ->
  exists l, collects (until_next md (filter_next (iter_next md) fuel (day_matches d)) ending) it l /\
    (exists g, 0 <= g < p /\ (g * c) mod 7 = (wday_into d - weekday (year m) (month m) (day m)) mod 7 /\ Z.of_nat (length l) = (N + p - 1 - g) / p) /\
    (forall r, In r l <-> exists x, r = Ok (Moment x) /\ dt_valid x = true /\ nano x = 0 /\ inst m <= inst x /\ before x ending /\
      (c * 86400 | inst x - inst m) /\ on_day d x = true).
Proof.
  intros m u n c it d fuel e B Hm N0 Hu Ec Hc D Hf He Be p N R.
  destruct (often_day_full md m u n c it d B Hm Hu Ec Hc D) as (g & Hg & Pin & H). fold p in Hg, H.
  set (st := c * 86400) in *. assert (S0 : 0 < st) by (subst st; lia).
  assert (N1 : 0 < N) by (apply (before_steps m m e st 0 S0 He N0); [ring|exact Be]).
  assert (P0 : 0 < p <= 7) by (unfold p; apply (period_pos 7 ltac:(lia) c)).
  set (L := (N + p - 1 - g) / p).
  assert (HL : 0 <= L /\ g + p * (L - 1) < N /\ N <= g + p * L) by (apply tally_bounds; lia).
  assert (It : forall j, Z.of_nat j <= L -> exists x, nth_item (filter_next (iter_next md) fuel (day_matches d)) j it = Some (Ok (Moment x)) /\ dt_valid x = true /\
    inst x = inst m + (g + p * Z.of_nat j) * st /\ on_day d x = true /\ nano x = 0).
  { intros j Hj. destruct (H j fuel Hf) as (x & F & V & I & O & Z0).
    - assert (p * Z.of_nat j <= p * L) by (apply Z.mul_le_mono_nonneg_l; lia). assert (g + p * Z.of_nat j <= N + p) by lia. assert ((g + p * Z.of_nat j) * st <= (N + p) * st) by (apply Z.mul_le_mono_nonneg_r; lia). lia.
    - exists x. auto 6. }
  destruct (collect_n (until_next md (filter_next (iter_next md) fuel (day_matches d)) e) (Z.to_nat L) it) as (l & C & Ln & Hl).
  - intros j Hj. destruct (It j ltac:(lia)) as (x & F & V & I & O & Z0).
    rewrite (proj1 (until_moment md _ e j it _ x V He F (calc_value md (Moment _) eq_refl))); [discriminate|].
    apply (before_steps m x e st _ S0 He Z0 I). fold N. assert (p * Z.of_nat j <= p * (L - 1)) by (apply Z.mul_le_mono_nonneg_l; lia). lia.
  - destruct (It (Z.to_nat L) ltac:(lia)) as (x & F & V & I & O & Z0).
    apply (until_moment md _ e _ it _ x V He F (calc_value md (Moment _) eq_refl)). intro X. apply (before_steps m x e st _ S0 He Z0 I) in X. fold N in X.
    rewrite Z2Nat.id in X by lia. lia.
  - exists l. split; [exact C|]. split; [exists g; split; [exact Hg|]; split; [exact Pin|]; rewrite Ln; fold L; lia|].
    assert (Each : forall j, (j < Z.to_nat L)%nat -> exists x, nth_error l j = Some (Ok (Moment x)) /\ dt_valid x = true /\
      inst x = inst m + (g + p * Z.of_nat j) * st /\ on_day d x = true /\ nano x = 0 /\ before x e).
    { intros j Hj. destruct (It j ltac:(lia)) as (x & F & V & I & O & Z0). exists x.
      assert (Bx : before x e) by (apply (before_steps m x e st _ S0 He Z0 I); fold N; assert (p * Z.of_nat j <= p * (L - 1)) by (apply Z.mul_le_mono_nonneg_l; lia); lia).
      split; [|auto 6]. apply Hl; [exact Hj|]. apply (until_moment md _ e j it _ x V He F (calc_value md (Moment _) eq_refl)). exact Bx. }
    intro r. rewrite in_nth. rewrite Ln. split.
    + intros (j & Hj & E). destruct (Each j Hj) as (x & F & V & I & O & Z0 & Bx). exists x. rewrite F in E.
      assert (K0 : 0 <= (g + p * Z.of_nat j) * st) by (apply Z.mul_nonneg_nonneg; [apply Z.add_nonneg_nonneg; [lia|apply Z.mul_nonneg_nonneg; lia]|lia]).
      split; [congruence|]. split; [exact V|]. split; [exact Z0|]. split; [lia|]. split; [exact Bx|]. split; [|exact O].
      exists (g + p * Z.of_nat j). lia.
    + intros (x & -> & V & Z0 & G & Bx & [k K] & O). assert (I : inst x = inst m + k * st) by lia.
      assert (K0 : 0 <= k) by (apply (Z.mul_le_mono_pos_r 0 k st S0); lia). assert (KN : k < N) by (apply (before_steps m x e st k S0 He Z0 I); exact Bx).
      assert (Km : k mod p = g).
      { destruct (hits 7 ltac:(lia) hit_7 c _ D) as (g' & Hg' & Hh). change (period_of 7 c) with p in Hg', Hh.
        assert (g' = g). { assert (Q : g mod p = g') by (apply Hh; [lia|exact Pin]). rewrite Z.mod_small in Q by lia. lia. } subst g'.
        apply Hh; [exact K0|]. pose proof (day_decides m x d c k Hm V I) as DD. unfold day_matches in DD. cbn [get_moment ok_or] in DD.
        unfold on_day in O. unfold dt_weekday in DD. rewrite Z.eqb_sym, O in DD. injection DD as DD. symmetry in DD. apply Z.eqb_eq in DD. exact DD. }
      assert (Ek : k = g + p * (k / p)) by (rewrite <- Km at 1; pose proof (Z.div_mod k p ltac:(lia)); lia).
      assert (J0 : 0 <= k / p) by (apply Z.div_pos; lia). assert (JL : k / p < L) by (apply (Z.mul_lt_mono_pos_l p); [lia|]; lia).
      destruct (Each (Z.to_nat (k / p)) ltac:(lia)) as (y & F & V' & I' & O' & Z0' & _). exists (Z.to_nat (k / p)). split; [lia|].
      rewrite Z2Nat.id in I' by lia. rewrite <- Ek in I'. assert (Q : y = x) by (apply inst_same; congruence). rewrite F, Q. reflexivity.
Qed.
Lemma tally_even : forall p N g, 0 < p -> 0 < N -> 0 <= g < p -> N / p <= (N + p - 1 - g) / p <= N / p + 1.
Proof.
  intros p N g Hp HN Hg. split; [apply Z.div_le_mono; lia|]. replace (N / p + 1) with ((N + 1 * p) / p) by (rewrite Z.div_add; lia). apply Z.div_le_mono; lia.
Qed.
(** Between the numbers of two weekdays there is at most one item. *)
Lemma tally_fair : forall m u n c it d d' fuel ending l l', build m (mk u n) = Ok it -> dt_valid m = true -> nano m = 0 -> clock_unit u = true -> n * unit_secs u = c * 86400 -> 1 <= c <= 30 ->
  Z.gcd c 7 = 1 -> (7 <= fuel)%nat -> dt_valid ending = true -> before m ending ->
  inst m + (steps_before m ending (c * 86400) + 7) * (c * 86400) < instant (max_year + 1) 1 1 0 0 0 ->
  collects (until_next md (filter_next (iter_next md) fuel (day_matches d)) ending) it l ->
  collects (until_next md (filter_next (iter_next md) fuel (day_matches d')) ending) it l' ->
  (length l <= length l' + 1)%nat.
Proof.
  intros m u n c it d d' fuel e l l' B Hm N0 Hu Ec Hc G Hf He Be R C C'.
  assert (A : forall d l, collects (until_next md (filter_next (iter_next md) fuel (day_matches d)) e) it l ->
    steps_before m e (c * 86400) / 7 <= Z.of_nat (length l) <= steps_before m e (c * 86400) / 7 + 1).
  { intros d0 l0 C0. destruct (tally m u n c it d0 fuel e B Hm N0 Hu Ec Hc) as (l1 & C1 & (g & Hg & _ & Ln) & _); try assumption.
    - rewrite G. apply Z.divide_1_l.
    - rewrite G. exact R.
    - rewrite (collects_unique _ _ _ _ C0 C1), Ln. rewrite G in Hg |- *. change (7 / 1) with 7 in *. apply tally_even; [lia| |exact Hg].
      apply (before_steps m m e (c * 86400) 0 ltac:(lia) He N0); [ring|exact Be]. }
  pose proof (A d l C). pose proof (A d' l' C'). lia.
Qed.
End Tally.
