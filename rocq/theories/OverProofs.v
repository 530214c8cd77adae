(** When the arithmetic of an evaluation overflows. *)
Require Import ZArith Bool List Lia ZifyBool.
From Verif Require Import Prelude Spec Chrono Util TimeType SpecTree SpecMoment SpecOver PreludeProofs CalendarProofs EvalProofs AmountProofs
  ShapeProofs CompProofs LoopProofs AddProofs AddProofs2 SubProofs EndProofs.
Local Open Scope Z_scope.
Ltac Zify.zify_post_hook ::= Z.div_mod_to_equations.

(** ** Amounts *)
Lemma arith_checked : forall z, @arith kek Checked z = if in_i64 z then Ok z else Panic PArith.
Proof. intro z. unfold arith. destruct (in_i64 z); reflexivity. Qed.
(** How often the finer unit fits. *)
Definition ratio (u w : tunit) : Z := unit_secs u / unit_secs w.
Definition leaf_fits (s : Z) (u v : tunit) (n k : Z) : bool :=
  let w := finer u v in in_i64 (n * ratio u w) && in_i64 (k * ratio v w) && in_i64 (n * ratio u w + s * (k * ratio v w)).

Ltac closed t := let v := eval vm_compute in t in change t with v.
Ltac numbers := repeat match goal with |- context [finer ?a ?b] => closed (finer a b) end;
  repeat match goal with |- context [ratio ?a ?b] => closed (ratio a b) end;
  repeat match goal with |- context [Z.mul (Zpos ?a) (Zpos ?b)] => closed (Z.mul (Zpos a) (Zpos b)) end.
Ltac leaf Hn Hk :=
  repeat (rewrite mulc_mulc by lia); cbv zeta; numbers; cbn [mk];
  unfold addc, subc, mulc; cbn [bind]; rewrite ?arith_checked, ?Z.mul_1_r, ?Hn, ?Hk, ?Z.mul_1_l; cbn [bind andb];
  repeat match goal with |- context [in_i64 (?a * Zpos ?z)] => destruct (in_i64 (a * Zpos z)); cbn [bind andb]; rewrite ?arith_checked; try reflexivity end;
  match goal with |- bind (if in_i64 ?X then _ else _) _ = (if in_i64 ?Y then _ else _) => replace Y with X by lia; destruct (in_i64 X); cbn [bind]; [|reflexivity];
     match goal with |- Ok (_ ?c) = Ok (_ ?d) => replace d with c by lia; reflexivity end end.

Lemma leaf_add : forall u v n k, in_i64 n = true -> in_i64 k = true ->
  calculate Checked (Addition (mk u n) (mk v k)) =
  if leaf_fits 1 u v n k then Ok (mk (finer u v) (n * ratio u (finer u v) + k * ratio v (finer u v))) else Panic PArith.
Proof.
  intros u v n k Hn Hk. change (calculate Checked (Addition (mk u n) (mk v k))) with (ev Checked (CAdd (mk u n) (mk v k))).
  rewrite ev_eq by (split; rewrite ok_mk; assumption). unfold leaf_fits.
  destruct u, v; cbn [mk body add];
    repeat match goal with |- context [ev Checked ?c] => rewrite (ev_eq Checked c) by assumption; cbn [body] end;
    cbn [add_to_seconds add_to_minutes add_to_hours add_to_days add_to_months add_to_years]; leaf Hn Hk.
Qed.
Lemma leaf_sub : forall u v n k, in_i64 n = true -> in_i64 k = true ->
  calculate Checked (Subtraction (mk u n) (mk v k)) =
  if leaf_fits (-1) u v n k then Ok (mk (finer u v) (n * ratio u (finer u v) - k * ratio v (finer u v))) else Panic PArith.
Proof.
  intros u v n k Hn Hk. change (calculate Checked (Subtraction (mk u n) (mk v k))) with (ev Checked (CSub (mk u n) (mk v k))).
  rewrite ev_eq by (split; rewrite ok_mk; assumption). unfold leaf_fits.
  destruct u, v; cbn [mk body sub];
    repeat match goal with |- context [ev Checked ?c] => rewrite (ev_eq Checked c) by assumption; cbn [body] end;
    cbn [sub_from_seconds sub_from_minutes sub_from_hours sub_from_days sub_from_months sub_from_years]; leaf Hn Hk.
Qed.

Lemma ratio_l : forall u v, unit_secs u = ratio u (finer u v) * unit_secs (finer u v).
Proof. destruct u, v; reflexivity. Qed.
Lemma ratio_r : forall u v, unit_secs v = ratio v (finer u v) * unit_secs (finer u v).
Proof. destruct u, v; reflexivity. Qed.
Lemma count_eq : forall w t x, x * unit_secs w = secs t -> count_fits w t = in_i64 x.
Proof. intros w t x H. unfold count_fits. rewrite <- H, Z.div_mul by (pose proof (unit_secs_pos w); lia). reflexivity. Qed.

Definition okc (t : timetype) : Prop := exists v, calculate Checked t = Ok (mk (finest t) v) /\ in_i64 v = true /\ v * unit_secs (finest t) = secs t.
Lemma okc_dec : forall t, tt_ok t = true -> amount_only t = true -> okc t \/ calculate Checked t = Panic PArith.
Proof. intros t H1 H2. destruct (calculate_amt Checked t H1 H2) as [(v & H)|[H _]]; [left; exists v; tauto|auto]. Qed.
Lemma fits_ok : forall t, tt_ok t = true -> amount_only t = true -> (fits t = true <-> okc t).
Proof.
  assert (St : forall s f a b, (f = Addition /\ s = 1) \/ (f = Subtraction /\ s = -1) -> tt_ok a = true -> tt_ok b = true -> amount_only a = true -> amount_only b = true ->
     (fits a = true <-> okc a) -> (fits b = true <-> okc b) -> (fits (f a b) = true <-> okc (f a b))).
  { intros s f a b Hf Ha Hb Aa Ab IHa IHb.
    assert (Ho : tt_ok (f a b) = true) by (destruct Hf as [[-> _]|[-> _]]; cbn; rewrite Ha, Hb; reflexivity).
    assert (Am : amount_only (f a b) = true) by (destruct Hf as [[-> _]|[-> _]]; cbn; rewrite Aa, Ab; reflexivity).
    assert (Fi : finest (f a b) = finer (finest a) (finest b)) by (destruct Hf as [[-> _]|[-> _]]; reflexivity).
    assert (Se : secs (f a b) = secs a + s * secs b) by (destruct Hf as [[-> ->]|[-> ->]]; cbn [secs]; lia).
    assert (Sh : shape_of (f a b) <> SBad).
    { apply shape_amount in Am. rewrite Am. discriminate. }
    assert (Cm : comp (calculate Checked (f a b)) (calculate Checked a) (calculate Checked b) (fun x y => calculate Checked (f x y))).
    { destruct Hf as [[-> _]|[-> _]]; [apply calc_add_comp|apply calc_sub_comp]; assumption. }
    assert (Ff : fits (f a b) = fits a && fits b && count_fits (finest (f a b)) a && count_fits (finest (f a b)) b && count_fits (finest (f a b)) (f a b))
      by (destruct Hf as [[-> _]|[-> _]]; reflexivity).
    destruct Cm as (C1 & C2 & C3).
    destruct (okc_dec a Ha Aa) as [Oa|Pa].
    2:{ rewrite Pa in C2. assert (Na : fits a = false) by (destruct (fits a); [|reflexivity]; destruct IHa as [IHa _]; destruct (IHa eq_refl) as (v & E & _); congruence).
        rewrite Ff, Na. cbn. split; [discriminate|]. intros (v & E & _). rewrite E in C2. discriminate (C2 eq_refl). }
    destruct (okc_dec b Hb Ab) as [Ob|Pb].
    2:{ rewrite Pb in C3. assert (Nb : fits b = false) by (destruct (fits b); [|reflexivity]; destruct IHb as [IHb _]; destruct (IHb eq_refl) as (v & E & _); congruence).
        rewrite Ff, Nb, andb_false_r. cbn. split; [discriminate|]. intros (v & E & _). rewrite E in C3. discriminate (C3 eq_refl). }
    rewrite Ff, (proj2 IHa Oa), (proj2 IHb Ob). cbn [andb].
    destruct Oa as (n & En & In & Sn). destruct Ob as (k & Ek & Ik & Sk).
    specialize (C1 _ _ En Ek). cbv beta in C1.
    assert (Ca : count_fits (finest (f a b)) a = in_i64 (n * ratio (finest a) (finer (finest a) (finest b)))).
    { apply count_eq. rewrite Fi, <- Sn, (ratio_l (finest a) (finest b)) at 1. lia. }
    assert (Cb : count_fits (finest (f a b)) b = in_i64 (k * ratio (finest b) (finer (finest a) (finest b)))).
    { apply count_eq. rewrite Fi, <- Sk, (ratio_r (finest a) (finest b)) at 1. lia. }
    assert (Cc : count_fits (finest (f a b)) (f a b) =
       in_i64 (n * ratio (finest a) (finer (finest a) (finest b)) + s * (k * ratio (finest b) (finer (finest a) (finest b))))).
    { apply count_eq. rewrite Fi, Se, <- Sn, <- Sk.
      pose proof (ratio_l (finest a) (finest b)) as L1. pose proof (ratio_r (finest a) (finest b)) as L2.
      rewrite L1, L2. ring. }
    rewrite Ca, Cb, Cc.
    assert (R : calculate Checked (f a b) = if leaf_fits s (finest a) (finest b) n k then Ok (mk (finest (f a b))
       (n * ratio (finest a) (finer (finest a) (finest b)) + s * (k * ratio (finest b) (finer (finest a) (finest b))))) else Panic PArith).
    { rewrite C1, Fi. destruct Hf as [[-> ->]|[-> ->]]; [rewrite leaf_add by assumption|rewrite leaf_sub by assumption].
      - destruct (leaf_fits _ _ _ _ _); [|reflexivity]. do 2 f_equal; lia.
      - destruct (leaf_fits _ _ _ _ _); [|reflexivity]. do 2 f_equal; lia. }
    unfold leaf_fits in R. cbv zeta in R.
    destruct (in_i64 (n * ratio (finest a) (finer (finest a) (finest b))) && in_i64 (k * ratio (finest b) (finer (finest a) (finest b))) &&
      in_i64 (n * ratio (finest a) (finer (finest a) (finest b)) + s * (k * ratio (finest b) (finer (finest a) (finest b))))) eqn:Eb.
    - split; [|reflexivity]. intros _. eexists. split; [exact R|]. apply andb_true_iff in Eb as [Eb1 Eb2]. split; [exact Eb2|].
      rewrite Fi, Se, <- Sn, <- Sk.
      pose proof (ratio_l (finest a) (finest b)) as L1. pose proof (ratio_r (finest a) (finest b)) as L2.
      rewrite L1, L2. ring.
    - split; [discriminate|]. intros (v & E & _). congruence. }
  induction t; intros Ho Am; try discriminate Am;
    try (cbn in Ho; split; [intros _; eexists; split; [reflexivity|split; [exact Ho|reflexivity]]|intros _; exact Ho]).
  - cbn in Ho, Am. apply andb_true_iff in Ho as [H1 H2]. apply andb_true_iff in Am as [A1 A2]. apply (St 1); auto.
  - cbn in Ho, Am. apply andb_true_iff in Ho as [H1 H2]. apply andb_true_iff in Am as [A1 A2]. apply (St (-1)); auto.
Qed.
Lemma amount_overflow : forall t, tt_ok t = true -> amount_only t = true -> (calculate Checked t = Panic PArith <-> fits t = false).
Proof.
  intros t H1 H2. pose proof (fits_ok t H1 H2) as F. destruct (okc_dec t H1 H2) as [O|P].
  - rewrite (proj2 F O). destruct O as (v & E & _). split; [congruence|discriminate].
  - split; [|auto]. intros _. destruct (fits t); [|reflexivity]. destruct (proj1 F eq_refl) as (v & E & _). congruence.
Qed.

(** ** Moments *)
Lemma month_run_fine : forall y (n : nat) d mo, d <= 28 * (Z.of_nat n + 1) -> d <= i64_max -> i64_min <= mo -> mo + Z.of_nat n <= i64_max ->
  exists d' mo' j, wrun (mcond y) (@mstep kek Checked y) (d, mo) (Ok (d', mo')) j /\ (j <= S n)%nat /\ mo <= mo' <= mo + Z.of_nat n.
Proof.
  intros y n. induction n; intros d mo Hd Hm Hl Hu; pose proof (gndm_bounds y mo) as G.
  - exists d, mo, 1%nat. split; [apply wstop; cbn; lia|lia].
  - destruct (mcond y (d, mo)) eqn:C.
    + cbn in C. destruct (IHn (d - get_num_of_days_in_month y mo) (mo + 1)) as (d' & mo' & j & W & Hj & B); try lia.
      exists d', mo', (S j). split; [|lia]. eapply wstep; [cbn; lia| |exact W]. apply mstep_ok; lia.
    + exists d, mo, 1%nat. split; [apply wstop; exact C|lia].
Qed.
Lemma month_loop_fine : forall y d mo, d <= i64_max -> i64_min <= mo -> mo + Z.max 0 d / 28 <= i64_max ->
  exists d' mo', @month_loop kek Checked y d mo = Ok (d', mo') /\ mo <= mo' <= mo + Z.max 0 d / 28.
Proof.
  intros y d mo Hd Hl Hu. rewrite month_loop_while.
  destruct (month_run_fine y (Z.to_nat (Z.max 0 d / 28)) d mo) as (d' & mo' & j & W & Hj & B); try lia.
  exists d', mo'. split; [|lia]. apply (wrun_while _ _ _ _ _ W). unfold i64_max in *. lia.
Qed.
Lemma year_loop_fine : forall y mo, mo <= i64_max -> i64_min <= y -> y + Z.max 1 mo / 12 <= i64_max ->
  exists y' mo', @year_loop kek Checked y mo = Ok (y', mo').
Proof.
  intros y mo Hm Hy Hs. destruct (Z_le_gt_dec mo 12); [rewrite year_loop_small by lia; eauto|].
  rewrite year_loop_eq by lia. eauto.
Qed.
(** The carries of the clock. *)
Lemma carries : forall y mo d h mi s,
  i64_min <= s <= i64_max -> i64_min <= mi + Z.quot s 60 <= i64_max -> i64_min <= h + Z.quot (mi + Z.quot s 60) 60 <= i64_max ->
  let d' := d + Z.quot (h + Z.quot (mi + Z.quot s 60) 60) 24 in i64_min <= d' <= i64_max ->
  exists h' mi' s', @adjust_times_add kek Checked y mo d h mi s =
    do (d, mo) <- month_loop Checked y d' mo; do (y, mo) <- year_loop Checked y mo; Ok (y, mo, d, h', mi', s').
Proof.
  intros y mo d h mi s Hs Hmi Hh d' Hd. unfold adjust_times_add.
  rewrite fix_carry_eq by lia. rewrite arith_ok by lia. cbn [bind].
  rewrite fix_carry_eq by lia. rewrite arith_ok by lia. cbn [bind].
  rewrite fix_carry_eq by lia. rewrite arith_ok by exact Hd. cbn [bind]. eauto.
Qed.
Lemma build_no_panic : forall f p, build_moment f <> Panic p.
Proof. intros [[[[[y mo] d] h] mi] s] p. unfold build_moment. destruct (match from_ymd_opt _ _ _ with Some _ => _ | None => _ end); discriminate. Qed.
Lemma small_quot : forall z k, 0 < k -> Z.abs (Z.quot z k) <= Z.abs z.
Proof.
  intros z k Hk. destruct (Z_lt_le_dec z 0).
  - replace z with (- (- z)) at 1 by lia. rewrite Z.quot_opp_l by lia. rewrite Z.quot_div_nonneg by lia.
    assert (- z / k <= - z) by (apply Z.div_le_upper_bound; nia). pose proof (Z.div_pos (- z) k ltac:(lia) Hk). lia.
  - rewrite Z.quot_div_nonneg by lia.
    assert (z / k <= z) by (apply Z.div_le_upper_bound; nia). pose proof (Z.div_pos z k ltac:(lia) Hk). lia.
Qed.
Lemma quot60 : forall z, i64_min <= z <= i64_max -> Z.abs (Z.quot z 60) <= 153722867280912931.
Proof.
  intros z Hz. unfold i64_min, i64_max in Hz. destruct (Z_lt_le_dec z 0).
  - replace z with (- (- z)) by lia. rewrite Z.quot_opp_l by lia. rewrite Z.quot_div_nonneg by lia. lia.
  - rewrite Z.quot_div_nonneg by lia. lia.
Qed.
Lemma quot24 : forall z, i64_min <= z <= i64_max -> Z.abs (Z.quot z 24) <= 384307168202282326.
Proof.
  intros z Hz. unfold i64_min, i64_max in Hz. destruct (Z_lt_le_dec z 0).
  - replace z with (- (- z)) by lia. rewrite Z.quot_opp_l by lia. rewrite Z.quot_div_nonneg by lia. lia.
  - rewrite Z.quot_div_nonneg by lia. lia.
Qed.
(** Small dates after the carries: everything fits. *)
Lemma finish_fine : forall y mo d h mi s p, min_year <= y <= max_year -> 1 <= mo <= 12 -> d <= i64_max ->
  (do f <- (do (d, mo) <- @month_loop kek Checked y d mo; do (y, mo) <- year_loop Checked y mo; Ok (y, mo, d, h, mi, s)); build_moment f) <> Panic p.
Proof.
  intros y mo d h mi s p Hy Hmo Hd. unfold min_year, max_year, i64_max in *.
  destruct (month_loop_fine y d mo) as (d' & mo' & -> & B); [unfold i64_max; lia|unfold i64_min; lia|unfold i64_max; lia|]. cbn [bind].
  destruct (year_loop_fine y mo') as (y' & mo2 & ->); [unfold i64_max; lia|unfold i64_min; lia|unfold i64_max; lia|]. cbn [bind].
  apply build_no_panic.
Qed.
Lemma add_fine : forall m u n, dt_valid m = true -> in_i64 n = true -> add_fits u m n = true ->
  forall p, calculate Checked (Addition (Moment m) (mk u n)) <> Panic p.
Proof.
  intros m u n Hm Hn F p. rewrite calc_add_mk by assumption.
  destruct (valid_facts m Hm) as (Y & Mo & D & Ho & Mi & Se & Dx).
  unfold add_fits in F. apply andb_true_iff in F as [F S].
  pose proof (proj1 (in_i64_iff _) F) as R.
  assert (St : forall k, @addc kek Checked (Ok (field u m)) (Ok k) = arith Checked (field u m + k)) by reflexivity.
  destruct u; cbn [mk add_to_moment field] in *; rewrite St, arith_ok by exact R; cbn [bind].
  - pose proof (quot60 _ R) as Q. pose proof (small_quot (minute m + Z.quot (second m + n) 60) 60 ltac:(lia)) as Q2.
    pose proof (small_quot (hour m + Z.quot (minute m + Z.quot (second m + n) 60) 60) 24 ltac:(lia)) as Q3.
    destruct (carries (year m) (month m) (day m) (hour m) (minute m) (second m + n)) as (h & mi & s & E);
      try (unfold i64_min, i64_max in *; lia).
    rewrite E. apply finish_fine; unfold i64_max in *; lia.
  - pose proof (quot60 _ R) as Q. pose proof (small_quot (hour m + Z.quot (minute m + n) 60) 24 ltac:(lia)) as Q3.
    assert (Z0 : Z.quot (second m) 60 = 0) by (apply Z.quot_small; lia).
    destruct (carries (year m) (month m) (day m) (hour m) (minute m + n) (second m)) as (h & mi & s & E);
      rewrite ?Z0, ?Z.add_0_r in *; try (unfold i64_min, i64_max in *; lia).
    rewrite E. apply finish_fine; unfold i64_max in *; lia.
  - pose proof (quot24 _ R) as Q.
    assert (Z0 : Z.quot (second m) 60 = 0) by (apply Z.quot_small; lia).
    assert (Z1 : Z.quot (minute m) 60 = 0) by (apply Z.quot_small; lia).
    destruct (carries (year m) (month m) (day m) (hour m + n) (minute m) (second m)) as (h & mi & s & E);
      rewrite ?Z0, ?Z.add_0_r, ?Z1, ?Z.add_0_r in *; try (unfold i64_min, i64_max in *; lia).
    rewrite E. apply finish_fine; unfold i64_max in *; lia.
  - assert (Z0 : Z.quot (second m) 60 = 0) by (apply Z.quot_small; lia).
    assert (Z1 : Z.quot (minute m) 60 = 0) by (apply Z.quot_small; lia).
    assert (Z2 : Z.quot (hour m) 24 = 0) by (apply Z.quot_small; lia).
    destruct (carries (year m) (month m) (day m + n) (hour m) (minute m) (second m)) as (h & mi & s & E);
      rewrite ?Z0, ?Z.add_0_r, ?Z1, ?Z.add_0_r, ?Z2, ?Z.add_0_r in *; try (unfold i64_min, i64_max in *; lia).
    rewrite E. apply finish_fine; unfold i64_max in *; lia.
  - assert (Z0 : Z.quot (second m) 60 = 0) by (apply Z.quot_small; lia).
    assert (Z1 : Z.quot (minute m) 60 = 0) by (apply Z.quot_small; lia).
    assert (Z2 : Z.quot (hour m) 24 = 0) by (apply Z.quot_small; lia).
    destruct (carries (year m) (month m + n) (day m) (hour m) (minute m) (second m)) as (h & mi & s & E);
      rewrite ?Z0, ?Z.add_0_r, ?Z1, ?Z.add_0_r, ?Z2, ?Z.add_0_r in *; try (unfold i64_min, i64_max in *; lia).
    rewrite E. pose proof (gndm_bounds (year m) (month m + n)) as G. clear E.
    assert (Fin : forall d mo, mo <= i64_max -> (do f <- (do (y, mo0) <- @year_loop kek Checked (year m) mo; Ok (y, mo0, d, h, mi, s)); build_moment f) <> Panic p).
    { intros d mo Hmo. destruct (year_loop_fine (year m) mo) as (y' & mo2 & ->); try (unfold min_year, max_year, i64_min, i64_max in *; lia).
      cbn [bind]. apply build_no_panic. }
    destruct (Z_le_gt_dec (day m) (get_num_of_days_in_month (year m) (month m + n))).
    + rewrite month_loop_stop by lia. cbn [bind]. apply Fin. lia.
    + assert (month m + n <> i64_max).
      { intro Em. rewrite Em in *. assert (get_num_of_days_in_month (year m) i64_max = 30) as G2 by reflexivity. lia. }
      rewrite month_loop_once by lia. cbn [bind]. apply Fin. lia.
  - assert (Z0 : Z.quot (second m) 60 = 0) by (apply Z.quot_small; lia).
    assert (Z1 : Z.quot (minute m) 60 = 0) by (apply Z.quot_small; lia).
    assert (Z2 : Z.quot (hour m) 24 = 0) by (apply Z.quot_small; lia).
    destruct (carries (year m + n) (month m) (day m) (hour m) (minute m) (second m)) as (h & mi & s & E);
      rewrite ?Z0, ?Z.add_0_r, ?Z1, ?Z.add_0_r, ?Z2, ?Z.add_0_r in *; try (unfold i64_min, i64_max in *; lia).
    rewrite E. pose proof (gndm_bounds (year m + n) (month m)) as G. clear E.
    destruct (Z_le_gt_dec (day m) (get_num_of_days_in_month (year m + n) (month m))).
    + rewrite month_loop_stop by lia. cbn [bind]. rewrite year_loop_small by lia. cbn [bind]. apply build_no_panic.
    + rewrite month_loop_once by (unfold i64_min, i64_max; lia). cbn [bind].
      assert (month m <> 12).
      { intro E12. rewrite E12 in *. assert (get_num_of_days_in_month (year m + n) 12 = 31) as G2 by reflexivity. lia. }
      rewrite year_loop_small by lia. cbn [bind]. apply build_no_panic.
Qed.
Lemma add_over : forall m u n, dt_valid m = true -> in_i64 n = true ->
  (calculate Checked (Addition (Moment m) (mk u n)) = Panic PArith <-> add_fits u m n = false).
Proof.
  intros m u n Hm Hn. split.
  - intro E. destruct (add_fits u m n) eqn:F; [|reflexivity]. destruct (add_fine m u n Hm Hn F PArith E).
  - intro F. unfold add_fits in F. apply andb_false_iff in F as [F|F].
    + rewrite calc_add_mk by assumption.
      destruct u; cbn [mk add_to_moment field] in *; unfold addc; cbn [bind]; unfold arith; rewrite F; reflexivity.
    + destruct u; try discriminate F. cbn [andb] in F.
      destruct (valid_facts m Hm) as (Y & Mo & D & Ho & Mi & Se & Dx).
      assert (Em : month m + n = i64_max) by lia. assert (Ed : day m = 31) by lia.
      rewrite calc_add_mk by assumption. cbn [mk add_to_moment]. unfold addc. cbn [bind]. rewrite Em, Ed, arith_ok by (unfold i64_min, i64_max; lia).
      cbn [bind].
      assert (Z0 : Z.quot (second m) 60 = 0) by (apply Z.quot_small; lia).
      assert (Z1 : Z.quot (minute m) 60 = 0) by (apply Z.quot_small; lia).
      assert (Z2 : Z.quot (hour m) 24 = 0) by (apply Z.quot_small; lia).
      destruct (carries (year m) i64_max 31 (hour m) (minute m) (second m)) as (h & mi & s & E);
        rewrite ?Z0, ?Z.add_0_r, ?Z1, ?Z.add_0_r, ?Z2, ?Z.add_0_r in *; try (unfold i64_min, i64_max in *; lia).
      rewrite E. rewrite month_loop_once_panic; [reflexivity| |lia|reflexivity].
      change (get_num_of_days_in_month (year m) i64_max) with 30. lia.
Qed.

Lemma absq : forall b k, i64_min < b -> b <= i64_max -> 0 < k -> Z.quot (Z.abs b) k = Z.abs b / k.
Proof. intros. apply Z.quot_div_nonneg; lia. Qed.
Lemma borrow_fine : forall l k t n b, i64_min < b <= i64_max -> 1 < k <= 60 -> 0 <= t <= 60 -> i64_min <= n - (i64_max / k + 1) -> n <= i64_max ->
  exists n' b', @borrow kek Checked l k t n b = Ok (n', b') /\ n - (Z.abs b / k + 1) <= n' <= n /\ - i64_max <= b' <= i64_max.
Proof.
  intros l k t n b Hb Hk Ht Hn Hn2. unfold borrow. destruct (b <? l).
  - unfold subc, addc, divc, absc. cbn [bind].
    assert (Q : 0 <= Z.abs b / k <= i64_max / k).
    { split; [apply Z.div_pos; lia|]. apply Z.div_le_mono; unfold i64_min, i64_max in *; lia. }
    assert (Q2 : i64_max / k <= i64_max / 2).
    { apply Z.div_le_compat_l; unfold i64_max; lia. }
    assert (Q3 : i64_max / 2 = 4611686018427387903) by reflexivity.
    rewrite (arith_ok Checked (Z.abs b)) by (unfold i64_min, i64_max in *; lia). cbn [bind]. rewrite absq by lia.
    rewrite arith_ok by (unfold i64_min, i64_max in *; lia). cbn [bind].
    rewrite arith_ok by (unfold i64_min, i64_max in *; lia). cbn [bind].
    rewrite arith_ok by (unfold i64_min, i64_max in *; lia). cbn [bind].
    rewrite arith_ok by (unfold i64_min, i64_max in *; lia). cbn [bind].
    rewrite arith_ok by (unfold i64_min, i64_max in *; lia). cbn [bind].
    eexists _, _. split; [reflexivity|]. unfold i64_min, i64_max in *. lia.
  - exists n, b. split; [reflexivity|]. unfold i64_min in *. pose proof (Z.div_pos (Z.abs b) k ltac:(lia) ltac:(lia)). unfold i64_max in *. lia.
Qed.

Definition lim : Z := 4611686018427387904.
Definition no_panic {A} (x : outcome kek A) : Prop := forall p, x <> Panic p.
Lemma tail_mo : forall y mo d h mi s, Z.abs y <= lim -> i64_min < mo <= i64_max ->
  exists f : fields, (do (y, mo) <- @borrow kek Checked 1 13 12 y mo; Ok (y, mo, d, h, mi, s)) = Ok f.
Proof.
  intros y mo d h mi s Hy Hmo. destruct (borrow_fine 1 13 12 y mo) as (y' & mo' & -> & _); try lia; try (unfold lim, i64_min, i64_max in *; lia).
  cbn [bind]. eauto.
Qed.
Lemma tail_d : forall y mo d h mi s, Z.abs y <= lim -> Z.abs mo <= lim -> i64_min < d <= i64_max ->
  exists f : fields, (do (mo, d) <- @borrow kek Checked 1 32 31 mo d; do (y, mo) <- borrow Checked 1 13 12 y mo; Ok (y, mo, d, h, mi, s)) = Ok f.
Proof.
  intros y mo d h mi s Hy Hmo Hd. destruct (borrow_fine 1 32 31 mo d) as (mo' & d' & -> & B & _); try lia; try (unfold lim, i64_min, i64_max in *; lia).
  cbn [bind]. apply tail_mo; unfold lim, i64_min, i64_max in *; lia.
Qed.
Lemma tail_h : forall y mo d h mi s, Z.abs y <= lim -> Z.abs mo <= lim -> Z.abs d <= lim -> i64_min < h <= i64_max ->
  exists f : fields, (do (d, h) <- @borrow kek Checked 0 24 24 d h; do (mo, d) <- borrow Checked 1 32 31 mo d; do (y, mo) <- borrow Checked 1 13 12 y mo;
    Ok (y, mo, d, h, mi, s)) = Ok f.
Proof.
  intros y mo d h mi s Hy Hmo Hd Hh. destruct (borrow_fine 0 24 24 d h) as (d' & h' & -> & B & _); try lia; try (unfold lim, i64_min, i64_max in *; lia).
  cbn [bind]. apply tail_d; unfold lim, i64_min, i64_max in *; lia.
Qed.
Lemma tail_mi : forall y mo d h mi s, Z.abs y <= lim -> Z.abs mo <= lim -> Z.abs d <= lim -> Z.abs h <= lim -> i64_min < mi <= i64_max ->
  exists f : fields, (do (h, mi) <- @borrow kek Checked 0 60 60 h mi; do (d, h) <- borrow Checked 0 24 24 d h; do (mo, d) <- borrow Checked 1 32 31 mo d;
    do (y, mo) <- borrow Checked 1 13 12 y mo; Ok (y, mo, d, h, mi, s)) = Ok f.
Proof.
  intros y mo d h mi s Hy Hmo Hd Hh Hmi. destruct (borrow_fine 0 60 60 h mi) as (h' & mi' & -> & B & _); try lia; try (unfold lim, i64_min, i64_max in *; lia).
  cbn [bind]. apply tail_h; unfold lim, i64_min, i64_max in *; lia.
Qed.
Lemma tail_s : forall y mo d h mi s, Z.abs y <= lim -> Z.abs mo <= lim -> Z.abs d <= lim -> Z.abs h <= lim -> Z.abs mi <= lim -> i64_min < s <= i64_max ->
  exists f, @adjust_times_sub kek Checked y mo d h mi s = Ok f.
Proof.
  intros y mo d h mi s Hy Hmo Hd Hh Hmi Hs. unfold adjust_times_sub.
  destruct (borrow_fine 0 60 60 mi s) as (mi' & s' & -> & B & _); try lia; try (unfold lim, i64_min, i64_max in *; lia).
  cbn [bind]. apply tail_mi; unfold lim, i64_min, i64_max in *; lia.
Qed.
Lemma sub_fine : forall m u n, dt_valid m = true -> in_i64 n = true -> sub_fits u m n = true ->
  forall p, calculate Checked (Subtraction (Moment m) (mk u n)) <> Panic p.
Proof.
  intros m u n Hm Hn F p. rewrite calc_sub_mk by assumption.
  destruct (valid_facts m Hm) as (Y & Mo & D & Dx & Ho & Mi & Se).
  unfold sub_fits in F. pose proof (proj1 (in_i64_iff _) F) as R. apply in_i64_iff in Hn.
  assert (St : forall k, @subc kek Checked (Ok (field u m)) (Ok k) = arith Checked (field u m - k)) by reflexivity.
  unfold min_year, max_year in *.
  assert (Lim : lim = 4611686018427387904) by reflexivity.
  destruct u; cbn [mk sub_from_moment field] in *; rewrite St, arith_ok by exact R; cbn [bind].
  - destruct (tail_s (year m) (month m) (day m) (hour m) (minute m) (second m - n)) as [f E]; try (unfold i64_min, i64_max in *; lia).
    rewrite E. apply build_no_panic.
  - unfold adjust_times_sub. rewrite borrow_no by lia. cbn [bind].
    destruct (tail_mi (year m) (month m) (day m) (hour m) (minute m - n) (second m)) as [f E]; try (unfold i64_min, i64_max in *; lia).
    rewrite E. apply build_no_panic.
  - unfold adjust_times_sub. rewrite borrow_no by lia. cbn [bind]. rewrite borrow_no by lia. cbn [bind].
    destruct (tail_h (year m) (month m) (day m) (hour m - n) (minute m) (second m)) as [f E]; try (unfold i64_min, i64_max in *; lia).
    rewrite E. apply build_no_panic.
  - unfold adjust_times_sub. rewrite borrow_no by lia. cbn [bind]. rewrite borrow_no by lia. cbn [bind]. rewrite borrow_no by lia. cbn [bind].
    destruct (tail_d (year m) (month m) (day m - n) (hour m) (minute m) (second m)) as [f E]; try (unfold i64_min, i64_max in *; lia).
    rewrite E. apply build_no_panic.
  - unfold adjust_times_sub. rewrite borrow_no by lia. cbn [bind]. rewrite borrow_no by lia. cbn [bind]. rewrite borrow_no by lia. cbn [bind].
    rewrite borrow_no by lia. cbn [bind].
    destruct (tail_mo (year m) (month m - n) (day m) (hour m) (minute m) (second m)) as [f E]; try (unfold i64_min, i64_max in *; lia).
    rewrite E. apply build_no_panic.
  - unfold adjust_times_sub. rewrite borrow_no by lia. cbn [bind]. rewrite borrow_no by lia. cbn [bind]. rewrite borrow_no by lia. cbn [bind].
    rewrite borrow_no by lia. cbn [bind]. rewrite borrow_no by lia. cbn [bind]. apply build_no_panic.
Qed.
Lemma sub_over : forall m u n, dt_valid m = true -> in_i64 n = true ->
  (calculate Checked (Subtraction (Moment m) (mk u n)) = Panic PArith <-> sub_fits u m n = false).
Proof.
  intros m u n Hm Hn. split.
  - intro E. destruct (sub_fits u m n) eqn:F; [|reflexivity]. destruct (sub_fine m u n Hm Hn F PArith E).
  - intro F. unfold sub_fits in F. rewrite calc_sub_mk by assumption.
    destruct u; cbn [mk sub_from_moment field] in *; unfold subc; cbn [bind]; unfold arith; rewrite F; reflexivity.
Qed.

(** ** Expressions *)
(** A moment and an amount: left operand first. *)
Lemma add_left_first : forall a b, tt_ok a = true -> tt_ok b = true -> shape_of (Addition a b) = SMoment ->
  calculate Checked (Addition a b) = do x <- calculate Checked a; do y <- calculate Checked b; calculate Checked (Addition x y).
Proof.
  intros a b Ha Hb Sh. assert (Ns : shape_of (Addition a b) <> SBad) by congruence.
  apply shape_add_ok in Ns as (Ab & Na & Nd).
  assert (V : forall x, is_value x = true -> tt_ok x = true ->
    calculate Checked (Addition x b) = do y <- calculate Checked b; calculate Checked (Addition x y)) by (intros x V1 V2; apply ev_add_value_l; assumption).
  destruct a; try discriminate Na; try (rewrite V by (reflexivity || assumption); reflexivity).
  - change (calculate Checked (Addition (Addition a1 a2) b)) with (ev Checked (CAdd (Addition a1 a2) b)).
    rewrite ev_eq by (split; assumption). cbn [body].
    assert (E : add (ev Checked) (Addition a1 a2) b = do bx <- ev Checked (CAdd a1 a2); ev Checked (CAdd bx b)).
    { destruct b; try discriminate Ab; reflexivity. }
    rewrite E. change (ev Checked (CAdd a1 a2)) with (calculate Checked (Addition a1 a2)).
    destruct (calculate Checked (Addition a1 a2)) as [x| | |] eqn:Ex; try reflexivity. cbn [bind].
    pose proof (calc_result_value _ _ _ Ex) as V1. pose proof (calc_tt_ok _ _ _ Ha Ex) as V2. exact (V x V1 V2).
  - pose proof (Nd eq_refl) as Aa. apply shape_amount in Aa. apply shape_amount in Ab. cbn [shape_of] in Sh. cbn [shape_of] in Aa. rewrite Aa, Ab in Sh. discriminate.
Qed.
Lemma sub_left_first : forall a b, tt_ok a = true -> tt_ok b = true -> shape_of (Subtraction a b) = SMoment ->
  (is_addition a && is_diff b = false) ->
  calculate Checked (Subtraction a b) = do x <- calculate Checked a; do y <- calculate Checked b; calculate Checked (Subtraction x y).
Proof.
  intros a b Ha Hb Sh Nr. assert (Ns : shape_of (Subtraction a b) <> SBad) by congruence.
  apply shape_sub_ok in Ns as (Ab & Na).
  assert (V : forall x, is_value x = true -> tt_ok x = true ->
    calculate Checked (Subtraction x b) = do y <- calculate Checked b; calculate Checked (Subtraction x y)) by (intros x V1 V2; apply ev_sub_value_l; assumption).
  destruct a; try discriminate Na; try (rewrite V by (reflexivity || assumption); reflexivity).
  - change (calculate Checked (Subtraction (Addition a1 a2) b)) with (ev Checked (CSub (Addition a1 a2) b)).
    rewrite ev_eq by (split; assumption). cbn [body].
    assert (E : is_diff b = false -> sub (ev Checked) (Addition a1 a2) b = do bx <- ev Checked (CAdd a1 a2); ev Checked (CSub bx b)).
    { intro Db. destruct b; try discriminate Ab; try discriminate Db; reflexivity. }
    destruct (is_diff b) eqn:Db.
    { discriminate Nr. }
    rewrite (E eq_refl). change (ev Checked (CAdd a1 a2)) with (calculate Checked (Addition a1 a2)).
    destruct (calculate Checked (Addition a1 a2)) as [x| | |] eqn:Ex; try reflexivity. cbn [bind].
    pose proof (calc_result_value _ _ _ Ex) as V1. pose proof (calc_tt_ok _ _ _ Ha Ex) as V2. exact (V x V1 V2).
  - change (calculate Checked (Subtraction (Subtraction a1 a2) b)) with (ev Checked (CSub (Subtraction a1 a2) b)).
    rewrite ev_eq by (split; assumption). cbn [body].
    assert (E : sub (ev Checked) (Subtraction a1 a2) b = do bx <- ev Checked (CSub a1 a2); ev Checked (CSub bx b)).
    { destruct b; try discriminate Ab; reflexivity. }
    rewrite E. change (ev Checked (CSub a1 a2)) with (calculate Checked (Subtraction a1 a2)).
    destruct (calculate Checked (Subtraction a1 a2)) as [x| | |] eqn:Ex; try reflexivity. cbn [bind].
    pose proof (calc_result_value _ _ _ Ex) as V1. pose proof (calc_tt_ok _ _ _ Ha Ex) as V2. exact (V x V1 V2).
Qed.
Lemma sub_right_first : forall a1 a2 b1 b2, tt_ok (Addition a1 a2) = true -> tt_ok (Subtraction b1 b2) = true ->
  amount_only (Subtraction b1 b2) = true ->
  calculate Checked (Subtraction (Addition a1 a2) (Subtraction b1 b2)) =
  do y <- calculate Checked (Subtraction b1 b2); do x <- calculate Checked (Addition a1 a2); calculate Checked (Subtraction x y).
Proof.
  intros a1 a2 b1 b2 Ha Hb Ab.
  change (calculate Checked (Subtraction (Addition a1 a2) (Subtraction b1 b2))) with (ev Checked (CSub (Addition a1 a2) (Subtraction b1 b2))).
  rewrite ev_eq by (split; assumption). cbn [body sub].
  change (ev Checked (CSub b1 b2)) with (calculate Checked (Subtraction b1 b2)).
  destruct (calculate Checked (Subtraction b1 b2)) as [y| | |] eqn:Ey; try reflexivity. cbn [bind].
  destruct (calc_amount _ _ _ Ab Hb Ey) as (u & k & -> & Hk).
  rewrite ev_eq by (split; [assumption|rewrite ok_mk; assumption]). destruct u; reflexivity.
Qed.

Lemma amount_left : forall a b, shape_of a = SAmount -> shape_of (Addition a b) = SMoment -> False.
Proof. intros a b H. cbn [shape_of]. rewrite H. destruct (shape_of b); discriminate. Qed.
Lemma moment_parts : forall a b, (shape_of (Addition a b) = SMoment \/ shape_of (Subtraction a b) = SMoment) -> shape_of a = SMoment /\ shape_of b = SAmount.
Proof. intros a b [H|H]; cbn [shape_of] in H; destruct (shape_of a), (shape_of b); try discriminate H; auto. Qed.
Lemma moment_value : forall t v, tt_ok t = true -> shape_of t = SMoment -> calculate Checked t = Ok v -> exists m, v = Moment m /\ dt_valid m = true.
Proof.
  intros t v Ho Sh E. destruct (calc_shape_value _ _ _ E) as [V1 V2]. pose proof (calc_tt_ok _ _ _ Ho E) as V3.
  rewrite Sh in V2. destruct v; try discriminate V1; try discriminate V2. eauto.
Qed.
Lemma amount_only_parts : forall a b, amount_only (Addition a b) = true -> amount_only a = true /\ amount_only b = true.
Proof. intros a b H. cbn in H. apply andb_true_iff in H. exact H. Qed.

Lemma amount_value_eq : forall t v, tt_ok t = true -> shape_of t = SAmount -> calculate Checked t = Ok v -> exists u n, v = mk u n /\ in_i64 n = true.
Proof. intros t v Ho Sh E. apply shape_amount in Sh. destruct (calc_amount _ _ _ Sh Ho E) as (u & n & H). exists u, n. exact H. Qed.
Lemma checked_cases : forall t, tt_ok t = true -> (exists v, calculate Checked t = Ok v) \/ (exists e, calculate Checked t = Err e) \/ calculate Checked t = Panic PArith.
Proof.
  intros t Ho. pose proof (calculate_good Checked t Ho) as G. destruct (calculate Checked t) as [v|e|q|]; cbn in G; try contradiction; eauto.
  destruct G as [-> _]. auto.
Qed.
Lemma amount_cases : forall t, tt_ok t = true -> shape_of t = SAmount -> (exists u n, calculate Checked t = Ok (mk u n) /\ in_i64 n = true) \/ calculate Checked t = Panic PArith.
Proof.
  intros t Ho Sh. apply shape_amount in Sh. destruct (okc_dec t Ho Sh) as [(v & E & I & _)|P]; [left; exists (finest t), v; auto|auto].
Qed.
Lemma node_add : forall a b, tt_ok a = true -> tt_ok b = true -> shape_of (Addition a b) = SMoment ->
  (calculate Checked (Addition a b) = Panic PArith <->
   calculate Checked a = Panic PArith \/ exists m, calculate Checked a = Ok (Moment m) /\
     (calculate Checked b = Panic PArith \/ exists u n, calculate Checked b = Ok (mk u n) /\ add_fits u m n = false)).
Proof.
  intros a b Ha Hb Sh. destruct (moment_parts a b (or_introl Sh)) as [Ma Mb]. rewrite add_left_first by assumption.
  destruct (checked_cases a Ha) as [(v & E)|[(e & E)|E]]; rewrite E; cbn [bind].
  - destruct (moment_value a v Ha Ma E) as (m & -> & Vm).
    destruct (amount_cases b Hb Mb) as [(u & n & Eb & In)|Eb]; rewrite Eb; cbn [bind].
    + rewrite add_over by assumption. split.
      * intro F. right. exists m. split; [reflexivity|]. right. exists u, n. auto.
      * intros [C|(m' & [= <-] & [C|(u' & n' & [= Em] & F)])]; try discriminate. apply mk_inj in Em as [-> ->]. exact F.
    + split; [|auto]. intros _. right. exists m. auto.
  - split; [discriminate|]. intros [C|(m' & C & _)]; discriminate.
  - split; auto.
Qed.
Lemma node_sub : forall a b, tt_ok a = true -> tt_ok b = true -> shape_of (Subtraction a b) = SMoment ->
  (calculate Checked (Subtraction a b) = Panic PArith <->
   calculate Checked a = Panic PArith \/ (is_addition a && is_diff b = true /\ calculate Checked b = Panic PArith) \/
   exists m, calculate Checked a = Ok (Moment m) /\
     (calculate Checked b = Panic PArith \/ exists u n, calculate Checked b = Ok (mk u n) /\ sub_fits u m n = false)).
Proof.
  intros a b Ha Hb Sh. destruct (moment_parts a b (or_intror Sh)) as [Ma Mb].
  assert (M : forall m, dt_valid m = true -> calculate Checked a = Ok (Moment m) ->
    ((do y <- calculate Checked b; calculate Checked (Subtraction (Moment m) y)) = Panic PArith <->
     (calculate Checked b = Panic PArith \/ exists u n, calculate Checked b = Ok (mk u n) /\ sub_fits u m n = false))).
  { intros m Vm _. destruct (amount_cases b Hb Mb) as [(u & n & Eb & In)|Eb]; rewrite Eb; cbn [bind]; [|split; auto].
    rewrite sub_over by assumption. split; [intro F; right; exists u, n; auto|].
    intros [C|(u' & n' & Em & F)]; [discriminate|]. injection Em as Em. apply mk_inj in Em as [-> ->]. exact F. }
  destruct (is_addition a && is_diff b) eqn:Rf.
  - destruct a; try discriminate Rf. destruct b; try discriminate Rf.
    rewrite sub_right_first by (first [assumption|apply shape_amount; assumption]).
    destruct (checked_cases (Addition a1 a2) Ha) as [(v & E)|[(e & E)|E]]; rewrite E in *.
    + destruct (moment_value _ v Ha Ma E) as (m & -> & Vm). specialize (M m Vm eq_refl).
      destruct (amount_cases _ Hb Mb) as [(u & n & Eb & In)|Eb]; rewrite Eb in *; cbn [bind] in *.
      * rewrite M. split; [intros [C|X]; [discriminate|]; right; right; exists m; auto|].
        intros [C|[[_ C]|(m' & [= <-] & X)]]; try discriminate. exact X.
      * split; [|auto]. intros _. right. left. auto.
    + destruct (amount_cases _ Hb Mb) as [(u & n & Eb & In)|Eb]; rewrite Eb in *; cbn [bind].
      * split; [discriminate|]. intros [C|[[_ C]|(m' & C & _)]]; discriminate.
      * split; auto.
    + destruct (amount_cases _ Hb Mb) as [(u & n & Eb & In)|Eb]; rewrite Eb in *; cbn [bind]; split; auto.
  - rewrite sub_left_first by assumption.
    destruct (checked_cases a Ha) as [(v & E)|[(e & E)|E]]; rewrite E in *; cbn [bind].
    + destruct (moment_value a v Ha Ma E) as (m & -> & Vm). rewrite (M m Vm eq_refl). split.
      * intro X. right. right. exists m. auto.
      * intros [C|[[C _]|(m' & [= <-] & X)]]; try discriminate. exact X.
    + split; [discriminate|]. intros [C|[[C _]|(m' & C & _)]]; discriminate.
    + split; auto.
Qed.
Lemma amount_node : forall f a b, f = Addition \/ f = Subtraction -> tt_ok (f a b) = true -> shape_of (f a b) = SAmount ->
  calculate Checked a = Panic PArith \/ calculate Checked b = Panic PArith -> calculate Checked (f a b) = Panic PArith.
Proof.
  intros f a b Hf Ho Sh Hp.
  assert (Ho2 : tt_ok a = true /\ tt_ok b = true) by (destruct Hf as [-> | ->]; cbn in Ho; apply andb_true_iff in Ho; exact Ho). destruct Ho2 as [Ha Hb].
  assert (Cm : comp (calculate Checked (f a b)) (calculate Checked a) (calculate Checked b) (fun x y => calculate Checked (f x y))).
  { destruct Hf as [-> | ->]; [apply calc_add_comp|apply calc_sub_comp]; try assumption; rewrite Sh; discriminate. }
  destruct Cm as (_ & C2 & C3).
  destruct (amount_cases _ Ho Sh) as [(u & n & E & _)|E]; [|exact E]. exfalso. rewrite E in *.
  destruct Hp as [P|P]; rewrite P in *; [discriminate (C2 eq_refl)|discriminate (C3 eq_refl)].
Qed.
Lemma amount_shapes : forall f a b, f = Addition \/ f = Subtraction -> shape_of (f a b) = SAmount -> shape_of a = SAmount /\ shape_of b = SAmount.
Proof. intros f a b [-> | ->] H; cbn [shape_of] in H; destruct (shape_of a), (shape_of b); try discriminate H; auto; try (destruct (is_diff a || is_end a); discriminate); destruct (is_end a); discriminate. Qed.

Lemma end_over : forall k e, tt_ok e = true -> (calculate Checked (end_of k e) = Panic PArith <-> calculate Checked e = Panic PArith).
Proof.
  intros k e Ho. pose proof (end_complete Checked k e Ho) as H. destruct (calculate Checked e) as [v|x|q|] eqn:E.
  all: rewrite H; try (split; intro C; first [discriminate C|exact C]).
  destruct v; split; intro C; discriminate C.
Qed.

Lemma over_sound : forall t, overflows value_checked t -> tt_ok t = true -> shape_of t <> SBad -> calculate Checked t = Panic PArith.
Proof.
  assert (Sp : forall f a b, f = Addition \/ f = Subtraction -> shape_of (f a b) <> SBad -> shape_of a <> SBad /\ shape_of b <> SBad).
  { intros f a b [-> | ->] H; cbn [shape_of] in H; destruct (shape_of a), (shape_of b); try contradiction; split; discriminate. }
  assert (Nm : forall a m, calculate Checked a = Ok (Moment m) -> shape_of a = SAmount -> False).
  { intros a m E H. destruct (calc_shape_value _ _ _ E) as [_ V]. rewrite H in V. discriminate. }
  induction 1; intros Ho Sh.
  - apply amount_overflow; assumption.
  - pose proof Ho as Ho'. cbn in Ho. apply andb_true_iff in Ho as [Ha Hb]. destruct (shape_of (Addition a b)) eqn:Es; [|clear Sh|contradiction].
    + destruct (Nm a m H). apply (amount_shapes Addition a b (or_introl eq_refl) Es).
    + apply node_add; try assumption. right. exists m. split; [exact H|]. right. exists u, n. auto.
  - pose proof Ho as Ho'. cbn in Ho. apply andb_true_iff in Ho as [Ha Hb]. destruct (shape_of (Subtraction a b)) eqn:Es; [|clear Sh|contradiction].
    + destruct (Nm a m H). apply (amount_shapes Subtraction a b (or_intror eq_refl) Es).
    + apply node_sub; try assumption. right. right. exists m. split; [exact H|]. right. exists u, n. auto.
  - pose proof Ho as Ho'. cbn in Ho. apply andb_true_iff in Ho as [Ha Hb]. destruct (Sp Addition a b (or_introl eq_refl) Sh) as [S1 S2].
    pose proof (IHoverflows Ha S1) as P. destruct (shape_of (Addition a b)) eqn:Es; [|clear Sh|contradiction].
    + apply (amount_node Addition); auto.
    + apply node_add; auto.
  - pose proof Ho as Ho'. cbn in Ho. apply andb_true_iff in Ho as [Ha Hb]. destruct (Sp Subtraction a b (or_intror eq_refl) Sh) as [S1 S2].
    pose proof (IHoverflows Ha S1) as P. destruct (shape_of (Subtraction a b)) eqn:Es; [|clear Sh|contradiction].
    + apply (amount_node Subtraction); auto.
    + apply node_sub; auto.
  - pose proof Ho as Ho'. cbn in Ho. apply andb_true_iff in Ho as [Ha Hb]. destruct (Sp Addition a b (or_introl eq_refl) Sh) as [S1 S2].
    pose proof (IHoverflows Hb S2) as P. destruct (shape_of (Addition a b)) eqn:Es; [|clear Sh|contradiction].
    + apply (amount_node Addition); auto.
    + apply node_add; try assumption. right. exists m. auto.
  - pose proof Ho as Ho'. cbn in Ho. apply andb_true_iff in Ho as [Ha Hb]. destruct (Sp Subtraction a b (or_intror eq_refl) Sh) as [S1 S2].
    pose proof (IHoverflows Hb S2) as P. destruct (shape_of (Subtraction a b)) eqn:Es; [|clear Sh|contradiction].
    + apply (amount_node Subtraction); auto.
    + apply node_sub; try assumption. right. right. exists m. auto.
  - pose proof Ho as Ho'. change (tt_ok (Addition a1 a2) && tt_ok (Subtraction b1 b2) = true) in Ho. apply andb_true_iff in Ho as [Ha Hb].
    destruct (Sp Subtraction (Addition a1 a2) (Subtraction b1 b2) (or_intror eq_refl) Sh) as [S1 S2].
    pose proof (IHoverflows Hb S2) as P. destruct (shape_of (Subtraction (Addition a1 a2) (Subtraction b1 b2))) eqn:Es; [|clear Sh|contradiction].
    + apply (amount_node Subtraction); auto.
    + apply node_sub; try assumption. right. left. auto.
  - rewrite tt_ok_end in Ho. apply end_over; [exact Ho|]. apply IHoverflows; [exact Ho|].
    intro C. apply Sh. destruct k; cbn [end_of shape_of]; rewrite C; reflexivity.
Qed.
Lemma over_complete : forall t, tt_ok t = true -> shape_of t <> SBad -> calculate Checked t = Panic PArith -> overflows value_checked t.
Proof.
  assert (Am : forall t, tt_ok t = true -> shape_of t = SAmount -> calculate Checked t = Panic PArith -> overflows value_checked t).
  { intros t Ho Sh P. apply shape_amount in Sh. apply OV_amount; [exact Sh|]. apply amount_overflow; assumption. }
  assert (En : forall k e, (tt_ok e = true -> shape_of e <> SBad -> calculate Checked e = Panic PArith -> overflows value_checked e) ->
     tt_ok (end_of k e) = true -> shape_of (end_of k e) <> SBad -> calculate Checked (end_of k e) = Panic PArith -> overflows value_checked (end_of k e)).
  { intros k e IH Ho Sh P. rewrite tt_ok_end in Ho. apply end_over in P; [|exact Ho]. apply OV_end. apply IH; auto.
    intro C. apply Sh. destruct k; cbn [end_of shape_of]; rewrite C; reflexivity. }
  induction t; intros Ho Sh P; try discriminate P;
    try (destruct (shape_of _) eqn:Es in Sh; [apply Am; assumption| |contradiction]; cbn in Ho; apply andb_true_iff in Ho as [Ha Hb]).
  - destruct (moment_parts t1 t2 (or_introl Es)) as [M1 M2]. apply node_add in P; try assumption.
    destruct P as [P|(m & E & [P|(u & n & Eb & F)])].
    + apply OV_add_l. apply IHt1; auto. congruence.
    + apply (OV_add_r _ _ _ m E). apply Am; assumption.
    + apply (OV_add _ _ _ m u n E Eb F).
  - destruct (moment_parts t1 t2 (or_intror Es)) as [M1 M2]. apply node_sub in P; try assumption.
    destruct P as [P|[[R P]|(m & E & [P|(u & n & Eb & F)])]].
    + apply OV_sub_l. apply IHt1; auto. congruence.
    + destruct t1; try discriminate R. destruct t2; try discriminate R. apply OV_sub_first. apply Am; assumption.
    + apply (OV_sub_r _ _ _ m E). apply Am; assumption.
    + apply (OV_sub _ _ _ m u n E Eb F).
  - exact (En PYear t IHt Ho Sh P).
  - exact (En PMonth t IHt Ho Sh P).
  - exact (En PDay t IHt Ho Sh P).
  - exact (En PHour t IHt Ho Sh P).
  - exact (En PMinute t IHt Ho Sh P).
Qed.
Lemma over_exact : forall t, tt_ok t = true -> shape_of t <> SBad -> (calculate Checked t = Panic PArith <-> overflows value_checked t).
Proof. intros t Ho Sh. split; [apply over_complete|intro H; apply over_sound]; assumption. Qed.
