(** `calculate` gives the answers of the reference evaluator: sums and differences of a moment and an amount. *)
Require Import ZArith Bool List Lia ZifyBool.
From Verif Require Import Prelude Spec Chrono Util TimeType SpecTree SpecMoment SpecOver SpecWide SpecValue SpecAnswer PreludeProofs CalendarProofs LoopProofs
  EvalProofs AmountProofs AddProofs ValueProofs.
Local Open Scope Z_scope.
Ltac Zify.zify_post_hook ::= Z.div_mod_to_equations.

Lemma dated_build : forall f, build_moment f = dated f.
Proof.
  intros [[[[[y mo] d] h] mi] s]. unfold dated. pose proof (build_cases y mo d h mi s) as B. cbv zeta in B.
  unfold as_u32 in B. fold (low32 mo) (low32 d) (low32 h) (low32 mi) (low32 s) in B.
  destruct B as [(R & H & M & S & E)|(E & B)]; rewrite E.
  - rewrite R. replace (low32 h <? 24) with true by lia. replace (low32 mi <? 60) with true by lia. replace (low32 s <? 60) with true by lia. reflexivity.
  - destruct (representable (wrap32 y) (low32 mo) (low32 d)); [|reflexivity]. cbn [andb].
    destruct B as [B|[B|[B|B]]]; [discriminate| | |].
    + replace (low32 h <? 24) with false by lia. reflexivity.
    + replace (low32 mi <? 60) with false by lia. rewrite andb_false_r. reflexivity.
    + replace (low32 s <? 60) with false by lia. rewrite !andb_false_r. reflexivity.
Qed.

Lemma arith_within : forall md z (f : Z -> result), (do x <- arith md z; f x) = within md z f.
Proof. intros md z f. unfold arith, within. destruct (in_i64 z); [reflexivity|]. destruct md; reflexivity. Qed.
Lemma within_ok : forall md z f, i64_min <= z <= i64_max -> within md z f = f z.
Proof. intros md z f H. apply in_i64_iff in H. unfold within. rewrite H. reflexivity. Qed.

(** *** Sums *)
Lemma month_day_past : forall k y mo d, 1 <= mo <= 13 -> 13 - mo = Z.of_nat k -> year_length y < days_before y mo + d ->
  month_day k y mo d = (13, days_before y mo + d - year_length y).
Proof.
  induction k; intros y mo d Hmo Hk H; cbn [month_day].
  - assert (mo = 13) by lia. subst mo. rewrite days_before_13 in *. f_equal. lia.
  - pose proof (days_before_succ y mo ltac:(lia)) as E.
    assert (L : days_before y (mo + 1) <= year_length y) by (pose proof (days_before_mono y (mo + 1) 13 ltac:(lia) ltac:(lia) ltac:(lia)) as DM; rewrite days_before_13 in DM; lia).
    destruct (Z.leb_spec d (month_length y mo)); [lia|].
    rewrite IHk by lia. f_equal. lia.
Qed.
Lemma gndm_other : forall y mo, ~ 1 <= mo <= 12 -> get_num_of_days_in_month y mo = 30.
Proof.
  intros y mo H. unfold get_num_of_days_in_month.
  replace (mo =? 1) with false by lia. replace (mo =? 3) with false by lia. replace (mo =? 5) with false by lia.
  replace (mo =? 7) with false by lia. replace (mo =? 8) with false by lia. replace (mo =? 10) with false by lia.
  replace (mo =? 12) with false by lia. replace (mo =? 2) with false by lia. reflexivity.
Qed.

Section Sums.
Variable md : mode.

Lemma month_carry : forall y d mo, 1 <= mo <= 12 -> d <= i64_max -> (d <= 31 \/ -2147483648 <= y < 2147483648) ->
  exists mo' d', @month_loop kek md y d mo = Ok (d', mo') /\ carry_days (wrap32 y) mo d = (mo', d') /\
    1 <= mo' <= i64_max /\ (d <= 31 -> mo' <= 12) /\ (12 < mo' -> mo' <= 13 + d / 30).
Proof.
  intros y d mo Hmo Hd Hy. unfold carry_days. replace ((1 <=? mo) && (mo <=? 12)) with true by lia.
  pose proof (gndm_wrap y mo Hmo) as G. pose proof (month_length_bounds (wrap32 y) mo Hmo) as B.
  destruct (Z.to_nat (13 - mo)) as [|k] eqn:Ek; [lia|]. cbn [month_day].
  destruct (Z.leb_spec d (month_length (wrap32 y) mo)) as [L|L].
  { exists mo, d. rewrite month_loop_stop by lia. replace ((1 <=? mo) && (mo <=? 12)) with true by lia.
    repeat split; unfold i64_max; lia. }
  destruct (Z_le_gt_dec d 31) as [L31|L31].
  { assert (mo <> 12) by (intros ->; change (month_length (wrap32 y) 12) with 31 in L; clear - L L31; lia).
    exists (mo + 1), (d - month_length (wrap32 y) mo). rewrite month_loop_once by (unfold i64_min, i64_max; lia). rewrite G.
    destruct k as [|k]; [lia|]. cbn [month_day]. pose proof (month_length_bounds (wrap32 y) (mo + 1) ltac:(lia)).
    replace (d - month_length (wrap32 y) mo <=? month_length (wrap32 y) (mo + 1)) with true by lia.
    replace ((1 <=? mo + 1) && (mo + 1 <=? 12)) with true by lia. repeat split; unfold i64_max; lia. }
  destruct Hy as [Hy|Hy]; [lia|]. rewrite (wrap32_id y Hy) in *.
  pose proof (days_before_succ y mo Hmo) as E.
  destruct (@month_loop_in kek md y d mo Hy Hmo ltac:(lia)) as [A1 A2]. cbv zeta in A1, A2.
  destruct (Z_le_gt_dec (days_before y mo + d) (year_length y)) as [K|K].
  - destruct (A1 K) as (mo' & d' & W & X & Eq). exists mo', d'. rewrite W.
    apply date_exists_iff in X. destruct X as [X1 X2].
    assert (Hle : mo + 1 <= mo').
    { destruct (Z_lt_le_dec mo' (mo + 1)) as [Lt|]; [exfalso|assumption].
      pose proof (days_before_succ y mo' X1). pose proof (days_before_mono y (mo' + 1) (mo + 1) ltac:(lia) ltac:(lia) ltac:(lia)). lia. }
    replace (d - month_length y mo) with (days_before y mo' - days_before y (mo + 1) + d') by lia.
    rewrite month_day_at by lia. replace ((1 <=? mo') && (mo' <=? 12)) with true by lia.
    repeat split; unfold i64_max; lia.
  - rewrite (A2 ltac:(lia)). rewrite month_day_past by lia. cbn [Z.leb Z.compare Pos.compare Pos.compare_cont andb].
    do 2 eexists. split; [reflexivity|]. replace (days_before y (mo + 1) + (d - month_length y mo) - year_length y - 1) with (days_before y mo + d - year_length y - 1) by lia.
    split; [reflexivity|].
    assert (days_before y mo <= year_length y) by (pose proof (days_before_mono y (mo + 1) 13 ltac:(lia) ltac:(lia) ltac:(lia)) as DM; rewrite days_before_13 in DM; lia).
    unfold i64_max in *. lia.
Qed.
Lemma month_carry_other : forall y d mo (g : Z -> Z -> result), ~ 1 <= mo <= 12 -> i64_min <= mo <= i64_max -> 1 <= d <= 31 ->
  (do (d', mo') <- @month_loop kek md y d mo; g d' mo') =
  (let '(mo', d') := carry_days (wrap32 y) mo d in within md mo' (g d')).
Proof.
  intros y d mo g Hmo Hr Hd. unfold carry_days. replace ((1 <=? mo) && (mo <=? 12)) with false by lia.
  replace ((1 <=? mo) && (mo <=? 12)) with false by lia.
  pose proof (gndm_other y mo Hmo) as G.
  destruct (Z.eq_dec d 31) as [->|N].
  2:{ rewrite month_loop_stop by lia. replace (mo + (d - 1) / 30) with mo by lia. replace ((d - 1) mod 30 + 1) with d by lia.
      rewrite within_ok by assumption. reflexivity. }
  change ((31 - 1) / 30) with 1. change ((31 - 1) mod 30 + 1) with 1.
  destruct (Z_le_gt_dec (mo + 1) i64_max) as [L|L].
  { rewrite month_loop_once by (unfold i64_min, i64_max in *; lia). rewrite G. rewrite within_ok by (unfold i64_min, i64_max in *; lia). reflexivity. }
  unfold within. replace (in_i64 (mo + 1)) with false by (symmetry; apply in_i64_false; lia).
  assert (M : md = Checked \/ md = Wrapping) by (destruct md; auto). destruct M as [M|M].
  - rewrite month_loop_once_panic by (try assumption; unfold i64_min, i64_max in *; lia). rewrite M. reflexivity.
  - rewrite M. rewrite month_loop_while.
    assert (mo = i64_max) by lia. subst mo.
    assert (W : @wrun kek _ (mcond y) (mstep Wrapping y) (31, i64_max) (Ok (1, wrap64 (i64_max + 1))) 2).
    { eapply wstep.
      - unfold mcond. rewrite G. reflexivity.
      - unfold mstep, subc, addc. rewrite G. reflexivity.
      - apply wstop. unfold mcond. rewrite gndm_other; [reflexivity|]. change (wrap64 (i64_max + 1)) with i64_min. unfold i64_min. lia. }
    rewrite (wrun_while _ _ _ _ _ W) by lia. reflexivity.
Qed.

Lemma within_ext : forall z f g, (forall x, i64_min <= x <= i64_max -> f x = g x) -> within md z f = within md z g.
Proof.
  intros z f g H. unfold within. destruct (in_i64 z) eqn:E; [apply H, in_i64_iff, E|].
  destruct md; [reflexivity|]. apply H. apply wrap64_range.
Qed.
Lemma q60 : forall z, i64_min <= z <= i64_max -> -153722867280912931 <= Z.quot z 60 <= 153722867280912931.
Proof. intros z H. unfold i64_min, i64_max in H. Z.to_euclidean_division_equations. lia. Qed.
Lemma q24 : forall z, i64_min <= z <= i64_max -> -384307168202282326 <= Z.quot z 24 <= 384307168202282326.
Proof. intros z H. unfold i64_min, i64_max in H. Z.to_euclidean_division_equations. lia. Qed.
Lemma qs : forall z k, 0 < k -> 0 <= z < k -> Z.quot z k = 0.
Proof. intros z k Hk H. apply Z.quot_small. lia. Qed.

Lemma carried_correct : forall y mo d h mi s,
  i64_min <= s <= i64_max -> i64_min <= mi + Z.quot s 60 <= i64_max -> i64_min <= h + Z.quot (mi + Z.quot s 60) 60 <= i64_max ->
  let d1 := d + Z.quot (h + Z.quot (mi + Z.quot s 60) 60) 24 in
  i64_min <= d1 <= i64_max -> i64_min <= mo <= i64_max -> i64_min <= y <= i64_max ->
  (1 <= mo <= 12 /\ (d1 <= 31 \/ min_year <= y <= max_year)) \/ (~ 1 <= mo <= 12 /\ 1 <= d1 <= 31 /\ min_year <= y <= max_year) ->
  (do f <- @adjust_times_add kek md y mo d h mi s; build_moment f) = carried md (y, mo, d, h, mi, s).
Proof.
  intros y mo d h mi s Hs Hmi Hh d1 Hd Hmo Hy C. unfold adjust_times_add, carried.
  rewrite fix_carry_eq by lia. rewrite arith_ok by assumption. cbn [bind].
  rewrite fix_carry_eq by lia. rewrite arith_ok by assumption. cbn [bind].
  rewrite fix_carry_eq by lia. fold d1. rewrite arith_ok by assumption. cbn [bind].
  clearbody d1. generalize (Z.rem (h + Z.quot (mi + Z.quot s 60) 60) 24) (Z.rem (mi + Z.quot s 60) 60) (Z.rem s 60). intros h' mi' s'. clear - C Hd Hmo Hy.
  assert (Y : forall d' mo', i64_min <= mo' <= i64_max -> (12 < mo' -> y + (mo' - 1) / 12 <= i64_max) ->
    (do f <- (do (y, mo) <- @year_loop kek md y mo'; Ok (y, mo, d', h', mi', s')); build_moment f) =
    (let '(y, mo) := if 12 <? mo' then (y + (mo' - 1) / 12, (mo' - 1) mod 12 + 1) else (y, mo') in dated (y, mo, d', h', mi', s'))).
  { intros d' mo' Hr Hb. destruct (Z.ltb_spec 12 mo') as [L|L].
    - rewrite year_loop_eq by lia. cbn [bind]. apply dated_build.
    - rewrite year_loop_small by lia. cbn [bind]. apply dated_build. }
  destruct C as [[C1 C2]|(C1 & C2 & C3)].
  - destruct (month_carry y d1 mo C1 ltac:(lia)) as (mo' & d' & W & K & B & B1 & B2).
    { unfold min_year, max_year in C2. lia. }
    rewrite W, K. cbn [bind]. rewrite within_ok by (unfold i64_min; lia). apply Y; [unfold i64_min; lia|].
    unfold min_year, max_year, i64_max in *. lia.
  - transitivity (do (d', mo') <- @month_loop kek md y d1 mo; (do f <- (do (y, mo) <- @year_loop kek md y mo'; Ok (y, mo, d', h', mi', s')); build_moment f)).
    { generalize (@month_loop kek md y d1 mo). intro r. destruct r as [[a b]| | |]; cbn [bind]; reflexivity. }
    etransitivity; [apply (month_carry_other y d1 mo (fun d' mo' => do f <- (do (y, mo) <- @year_loop kek md y mo'; Ok (y, mo, d', h', mi', s')); build_moment f)); assumption|].
    destruct (carry_days (wrap32 y) mo d1) as [mo' d']. apply within_ext. intros x Hx. apply Y; [assumption|].
    unfold min_year, max_year, i64_max in *. lia.
Qed.

Lemma forward_correct : forall m u n, dt_valid m = true -> in_i64 n = true ->
  calculate md (Addition (Moment m) (mk u n)) = forward md m u n.
Proof.
  intros m u n Hm Hn. rewrite calc_add_mk by assumption. pose proof (valid_facts m Hm) as V. unfold min_year, max_year in V.
  unfold forward.
  destruct u; cbn [mk add_to_moment field numbers_of]; unfold addc; cbn [bind]; rewrite arith_within; apply within_ext; intros x Hx.
  - pose proof (q60 x Hx) as Q1. assert (R1 : i64_min <= minute m + Z.quot x 60 <= i64_max) by (unfold i64_min, i64_max; lia).
    pose proof (q60 _ R1) as Q2. assert (R2 : i64_min <= hour m + Z.quot (minute m + Z.quot x 60) 60 <= i64_max) by (unfold i64_min, i64_max; lia).
    pose proof (q24 _ R2) as Q3. apply carried_correct; cbv zeta; unfold min_year, max_year, i64_min, i64_max in *; lia.
  - pose proof (q60 x Hx) as Q1. assert (R1 : i64_min <= hour m + Z.quot x 60 <= i64_max) by (unfold i64_min, i64_max; lia).
    pose proof (q24 _ R1) as Q2.
    apply carried_correct; cbv zeta; rewrite ?(qs (second m) 60) by lia; rewrite ?Z.add_0_r; unfold min_year, max_year, i64_min, i64_max in *; lia.
  - pose proof (q24 x Hx) as Q1.
    apply carried_correct; cbv zeta; rewrite ?(qs (second m) 60) by lia; rewrite ?Z.add_0_r; rewrite ?(qs (minute m) 60) by lia; rewrite ?Z.add_0_r;
      unfold min_year, max_year, i64_min, i64_max in *; lia.
  - apply carried_correct; cbv zeta; rewrite ?(qs (second m) 60) by lia; rewrite ?Z.add_0_r; rewrite ?(qs (minute m) 60) by lia; rewrite ?Z.add_0_r;
      rewrite ?(qs (hour m) 24) by lia; unfold min_year, max_year, i64_min, i64_max in *; lia.
  - apply carried_correct; cbv zeta; rewrite ?(qs (second m) 60) by lia; rewrite ?Z.add_0_r; rewrite ?(qs (minute m) 60) by lia; rewrite ?Z.add_0_r;
      rewrite ?(qs (hour m) 24) by lia; unfold min_year, max_year, i64_min, i64_max in *; lia.
  - apply carried_correct; cbv zeta; rewrite ?(qs (second m) 60) by lia; rewrite ?Z.add_0_r; rewrite ?(qs (minute m) 60) by lia; rewrite ?Z.add_0_r;
      rewrite ?(qs (hour m) 24) by lia; unfold min_year, max_year, i64_min, i64_max in *; lia.
Qed.
End Sums.

(** *** Differences *)
Section Differences.
Variable md : mode.

Lemma low32_wrap64 : forall z, low32 (wrap64 z) = low32 z.
Proof.
  intro z. destruct (wrap64_congr z) as [k ->]. unfold low32.
  replace (z + k * 18446744073709551616) with (z + (k * 4294967296) * 4294967296) by ring. apply Z.mod_add. lia.
Qed.
Lemma arith_wrapping : forall z, @arith kek Wrapping z = Ok (wrap64 z).
Proof. intro z. unfold arith. destruct (in_i64 z) eqn:E; [|reflexivity]. rewrite wrap64_id by (apply in_i64_iff; exact E). reflexivity. Qed.

Lemma borrow_lend : forall l k t n b, l <= 1 -> 13 <= k <= 60 -> 0 <= t <= 60 -> i64_min <= b <= i64_max -> (md = Wrapping \/ i64_min < b) ->
  (b < l -> Z.abs n <= 4611686018427387904) ->
  @borrow kek md l k t n b = Ok (fst (lend l k t n b), wrap64 (snd (lend l k t n b))).
Proof.
  intros l k t n b Hl Hk Ht Hb Hw Hn. unfold borrow, lend. destruct (Z.ltb_spec b l) as [L|L]; cbn [fst snd].
  2:{ rewrite wrap64_id by assumption. reflexivity. }
  specialize (Hn L). unfold subc, addc, divc, absc. cbn [bind].
  assert (A : @arith kek md (Z.abs b) = Ok (wrap64 (Z.abs b)) /\ (do r <- @arith kek md (0 - b); arith md (Z.abs r)) = Ok (wrap64 (Z.abs b)) /\
    (i64_min < b -> wrap64 (Z.abs b) = Z.abs b)).
  { destruct (Z.eq_dec b i64_min) as [->|N].
    - destruct Hw as [->|Hw]; [|lia]. split; [reflexivity|split; [reflexivity|lia]].
    - assert (R : i64_min <= Z.abs b <= i64_max) by (unfold i64_min, i64_max in *; lia).
      rewrite (wrap64_id _ R). rewrite (arith_ok md _ R). rewrite arith_ok by (unfold i64_min, i64_max in *; lia). cbn [bind].
      replace (Z.abs (0 - b)) with (Z.abs b) by lia. rewrite (arith_ok md _ R). auto. }
  destruct A as (A1 & A2 & A3). rewrite A1, A2. cbn [bind]. pose proof (wrap64_range (Z.abs b)) as R.
  assert (Q : Z.abs (Z.quot (wrap64 (Z.abs b)) k) <= 709490156681136601).
  { generalize dependent (wrap64 (Z.abs b)). intros a _ _ _ R. clear - R Hk. rewrite <- (Z.abs_eq k) by lia. rewrite <- Z.quot_abs by lia.
    rewrite Z.abs_eq with (n := k) by lia. rewrite Z.quot_div_nonneg by lia. apply Z.div_le_upper_bound; [lia|]. unfold i64_min, i64_max in R. nia. }
  rewrite arith_ok by (unfold i64_min, i64_max; lia). cbn [bind]. rewrite arith_ok by (unfold i64_min, i64_max; lia). cbn [bind].
  destruct (Z.eq_dec b i64_min) as [E|N].
  - destruct Hw as [->|Hw]; [|lia]. rewrite arith_wrapping. reflexivity.
  - rewrite A3 by lia. rewrite arith_ok by (unfold i64_min, i64_max in *; lia). cbn [bind].
    rewrite wrap64_id by (unfold i64_min, i64_max in *; lia). reflexivity.
Qed.
Lemma lend_bound : forall l k t n b, 13 <= k <= 60 -> Z.abs n <= 2305843009213693952 -> i64_min <= b <= i64_max ->
  Z.abs (fst (lend l k t n b)) <= 4611686018427387904.
Proof.
  intros l k t n b Hk Hn Hb. unfold lend. destruct (b <? l); cbn [fst]; [|lia].
  pose proof (wrap64_range (Z.abs b)) as R.
  assert (Q : Z.abs (Z.quot (wrap64 (Z.abs b)) k) <= 709490156681136601).
  { generalize dependent (wrap64 (Z.abs b)). intros a R. clear - R Hk. rewrite <- (Z.abs_eq k) by lia. rewrite <- Z.quot_abs by lia.
    rewrite Z.abs_eq with (n := k) by lia. rewrite Z.quot_div_nonneg by lia. apply Z.div_le_upper_bound; [lia|]. unfold i64_min, i64_max in R. nia. }
  lia.
Qed.

Definition washed (f : numbers) : numbers :=
  let '(y, mo, d, h, mi, s) := f in (y, wrap64 mo, wrap64 d, wrap64 h, wrap64 mi, wrap64 s).
Lemma dated_washed : forall f, dated (washed f) = dated f.
Proof. intros [[[[[y mo] d] h] mi] s]. unfold dated, washed. rewrite !low32_wrap64. reflexivity. Qed.

Definition small (z : Z) : Prop := Z.abs z <= 2305843009213693952.
Definition any64 (z : Z) : Prop := i64_min <= z <= i64_max /\ (md = Wrapping \/ i64_min < z).
(** At most one of the numbers is big. *)
Lemma lent_correct : forall y mo d h mi s,
  any64 s -> any64 mi -> any64 h -> any64 d -> any64 mo -> i64_min <= y <= i64_max ->
  (small mi \/ 0 <= s) -> (small h \/ 0 <= mi /\ 0 <= s) -> (small d \/ 0 <= h /\ 0 <= mi /\ 0 <= s) ->
  (small mo \/ 1 <= d /\ 0 <= h /\ 0 <= mi /\ 0 <= s) -> (small y \/ 1 <= mo /\ 1 <= d /\ 0 <= h /\ 0 <= mi /\ 0 <= s) ->
  @adjust_times_sub kek md y mo d h mi s = Ok (washed (lent (y, mo, d, h, mi, s))).
Proof.
  intros y mo d h mi s As Am Ah Ad Ao Hy C1 C2 C3 C4 C5. unfold adjust_times_sub, lent.
  assert (Big : forall z, small z -> Z.abs z <= 4611686018427387904) by (unfold small; intros; lia).
  assert (Le : forall l k t n b, l <= 1 -> 13 <= k <= 60 -> i64_min <= b <= i64_max -> (small n \/ l <= b) -> any64 n -> any64 (fst (lend l k t n b))).
  { intros l k t n b Hl Hk Hb Hs Hn. destruct Hs as [Hs|Hs].
    - pose proof (lend_bound l k t n b Hk Hs Hb). unfold any64, i64_min, i64_max. lia.
    - unfold lend. replace (b <? l) with false by lia. exact Hn. }
  assert (Eq : forall l k t n b, l <= b -> fst (lend l k t n b) = n) by (intros l k t n b Hb; unfold lend; replace (b <? l) with false by lia; reflexivity).
  rewrite (borrow_lend 0 60 60 mi s) by first [lia | apply As | intros; apply Big; destruct C1; [assumption|lia]]. cbn [bind].
  pose proof (Le 0 60 60 mi s ltac:(lia) ltac:(lia) (proj1 As) C1 Am) as F1. pose proof (Eq 0 60 60 mi s) as G1.
  destruct (lend 0 60 60 mi s) as [mi1 s1]. cbn [fst snd] in *.
  assert (D2 : small h \/ 0 <= mi1) by (destruct C2 as [C2|C2]; [auto|right; rewrite G1 by lia; lia]).
  rewrite (borrow_lend 0 60 60 h mi1) by first [lia | apply F1 | intros; apply Big; destruct D2; [assumption|lia]]. cbn [bind].
  pose proof (Le 0 60 60 h mi1 ltac:(lia) ltac:(lia) (proj1 F1) D2 Ah) as F2. pose proof (Eq 0 60 60 h mi1) as G2.
  destruct (lend 0 60 60 h mi1) as [h1 mi2]. cbn [fst snd] in *.
  assert (D3 : small d \/ 0 <= h1) by (destruct C3 as [C3|C3]; [auto|right; rewrite G2 by (rewrite G1; lia); lia]).
  rewrite (borrow_lend 0 24 24 d h1) by first [lia | apply F2 | intros; apply Big; destruct D3; [assumption|lia]]. cbn [bind].
  pose proof (Le 0 24 24 d h1 ltac:(lia) ltac:(lia) (proj1 F2) D3 Ad) as F3. pose proof (Eq 0 24 24 d h1) as G3.
  destruct (lend 0 24 24 d h1) as [d1 h2]. cbn [fst snd] in *.
  assert (D4 : small mo \/ 1 <= d1) by (destruct C4 as [C4|C4]; [auto|right; rewrite G3 by (rewrite G2; rewrite ?G1; lia); lia]).
  rewrite (borrow_lend 1 32 31 mo d1) by first [lia | apply F3 | intros; apply Big; destruct D4; [assumption|lia]]. cbn [bind].
  pose proof (Le 1 32 31 mo d1 ltac:(lia) ltac:(lia) (proj1 F3) D4 Ao) as F4. pose proof (Eq 1 32 31 mo d1) as G4.
  destruct (lend 1 32 31 mo d1) as [mo1 d2]. cbn [fst snd] in *.
  assert (D5 : small y \/ 1 <= mo1) by (destruct C5 as [C5|C5]; [auto|right; rewrite G4 by (rewrite G3; rewrite ?G2; rewrite ?G1; lia); lia]).
  rewrite (borrow_lend 1 13 12 y mo1) by first [lia | apply F4 | intros; apply Big; destruct D5; [assumption|lia]]. cbn [bind].
  destruct (lend 1 13 12 y mo1) as [y1 mo2]. cbn [fst snd] in *. reflexivity.
Qed.

Lemma within_ext_any : forall z f g, (forall x, i64_min <= x <= i64_max -> (x = z \/ md = Wrapping) -> f x = g x) -> within md z f = within md z g.
Proof.
  intros z f g H. unfold within. destruct (in_i64 z) eqn:E; [apply H; [apply in_i64_iff, E|auto]|].
  destruct md; [reflexivity|]. apply H; [apply wrap64_range|auto].
Qed.
Lemma backward_correct : forall m u n, dt_valid m = true -> in_i64 n = true ->
  calculate md (Subtraction (Moment m) (mk u n)) = backward md m u n.
Proof.
  intros m u n Hm Hn. rewrite calc_sub_mk by assumption. pose proof (valid_facts m Hm) as V. unfold min_year, max_year in V.
  apply in_i64_iff in Hn. unfold backward.
  destruct u; cbn [mk sub_from_moment field numbers_of]; unfold subc; cbn [bind]; rewrite arith_within; apply within_ext_any; intros x Hx Hw;
    (rewrite lent_correct; [cbn [bind]; rewrite dated_build; apply dated_washed| ..]);
    unfold any64, small, i64_min, i64_max in *;
    first [lia | (split; [lia|]; destruct Hw as [Hw|Hw]; [right; lia|left; exact Hw]) | (split; [lia|right; lia]) | (right; lia) | (left; lia)].
Qed.
End Differences.
