(** Collected iterators, repeated additions, zero amounts, subtraction against negative addition. *)
Require Import ZArith Bool List Lia ZifyBool.
From Verif Require Import Prelude Spec Chrono TimeType Iter SpecTree SpecMoment SpecIter SpecAdapt SpecSeq
  PreludeProofs CalendarProofs EvalProofs AmountProofs ShapeProofs CompProofs AddProofs AddProofs2 SubProofs SubProofs2 OrdProofs IterProofs IterProofs2 AdapterProofs.
Import ListNotations.
Local Open Scope Z_scope.
Ltac Zify.zify_post_hook ::= Z.div_mod_to_equations.

(** ** collect *)
Lemma items_length : forall {S} (nx : next_fn S) k s, length (items nx k s) = k.
Proof. intros S nx. induction k as [|k IH]; intro s; cbn [items length]; [reflexivity|]. f_equal. apply IH. Qed.
Lemma collect_n : forall {S} (nx : next_fn S) N s, (forall k, (k < N)%nat -> nth_item nx k s <> None) -> nth_item nx N s = None ->
  exists l, collects nx s l /\ length l = N /\ forall k r, (k < N)%nat -> nth_item nx k s = Some r -> nth_error l k = Some r.
Proof.
  intros S nx N s H HN.
  assert (A : exists l, items nx N s = map Some l).
  { clear HN. revert s H. induction N as [|N IH]; intros s H; [exists nil; reflexivity|]. cbn [items].
    destruct (IH (snd (nx s))) as [l E]. { intros k Hk. apply (H (Datatypes.S k)). lia. }
    destruct (fst (nx s)) as [r|] eqn:F; [|elim (H 0%nat); [lia|exact F]]. exists (r :: l). rewrite E. reflexivity. }
  destruct A as [l E]. exists l.
  assert (L : length l = N) by (rewrite <- (items_length nx N s), E, map_length; reflexivity).
  split; [|split; [exact L|]].
  - unfold collects. rewrite L. auto.
  - intros k r Hk Hr. pose proof (items_nth nx N s k Hk) as Q. rewrite E, Hr, nth_error_map in Q.
    destruct (nth_error l k); [|discriminate]. cbn in Q. congruence.
Qed.
Lemma collects_unique : forall {S} (nx : next_fn S) s l1 l2, collects nx s l1 -> collects nx s l2 -> l1 = l2.
Proof.
  assert (A : forall S (nx : next_fn S) s l1 l2, (length l1 < length l2)%nat -> collects nx s l1 -> collects nx s l2 -> False).
  { intros S nx s l1 l2 L [_ N] [E _]. pose proof (items_nth nx (length l2) s (length l1) L) as Q. rewrite N, E, nth_error_map in Q.
    destruct (nth_error l2 (length l1)) eqn:F; cbn in Q; discriminate. }
  intros S nx s l1 l2 H1 H2. destruct (Nat.lt_trichotomy (length l1) (length l2)) as [L|[L|L]];
    [elim (A _ _ _ _ _ L H1 H2)| |elim (A _ _ _ _ _ L H2 H1)].
  destruct H1 as [E1 _], H2 as [E2 _]. rewrite L in E1. rewrite E1 in E2. clear -E2.
  revert l2 E2. induction l1 as [|a l1 IH]; intros [|b l2] E; cbn in E; try discriminate; [reflexivity|].
  injection E as -> E. f_equal. apply IH. exact E.
Qed.

Lemma until_count : forall md m u n it ending, build m (mk u n) = Ok it -> dt_valid m = true -> clock_unit u = true -> 0 < n ->
  n * unit_secs u <= 30 * 86400 -> dt_valid ending = true -> before m ending ->
  let N := steps_before m ending (n * unit_secs u) in
  inst m + N * (n * unit_secs u) < instant (max_year + 1) 1 1 0 0 0 ->
  exists l, collects (until_next md (iter_next md) ending) it l /\ Z.of_nat (length l) = N /\
    nth_error l 0 = Some (Ok (Moment m)) /\
    forall k, (1 <= k < length l)%nat -> exists m', nth_error l k = Some (Ok (Moment m')) /\ dt_valid m' = true /\ nano m' = 0 /\ inst m' = inst m + Z.of_nat k * (n * unit_secs u).
Proof.
  intros md m u n it ending Hb Hm Hu Hn Hs He B N HN.
  pose proof (clock_unit_secs u Hu) as U. set (st := n * unit_secs u) in *. assert (S0 : 0 < st) by (subst st; nia).
  pose proof (nano_range m Hm) as Nm. pose proof (nano_range ending He) as Ne.
  set (b := if 0 <? nano ending then 1 else 0) in *.
  assert (HB : 0 < inst ending - inst m + b).
  { unfold before in B. subst b. destruct (0 <? nano ending) eqn:Z0; lia. }
  assert (N1 : 1 <= N).
  { unfold N, steps_before. fold b. assert (0 <= (inst ending - inst m + b - 1) / st) by (apply Z.div_pos; lia). lia. }
  assert (Hlast : inst ending - inst m + b <= N * st /\ (N - 1) * st < inst ending - inst m + b).
  { unfold N, steps_before. fold b. set (D := inst ending - inst m + b - 1) in *.
    pose proof (Z.div_mod D st ltac:(lia)). pose proof (Z.mod_pos_bound D st S0). nia. }
  assert (It : forall k, (1 <= k)%nat -> Z.of_nat k <= N -> exists m', nth_item (iter_next md) k it = Some (Ok (Moment m')) /\
    dt_valid m' = true /\ nano m' = 0 /\ inst m' = inst m + Z.of_nat k * st).
  { intros k K1 K2. destruct (b_clock md m u n it k Hb Hm Hu ltac:(lia) Hs K1) as (m' & H1 & H2 & H3 & H4).
    { rewrite <- Z.mul_assoc. fold st. assert (Z.of_nat k * st <= N * st) by nia. lia. }
    exists m'. rewrite <- Z.mul_assoc in H4. auto. }
  assert (Un : forall k, Z.of_nat k < N -> (1 <= k)%nat -> exists m', nth_item (until_next md (iter_next md) ending) k it = Some (Ok (Moment m')) /\ dt_valid m' = true /\ nano m' = 0 /\ inst m' = inst m + Z.of_nat k * st).
  { intros k K1 K2. destruct (It k K2 ltac:(lia)) as (m' & H1 & H2 & H3 & H4). exists m'. split; [|auto].
    apply (until_moment md (iter_next md) ending k it _ m' H2 He H1 (calc_value md (Moment _) eq_refl)).
    unfold before. subst b. assert (Z.of_nat k * st <= (N - 1) * st) by nia. destruct (0 <? nano ending) eqn:Z0; lia. }
  assert (U0 : nth_item (until_next md (iter_next md) ending) 0 it = Some (Ok (Moment m))).
  { apply (until_moment md (iter_next md) ending 0 it _ m Hm He (build_first md m _ it Hb) (calc_value md (Moment _) eq_refl)). exact B. }
  destruct (collect_n (until_next md (iter_next md) ending) (Z.to_nat N) it) as (l & C & L & Hl).
  - intros k Hk. destruct k as [|k]; [rewrite U0; discriminate|].
    destruct (Un (Datatypes.S k) ltac:(lia) ltac:(lia)) as (m' & -> & _). discriminate.
  - destruct (It (Z.to_nat N) ltac:(lia) ltac:(lia)) as (m' & H1 & H2 & H3 & H4).
    apply (until_moment md (iter_next md) ending _ it _ m' H2 He H1 (calc_value md (Moment _) eq_refl)).
    rewrite Z2Nat.id in H4 by lia. unfold before. subst b. destruct (0 <? nano ending) eqn:Z0; lia.
  - exists l. split; [exact C|]. split; [lia|]. split; [apply Hl; [lia|exact U0]|].
    intros k Hk. rewrite L in Hk. destruct (Un k ltac:(lia) ltac:(lia)) as (m' & H1 & H2). exists m'. split; [|exact H2]. apply Hl; [lia|exact H1].
Qed.
Lemma until_empty : forall md m inc it ending, build m inc = Ok it -> dt_valid m = true -> dt_valid ending = true -> ~ before m ending ->
  collects (until_next md (iter_next md) ending) it nil.
Proof.
  intros md m inc it ending Hb Hm He B. split; [reflexivity|].
  apply (until_moment md (iter_next md) ending 0 it _ m Hm He (build_first md m _ it Hb) (calc_value md (Moment _) eq_refl)). exact B.
Qed.
Lemma times_count : forall md it n, in_i64 n = true -> 0 <= n ->
  exists l, collects (times_next md (iter_next md)) (times_new it n) l /\ Z.of_nat (length l) = n.
Proof.
  intros md it n Hi Hn. apply in_i64_iff in Hi as Hi'.
  destruct (collect_n (times_next md (iter_next md)) (Z.to_nat n) (times_new it n)) as (l & C & L & _).
  - intros k Hk. rewrite times_pass by (try assumption; lia). apply never_none.
  - apply times_done; try assumption; lia.
  - exists l. split; [exact C|lia].
Qed.

(** ** Repeated additions *)
Lemma add_twice : forall md m t1 t2 m', dt_valid m = true -> tt_ok t1 = true -> tt_ok t2 = true -> amount_only t1 = true -> amount_only t2 = true ->
  abs_secs t2 <= i64_max -> calculate md (Addition (Moment m) t1) = Ok (Moment m') ->
  calculate md (Addition (Addition (Moment m) t1) t2) = calculate md (Addition (Moment m') t2).
Proof.
  intros md m t1 t2 m' Hm H1 H2 A1 A2 S2 E.
  apply shape_amount in A1 as B1. apply shape_amount in A2 as B2.
  destruct (add_tree md m t2 Hm H2 A2 S2) as (n & _ & _ & E2 & _).
  assert (Hm' : dt_valid m' = true).
  { assert (T : tt_ok (Addition (Moment m) t1) = true) by (cbn [tt_ok]; rewrite H1; cbn; rewrite Hm; reflexivity).
    pose proof (calc_tt_ok md _ _ T E) as K. exact K. }
  destruct (calc_add_comp md (Addition (Moment m) t1) t2) as (C & _);
    [cbn [tt_ok]; rewrite H1, Hm; reflexivity|exact H2|cbn [shape_of]; rewrite B1, B2; cbn; discriminate|].
  rewrite (C _ _ E E2).
  destruct (calc_add_comp md (Moment m') t2) as (C' & _); [exact Hm'|exact H2|cbn [shape_of]; rewrite B2; discriminate|].
  rewrite (C' _ _ eq_refl E2). reflexivity.
Qed.

Lemma year_le : forall a b, dt_valid a = true -> dt_valid b = true -> inst a <= inst b -> year a <= year b.
Proof. intros a b Ha Hb H. destruct (Z_le_gt_dec (year a) (year b)); [assumption|]. pose proof (inst_year_lt b a Hb Ha ltac:(lia)). lia. Qed.
Lemma instant_jan_mono : forall y y', y <= y' -> instant y 1 31 0 0 0 <= instant y' 1 31 0 0 0.
Proof.
  intros y y' H. unfold instant. rewrite !day_number_jan. pose proof (days_before_year_mono y y' H). lia.
Qed.
Lemma same_moment : forall a b, dt_valid a = true -> dt_valid b = true -> nano a = 0 -> nano b = 0 -> inst a = inst b -> a = b.
Proof. intros a b Ha Hb Na Nb E. pose proof (inst_inj a b Ha Hb E) as W. destruct a, b. cbn in *. subst. exact W. Qed.

Lemma seq_clock : forall md m t1 t2, dt_valid m = true -> tt_ok t1 = true -> tt_ok t2 = true -> amount_only t1 = true -> amount_only t2 = true ->
  abs_secs t1 + abs_secs t2 <= i64_max -> clock_unit (finest t1) = true -> clock_unit (finest t2) = true -> 0 <= secs t1 -> 0 <= secs t2 ->
  inst m + secs t1 + secs t2 < instant (year m + 1) 1 31 0 0 0 ->
  inst m + secs t1 + secs t2 < instant (max_year + 1) 1 1 0 0 0 ->
  exists m', calculate md (Addition (Addition (Moment m) t1) t2) = Ok (Moment m') /\ dt_valid m' = true /\ nano m' = 0 /\
    inst m' = inst m + secs t1 + secs t2 /\ calculate md (Addition (Moment m) (Addition t1 t2)) = Ok (Moment m').
Proof.
  intros md m t1 t2 Hm O1 O2 A1 A2 S F1 F2 P1 P2 L1 L2.
  pose proof (secs_abs t1). pose proof (secs_abs t2).
  destruct (add_tree_exact md m t1 Hm O1 A1 ltac:(lia) F1 P1 ltac:(lia) ltac:(lia)) as (m1 & E1 & V1 & N1 & I1).
  rewrite (add_twice md m t1 t2 m1 Hm O1 O2 A1 A2 ltac:(lia) E1).
  pose proof (year_le m m1 Hm V1 ltac:(lia)) as Y. pose proof (instant_jan_mono (year m + 1) (year m1 + 1) ltac:(lia)).
  destruct (add_tree_exact md m1 t2 V1 O2 A2 ltac:(lia) F2 P2 ltac:(lia) ltac:(lia)) as (m2 & E2 & V2 & N2 & I2).
  exists m2. split; [exact E2|]. split; [exact V2|]. split; [exact N2|]. split; [lia|].
  destruct (add_tree_exact md m (Addition t1 t2)) as (m3 & E3 & V3 & N3 & I3); cbn [secs abs_secs finest amount_only tt_ok]; try lia; try assumption.
  - rewrite O1, O2. reflexivity.
  - rewrite A1, A2. reflexivity.
  - destruct (finest t1), (finest t2); try discriminate F1; try discriminate F2; reflexivity.
  - rewrite E3. do 2 f_equal. apply same_moment; try assumption. cbn [secs] in I3. lia.
Qed.
Lemma seq_months : forall md m a b, dt_valid m = true -> day m <= 28 -> 0 <= a -> 0 <= b -> in_i64 b = true ->
  year m * 12 + month m + a + b <= max_year * 12 + 12 ->
  calculate md (Addition (Addition (Moment m) (Months a)) (Months b)) = calculate md (Addition (Moment m) (Months (a + b))) /\
  exists m', calculate md (Addition (Moment m) (Months (a + b))) = Ok (Moment m').
Proof.
  intros md m a b Hm Hd Ha Hb Ib L. destruct (valid_facts m Hm) as (Vy & Vmo & Vd & Vml & Vh & Vmi & Vs).
  apply in_i64_iff in Ib as Ib'.
  set (i := year m * 12 + month m + a - 1). set (j := i + b).
  pose proof (add_months_same_day md m a (i / 12) (i mod 12 + 1) Hm Hd Ha ltac:(lia) ltac:(lia) ltac:(lia)) as E1.
  pose proof (add_months_same_day md m (a + b) (j / 12) (j mod 12 + 1) Hm Hd ltac:(lia) ltac:(lia) ltac:(lia) ltac:(lia)) as E3.
  set (m1 := mkdt (i / 12) (i mod 12 + 1) (day m) (hour m) (minute m) (second m) 0) in *.
  assert (V1 : dt_valid m1 = true).
  { apply dt_valid_iff. cbn. pose proof (month_length_bounds (i / 12) (i mod 12 + 1) ltac:(lia)). split; [lia|]. split; [apply date_exists_iff; lia|lia]. }
  pose proof (add_months_same_day md m1 b (j / 12) (j mod 12 + 1) V1 Hd Hb ltac:(cbn; lia) ltac:(lia) ltac:(lia)) as E2.
  split; [|eexists; exact E3]. rewrite E3.
  assert (A2 : abs_secs (Months b) <= i64_max).
  { cbn [abs_secs]. unfold max_year, min_year, i64_max in *. cbn. lia. }
  rewrite (add_twice md m (Months a) (Months b) m1); try assumption; try reflexivity.
  cbn [tt_ok]. apply in_i64_iff. unfold max_year, min_year, i64_max, i64_min in *. lia.
Qed.
Lemma seq_years : forall md m a b, dt_valid m = true -> ~ (month m = 2 /\ day m = 29) ->
  min_year <= year m + a <= max_year -> min_year <= year m + a + b <= max_year ->
  calculate md (Addition (Addition (Moment m) (Years a)) (Years b)) = calculate md (Addition (Moment m) (Years (a + b))) /\
  exists m', calculate md (Addition (Moment m) (Years (a + b))) = Ok (Moment m').
Proof.
  intros md m a b Hm Hd Ha Hb. destruct (valid_facts m Hm) as (Vy & Vmo & Vd & Vml & Vh & Vmi & Vs).
  pose proof (add_years_in_range md m a Hm Ha) as E1. pose proof (add_years_in_range md m (a + b) Hm ltac:(lia)) as E3.
  replace ((month m =? 2) && (day m =? 29)) with false in E1, E3 by lia. cbn [andb] in E1, E3.
  set (m1 := mkdt (year m + a) (month m) (day m) (hour m) (minute m) (second m) 0) in *.
  assert (V1 : dt_valid m1 = true).
  { pose proof (calc_tt_ok md (Addition (Moment m) (Years a)) (Moment m1)) as K. cbn [tt_ok] in K. apply K; [|exact E1].
    rewrite Hm. apply in_i64_iff. unfold max_year, min_year, i64_max, i64_min in *. lia. }
  pose proof (add_years_in_range md m1 b V1 ltac:(cbn; lia)) as E2. cbn [month day m1] in E2.
  replace ((month m =? 2) && (day m =? 29)) with false in E2 by lia. cbn [andb] in E2.
  split; [|eexists; exact E3]. rewrite E3.
  rewrite (add_twice md m (Years a) (Years b) m1); try assumption; try reflexivity.
  - rewrite E2. cbn [year hour minute second m1]. replace (year m + a + b) with (year m + (a + b)) by lia. reflexivity.
  - cbn [tt_ok]. apply in_i64_iff. unfold max_year, min_year, i64_max, i64_min in *. lia.
  - cbn [tt_ok]. apply in_i64_iff. unfold max_year, min_year, i64_max, i64_min in *. lia.
  - cbn [abs_secs]. unfold max_year, min_year, i64_max in *. cbn. lia.
Qed.

(** ** Zero *)
Lemma add_zero_unit : forall md m u, dt_valid m = true ->
  calculate md (Addition (Moment m) (mk u 0)) = Ok (Moment (whole_second m)) /\
  calculate md (Subtraction (Moment m) (mk u 0)) = Ok (Moment (whole_second m)).
Proof.
  intros md m u Hm. destruct (valid_facts m Hm) as (Vy & Vmo & Vd & Vml & Vh & Vmi & Vs).
  pose proof (valid_rep m Hm) as R. pose proof (sod_range m Hm) as Sr.
  assert (B : built (year m) (month m) (day m) (sod m) = Ok (Moment (whole_second m))).
  { unfold built. rewrite R. rewrite at_sod by assumption. reflexivity. }
  assert (W : wrap32 (year m) = year m) by (apply wrap32_id; unfold min_year, max_year in *; lia).
  split.
  - destruct (clock_unit u) eqn:Hu.
    + pose proof (clock_unit_secs u Hu).
      destruct (add_clock md m u 0 Hm Hu ltac:(lia)) as [C _].
      { pose proof (field_bnd m u Hm). unfold min_year, max_year, i64_max in *. lia. }
      rewrite Z.add_0_r in C. rewrite (Z.div_small (sod m)) in C by lia. rewrite Z.mod_small in C by lia.
      pose proof (valid_date m Hm) as VD. rewrite Z.add_0_r in C.
      destruct C as (mo' & d' & D1 & D2 & D3). { apply (doy_bounds (year m) (month m) (day m) VD). }
      assert (Q : mo' = month m /\ d' = day m).
      { destruct (day_number_inj (year m) mo' d' (year m) (month m) (day m)) as (_ & ? & ?); auto. unfold day_number. lia. }
      destruct Q as [-> ->]. rewrite D3. rewrite at_sod by assumption. reflexivity.
    + destruct u; try discriminate Hu; cbn [mk].
      * rewrite add_months by (unfold i64_max; lia || assumption). unfold plus_months. rewrite Z.add_0_r.
        replace (month m <=? 12) with true by lia. replace (day m <=? month_length (year m) (month m)) with true by lia.
        rewrite W. exact B.
      * rewrite add_years_in_range by (assumption || lia). rewrite Z.add_0_r.
        destruct ((month m =? 2) && (day m =? 29) && negb (leap (year m))) eqn:E; [exfalso|reflexivity].
        assert (E2 : month m = 2) by lia. rewrite E2 in Vml. change (month_length (year m) 2) with (if leap (year m) then 29 else 28) in Vml.
        destruct (leap (year m)); lia.
  - assert (Bk : forall r, built3 (back_day (year m) (month m) (day m)) r = built (year m) (month m) (day m) r).
    { intro r. unfold back_day. replace (1 <=? day m) with true by lia. reflexivity. }
    assert (Cl : clock_unit u = true -> u <> UDay -> calculate md (Subtraction (Moment m) (mk u 0)) = Ok (Moment (whole_second m))).
    { intros Hu Hd. destruct (sub_clock md m u 0 Hm Hu Hd ltac:(lia)) as [C _].
      rewrite C by (destruct u; try discriminate Hu; cbn [field modulus]; lia).
      replace (sod m - 0 * unit_secs u) with (sod m) by lia. rewrite Z.div_small, Z.mod_small by lia. rewrite Z.add_0_r, Bk. exact B. }
    destruct u; try (apply Cl; [reflexivity|discriminate]); cbn [mk].
    + destruct (sub_days md m 0 Hm ltac:(lia)) as [C _]. rewrite C by lia. rewrite Z.sub_0_r, Bk. exact B.
    + destruct (sub_months md m 0 Hm ltac:(lia)) as [C _]. rewrite C by lia. rewrite Z.sub_0_r. exact B.
    + rewrite sub_years by first [assumption | reflexivity | unfold min_year, max_year, i64_min, i64_max in *; lia]. rewrite Z.sub_0_r, W. exact B.
Qed.
Lemma zero_tree : forall md m t, dt_valid m = true -> tt_ok t = true -> amount_only t = true -> abs_secs t <= i64_max -> secs t = 0 ->
  calculate md (Addition (Moment m) t) = Ok (Moment (whole_second m)) /\ calculate md (Subtraction (Moment m) t) = Ok (Moment (whole_second m)).
Proof.
  intros md m t Hm Ht Ha Hs H0. destruct (add_tree md m t Hm Ht Ha Hs) as (n & En & _ & _ & -> & ->).
  assert (n = 0) as -> by (assert (unit_secs (finest t) > 0) by (destruct (finest t); cbn; lia); nia).
  apply add_zero_unit. exact Hm.
Qed.
