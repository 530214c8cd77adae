(** Month steps from every day of the month. *)
Require Import ZArith Bool List Lia ZifyBool.
From Verif Require Import Prelude Spec Chrono Util TimeType Matcher Iter SpecTree SpecMoment SpecIter PreludeProofs CalendarProofs EvalProofs AmountProofs ShapeProofs CompProofs AddProofs AddProofs2 IterProofs IterProofs2.
Local Open Scope Z_scope.
Ltac Zify.zify_post_hook ::= Z.div_mod_to_equations.

Section Iter.
Variable md : mode.

(** One step. *)
Lemma month_step : forall m n, dt_valid m = true -> 0 <= n ->
  let i := year m * 12 + month m - 1 + n in
  (i + 1) / 12 <= max_year + 1 ->
  (i / 12 <= max_year -> fits n i (day m) = true -> calculate md (Addition (Moment m) (Months n)) = Ok (Moment (in_month i (day m) m))) /\
  ((i + 1) / 12 <= max_year -> seen_length n i < day m ->
     calculate md (Addition (Moment m) (Months n)) = Ok (Moment (in_month (i + 1) (day m - seen_length n i) m)) /\ 1 <= day m - seen_length n i <= 3) /\
  (day m <= seen_length n i -> month_length (i / 12) (i mod 12 + 1) < day m -> oob (calculate md (Addition (Moment m) (Months n)))).
Proof.
  intros m n Hm Hn i Hi. destruct (valid_facts m Hm) as (Vy & Vmo & Vd & Vml & Vh & Vmi & Vs).
  pose proof (sod_range m Hm) as Hs.
  assert (HN : n <= 12 * 600000) by (subst i; unfold min_year, max_year in *; lia).
  rewrite add_months; [|assumption|lia|unfold i64_max; lia].
  assert (P : passes_year n i = negb (month m + n <=? 12)) by (unfold passes_year; subst i; lia).
  unfold fits, seen_length. rewrite P. unfold plus_months. destruct (month m + n <=? 12) eqn:L; cbn [negb].
  - assert (E1 : i / 12 = year m) by (subst i; lia). assert (E2 : i mod 12 + 1 = month m + n) by (subst i; lia).
    rewrite E1, E2. pose proof (month_length_bounds (year m) (month m + n) ltac:(lia)) as ML. split; [|split].
    + intros Hy Hd. replace (day m <=? month_length (year m) (month m + n)) with true by lia.
      rewrite wrap32_id by (unfold min_year, max_year in *; lia).
      unfold built. replace (representable (year m) (month m + n) (day m)) with true.
      * unfold in_month, at_time. rewrite E1, E2. do 3 f_equal; unfold sod; lia.
      * symmetry. apply representable_iff. split; [assumption|]. apply date_exists_iff. lia.
    + intros Hy Hd. split; [|lia]. replace (day m <=? month_length (year m) (month m + n)) with false by lia.
      assert (M12 : month m + n <> 12). { intro E. rewrite E in Hd. rewrite month_length_val in Hd by lia. cbn in Hd. lia. }
      assert (E3 : (i + 1) / 12 = year m) by (subst i; lia). assert (E4 : (i + 1) mod 12 + 1 = month m + n + 1) by (subst i; lia).
      rewrite wrap32_id by (unfold min_year, max_year in *; lia).
      unfold built. replace (representable (year m) (month m + n + 1) (day m - month_length (year m) (month m + n))) with true.
      * unfold in_month, at_time. rewrite E3, E4. do 3 f_equal; unfold sod; lia.
      * symmetry. apply representable_iff. split; [assumption|]. apply date_exists_iff.
        pose proof (month_length_bounds (year m) (month m + n + 1) ltac:(lia)). lia.
    + intros H1 H2. lia.
  - split; [|split].
    + intros Hy Hd. replace (day m <=? 30) with true by lia.
      replace (year m + (month m + n - 1) / 12) with (i / 12) by (subst i; lia).
      replace ((month m + n - 1) mod 12 + 1) with (i mod 12 + 1) by (subst i; lia).
      rewrite wrap32_id by (unfold min_year, max_year in *; subst i; lia).
      unfold built. replace (representable (i / 12) (i mod 12 + 1) (day m)) with true.
      * unfold in_month, at_time. do 3 f_equal; unfold sod; lia.
      * symmetry. apply representable_iff. split; [subst i; lia|]. apply date_exists_iff. lia.
    + intros Hy Hd. replace (day m <=? 30) with false by lia. split; [|lia].
      replace (day m - 30) with 1 by lia.
      replace (year m + (month m + n) / 12) with ((i + 1) / 12) by (subst i; lia).
      replace ((month m + n) mod 12 + 1) with ((i + 1) mod 12 + 1) by (subst i; lia).
      rewrite wrap32_id by (unfold min_year, max_year in *; subst i; lia).
      unfold built. replace (representable ((i + 1) / 12) ((i + 1) mod 12 + 1) 1) with true.
      * unfold in_month, at_time. do 3 f_equal; unfold sod; lia.
      * symmetry. apply representable_iff. split; [subst i; lia|]. apply date_exists_iff.
        pose proof (month_length_bounds ((i + 1) / 12) ((i + 1) mod 12 + 1) ltac:(lia)). lia.
    + intros H1 H2. replace (day m <=? 30) with true by lia.
      replace (year m + (month m + n - 1) / 12) with (i / 12) by (subst i; lia).
      replace ((month m + n - 1) mod 12 + 1) with (i mod 12 + 1) by (subst i; lia).
      rewrite wrap32_id by (unfold min_year, max_year in *; subst i; lia).
      unfold built. replace (representable (i / 12) (i mod 12 + 1) (day m)) with false.
      * do 6 eexists. reflexivity.
      * symmetry. apply not_true_iff_false. rewrite representable_iff. rewrite date_exists_iff. lia.
Qed.

(** The state before step [j + 1] while all months fit. *)
Lemma in_month_fits_valid : forall i n d m, dt_valid m = true -> min_year <= i / 12 <= max_year -> 1 <= d -> fits n i d = true ->
  dt_valid (in_month i d m) = true.
Proof.
  intros i n d m Hm Hy Hd Hf. destruct (valid_facts m Hm) as (Vy & Vmo & Vd & Vml & Vh & Vmi & Vs).
  unfold fits in Hf. apply dt_valid_iff. cbn [in_month year month day hour minute second nano]. split; [lia|]. split; [|lia].
  apply date_exists_iff. lia.
Qed.
Lemma in_month_index : forall i d m, year (in_month i d m) * 12 + month (in_month i d m) - 1 = i.
Proof. intros i d m. cbn [in_month year month]. lia. Qed.

Lemma months_keep_steps : forall m n K, dt_valid m = true -> 0 <= n ->
  let i k := year m * 12 + month m - 1 + Z.of_nat k * n in
  i K / 12 <= max_year -> (forall j, (1 <= j <= K)%nat -> fits n (i j) (day m) = true) ->
  forall k, (k < K)%nat ->
  calculate md (Addition (Moment (match k with O => m | _ => in_month (i k) (day m) m end)) (mk UMonth n)) =
    Ok (Moment (in_month (i (S k)) (day m) m)).
Proof.
  intros m n K Hm Hn i Hy Hf k Hk. destruct (valid_facts m Hm) as (Vy & Vmo & Vd & Vml & Vh & Vmi & Vs).
  assert (HY : forall j, (j <= K)%nat -> min_year <= i j / 12 <= max_year).
  { intros j Hj. assert (0 <= Z.of_nat j * n <= Z.of_nat K * n) by nia. subst i. cbv beta in *. lia. }
  cbn [mk]. destruct k as [|k].
  - pose proof (HY 1%nat ltac:(lia)) as Y1. pose proof (Hf 1%nat ltac:(lia)) as F1.
    assert (E : i 1%nat = year m * 12 + month m - 1 + n) by (subst i; cbv beta; lia). rewrite E in *.
    apply (month_step m n Hm Hn); [lia|lia|exact F1].
  - pose proof (HY (S k) ltac:(lia)) as Y1. pose proof (Hf (S k) ltac:(lia)) as F1.
    pose proof (HY (S (S k)) ltac:(lia)) as Y2. pose proof (Hf (S (S k)) ltac:(lia)) as F2.
    pose proof (in_month_fits_valid (i (S k)) n (day m) m Hm Y1 ltac:(lia) F1) as V.
    assert (E : i (S (S k)) = i (S k) + n) by (subst i; cbv beta; lia).
    pose proof (month_step (in_month (i (S k)) (day m) m) n V Hn) as St. cbv zeta in St. rewrite in_month_index in St.
    rewrite <- E in St. cbn [in_month day] in St. destruct St as [St _]; [lia|]. rewrite St; [reflexivity|lia|exact F2].
Qed.

Lemma months_keep : forall m n k, dt_valid m = true -> 0 <= n ->
  let i k := year m * 12 + month m - 1 + Z.of_nat k * n in
  (1 <= k)%nat -> i k / 12 <= max_year -> (forall j, (1 <= j <= k)%nat -> fits n (i j) (day m) = true) ->
  nth_item (iter_next md) k (at_moment UMonth n m false) = Some (Ok (Moment (in_month (i k) (day m) m))).
Proof.
  intros m n k Hm Hn i Hk Hy Hf.
  apply (follow_item md UMonth n m (fun k => in_month (i k) (day m) m) k k); [|lia].
  apply months_keep_steps; assumption.
Qed.

(** The moment before step [j] when the months before fit. *)
Definition kept (m : datetime) (n : Z) (k : nat) : datetime :=
  match k with O => m | _ => in_month (year m * 12 + month m - 1 + Z.of_nat k * n) (day m) m end.
Lemma kept_valid : forall m n K, dt_valid m = true -> 0 <= n ->
  let i k := year m * 12 + month m - 1 + Z.of_nat k * n in
  i K / 12 <= max_year -> (forall j, (1 <= j <= K)%nat -> fits n (i j) (day m) = true) ->
  dt_valid (kept m n K) = true /\ day (kept m n K) = day m /\ year (kept m n K) * 12 + month (kept m n K) - 1 = i K /\
  forall i' d, in_month i' d (kept m n K) = in_month i' d m.
Proof.
  intros m n K Hm Hn i Hy Hf. destruct (valid_facts m Hm) as (Vy & Vmo & Vd & Vml & Vh & Vmi & Vs). destruct K as [|K].
  - cbn [kept]. subst i. cbv beta. repeat split; try assumption. lia.
  - unfold kept. repeat split; [|apply in_month_index].
    apply (in_month_fits_valid _ n); try assumption; [|lia|apply (Hf (S K)); lia].
    assert (0 <= Z.of_nat (S K) * n) by nia. subst i. cbv beta in *. lia.
Qed.

Lemma months_spill : forall m n j k, dt_valid m = true -> 0 <= n ->
  let i k := year m * 12 + month m - 1 + Z.of_nat k * n in
  (1 <= j <= k)%nat -> (i k + 1) / 12 <= max_year -> (forall j', (1 <= j' < j)%nat -> fits n (i j') (day m) = true) ->
  seen_length n (i j) < day m ->
  let d := day m - seen_length n (i j) in
  1 <= d <= 3 /\ nth_item (iter_next md) k (at_moment UMonth n m false) = Some (Ok (Moment (in_month (i k + 1) d m))).
Proof.
  intros m n j k Hm Hn i Hjk Hy Hf Hs d. destruct (valid_facts m Hm) as (Vy & Vmo & Vd & Vml & Vh & Vmi & Vs).
  destruct j as [|j]; [lia|].
  assert (HY : forall x, (x <= k)%nat -> min_year <= i x / 12 /\ (i x + 1) / 12 <= max_year).
  { intros x Hx. assert (0 <= Z.of_nat x * n <= Z.of_nat k * n) by nia. subst i. cbv beta in *. lia. }
  destruct (kept_valid m n j Hm Hn) as (V & KD & KI & KM).
  { pose proof (HY j ltac:(lia)). fold (i j). lia. }
  { intros x Hx. apply Hf. lia. }
  fold (i j) in KI.
  pose proof (month_step (kept m n j) n V Hn) as St. cbv zeta in St. rewrite KI, KD in St.
  assert (E : i j + n = i (S j)) by (subst i; cbv beta; lia). rewrite E in St.
  pose proof (HY (S j) ltac:(lia)) as Y1. destruct St as (_ & St & _); [lia|]. specialize (St ltac:(lia) Hs). fold d in St. destruct St as [St D].
  split; [exact D|]. rewrite KM in St.
  replace (in_month (i k + 1) d m) with (if (k <=? j)%nat then kept m n k else in_month (i k + 1) d m)
    by (replace (k <=? j)%nat with false by (symmetry; apply Nat.leb_gt; lia); reflexivity).
  apply (follow_item md UMonth n m (fun x => if (x <=? j)%nat then kept m n x else in_month (i x + 1) d m) k k); [|lia].
  intros x Hx. cbn [mk].
  destruct (Nat.lt_trichotomy x j) as [L|[L|L]].
  - replace (S x <=? j)%nat with true by (symmetry; apply Nat.leb_le; lia).
    pose proof (months_keep_steps m n j Hm Hn) as Ks. cbv zeta in Ks. fold (i j) in Ks.
    assert (HYj : i j / 12 <= max_year) by (pose proof (HY j ltac:(lia)); lia).
    specialize (Ks HYj). specialize (Ks ltac:(intros x' Hx'; apply Hf; lia) x L). cbn [mk] in Ks.
    destruct x as [|x]; [exact Ks|]. replace (S x <=? j)%nat with true by (symmetry; apply Nat.leb_le; lia). exact Ks.
  - subst x. replace (S j <=? j)%nat with false by (symmetry; apply Nat.leb_gt; lia).
    destruct j as [|j]; [exact St|]. replace (S j <=? S j)%nat with true by (symmetry; apply Nat.leb_le; lia). exact St.
  - replace (S x <=? j)%nat with false by (symmetry; apply Nat.leb_gt; lia).
    destruct x as [|x]; [lia|]. replace (S x <=? j)%nat with false by (symmetry; apply Nat.leb_gt; lia).
    pose proof (HY (S x) ltac:(lia)) as Yx. pose proof (HY (S (S x)) ltac:(lia)) as Yx'.
    assert (V' : dt_valid (in_month (i (S x) + 1) d m) = true) by (apply in_month_valid; try assumption; lia).
    assert (E' : i (S (S x)) = i (S x) + n) by (subst i; cbv beta; lia).
    rewrite (add_months_same_day md _ n ((i (S (S x)) + 1) / 12) ((i (S (S x)) + 1) mod 12 + 1) V'); cbn [in_month year month day hour minute second].
    + reflexivity.
    + lia.
    + lia.
    + lia.
    + lia.
    + lia.
Qed.

Lemma months_fail : forall m n j, dt_valid m = true -> 0 <= n -> in_i64 n = true ->
  let i k := year m * 12 + month m - 1 + Z.of_nat k * n in
  (1 <= j)%nat -> i j / 12 <= max_year -> (forall j', (1 <= j' < j)%nat -> fits n (i j') (day m) = true) ->
  day m <= seen_length n (i j) -> month_length (i j / 12) (i j mod 12 + 1) < day m ->
  exists y mo d h mi s, forall k, (j <= k)%nat -> nth_item (iter_next md) k (at_moment UMonth n m false) = Some (Err (OutOfBounds y mo d h mi s)).
Proof.
  intros m n j Hm Hn Hi i Hj Hy Hf Hs Hl. destruct (valid_facts m Hm) as (Vy & Vmo & Vd & Vml & Vh & Vmi & Vs).
  destruct j as [|j]; [lia|].
  assert (HY : i j / 12 <= max_year). { subst i. cbv beta in *. assert (Z.of_nat j * n <= Z.of_nat (S j) * n) by nia. lia. }
  destruct (kept_valid m n j Hm Hn) as (V & KD & KI & KM); [exact HY|intros x Hx; apply Hf; lia|].
  fold (i j) in KI.
  pose proof (month_step (kept m n j) n V Hn) as St. cbv zeta in St. rewrite KI, KD in St.
  assert (E : i j + n = i (S j)) by (subst i; cbv beta; lia). rewrite E in St.
  destruct St as (_ & _ & St); [lia|]. destruct (St Hs Hl) as (y & mo & d & h & mi & s & O).
  exists y, mo, d, h, mi, s. intros k Hk.
  apply (follow_fail md UMonth n m (fun x => in_month (i x) (day m) m) j (OutOfBounds y mo d h mi s) k Hi).
  - apply months_keep_steps; try assumption. intros x Hx. apply Hf. lia.
  - exact V.
  - exact O.
  - lia.
Qed.

(** Yearly steps from 29 February: 1 March from the first common year on. *)
Lemma years_range : forall y n k j, min_year <= y <= max_year -> min_year <= y + Z.of_nat k * n <= max_year -> (j <= k)%nat ->
  min_year <= y + Z.of_nat j * n <= max_year.
Proof.
  intros y n k j Hy Hk Hj. destruct (Z_le_gt_dec 0 n).
  - assert (0 <= Z.of_nat j * n <= Z.of_nat k * n) by nia. lia.
  - assert (Z.of_nat k * n <= Z.of_nat j * n <= 0) by nia. lia.
Qed.
Lemma years_leap_day : forall m n j k, dt_valid m = true -> month m = 2 -> day m = 29 -> (1 <= j)%nat -> (1 <= k)%nat ->
  min_year <= year m + Z.of_nat k * n <= max_year ->
  (forall j', (1 <= j' < j)%nat -> leap (year m + Z.of_nat j' * n) = true) -> leap (year m + Z.of_nat j * n) = false ->
  nth_item (iter_next md) k (at_moment UYear n m false) = Some (Ok (Moment
    (if (k <? j)%nat then mkdt (year m + Z.of_nat k * n) 2 29 (hour m) (minute m) (second m) 0
     else mkdt (year m + Z.of_nat k * n) 3 1 (hour m) (minute m) (second m) 0))).
Proof.
  intros m n j k Hm M D Hj Hk Hr Hl Hc. destruct (valid_facts m Hm) as (Vy & Vmo & Vd & Vml & Vh & Vmi & Vs).
  apply (follow_item md UYear n m (fun k => if (k <? j)%nat then mkdt (year m + Z.of_nat k * n) 2 29 (hour m) (minute m) (second m) 0
     else mkdt (year m + Z.of_nat k * n) 3 1 (hour m) (minute m) (second m) 0) k k); [|lia].
  intros x Hx. cbn [mk]. pose proof (years_range (year m) n k x Vy Hr ltac:(lia)) as Rx. pose proof (years_range (year m) n k (S x) Vy Hr ltac:(lia)) as Rx'.
  assert (E : year m + Z.of_nat x * n + n = year m + Z.of_nat (S x) * n) by lia.
  assert (Leap : forall z, z = S x -> ((S x <? j)%nat = true -> leap (year m + Z.of_nat (S x) * n) = true)).
  { intros _ _ L. apply Hl. apply Nat.ltb_lt in L. lia. }
  specialize (Leap (S x) eq_refl).
  destruct x as [|x].
  - rewrite add_years_in_range; [|assumption|lia]. rewrite M, D. cbn [andb Z.eqb Pos.eqb].
    replace (year m + Z.of_nat 1 * n) with (year m + n) in * by lia.
    destruct (1 <? j)%nat eqn:L.
    + rewrite Leap by reflexivity. reflexivity.
    + apply Nat.ltb_ge in L. assert (j = 1%nat) by lia. subst j. replace (year m + Z.of_nat 1 * n) with (year m + n) in Hc by lia.
      rewrite Hc. reflexivity.
  - destruct (S x <? j)%nat eqn:L.
    + apply Nat.ltb_lt in L. pose proof (Hl (S x) ltac:(lia)) as LL.
      assert (V : dt_valid (mkdt (year m + Z.of_nat (S x) * n) 2 29 (hour m) (minute m) (second m) 0) = true).
      { apply dt_valid_iff. cbn [year month day hour minute second nano]. split; [lia|]. split; [|lia]. apply date_exists_iff.
        change (month_length (year m + Z.of_nat (S x) * n) 2) with (if leap (year m + Z.of_nat (S x) * n) then 29 else 28).
        rewrite LL. lia. }
      rewrite add_years_in_range; [|exact V|cbn [year]; lia]. cbn [year month day hour minute second andb Z.eqb Pos.eqb]. rewrite E.
      destruct (S (S x) <? j)%nat eqn:L2; [rewrite Leap by reflexivity; reflexivity|].
      apply Nat.ltb_ge in L2. assert (j = S (S x)) by lia. subst j. rewrite Hc. reflexivity.
    + apply Nat.ltb_ge in L. replace (S (S x) <? j)%nat with false by (symmetry; apply Nat.ltb_ge; lia).
      assert (V : dt_valid (mkdt (year m + Z.of_nat (S x) * n) 3 1 (hour m) (minute m) (second m) 0) = true).
      { apply dt_valid_iff. cbn [year month day hour minute second nano]. split; [lia|]. split; [|lia]. apply date_exists_iff.
        change (month_length (year m + Z.of_nat (S x) * n) 3) with 31. lia. }
      rewrite add_years_in_range; [|exact V|cbn [year]; lia]. cbn [year month day hour minute second andb Z.eqb Pos.eqb]. rewrite E. reflexivity.
Qed.
End Iter.

Section Built.
Variable md : mode.
Lemma b_months_keep : forall m n it k, build m (Months n) = Ok it -> dt_valid m = true -> 0 <= n ->
  let i k := year m * 12 + month m - 1 + Z.of_nat k * n in
  (1 <= k)%nat -> i k / 12 <= max_year -> (forall j, (1 <= j <= k)%nat -> fits n (i j) (day m) = true) ->
  nth_item (iter_next md) k it = Some (Ok (Moment (in_month (i k) (day m) m))).
Proof. intros m n it k B. apply (build_at m UMonth) in B. subst it. apply months_keep. Qed.
Lemma b_months_spill : forall m n it j k, build m (Months n) = Ok it -> dt_valid m = true -> 0 <= n ->
  let i k := year m * 12 + month m - 1 + Z.of_nat k * n in
  (1 <= j <= k)%nat -> (i k + 1) / 12 <= max_year -> (forall j', (1 <= j' < j)%nat -> fits n (i j') (day m) = true) ->
  seen_length n (i j) < day m ->
  let d := day m - seen_length n (i j) in
  1 <= d <= 3 /\ nth_item (iter_next md) k it = Some (Ok (Moment (in_month (i k + 1) d m))).
Proof. intros m n it j k B. apply (build_at m UMonth) in B. subst it. apply months_spill. Qed.
Lemma b_months_fail : forall m n it j, build m (Months n) = Ok it -> dt_valid m = true -> 0 <= n -> in_i64 n = true ->
  let i k := year m * 12 + month m - 1 + Z.of_nat k * n in
  (1 <= j)%nat -> i j / 12 <= max_year -> (forall j', (1 <= j' < j)%nat -> fits n (i j') (day m) = true) ->
  day m <= seen_length n (i j) -> month_length (i j / 12) (i j mod 12 + 1) < day m ->
  exists y mo d h mi s, forall k, (j <= k)%nat -> nth_item (iter_next md) k it = Some (Err (OutOfBounds y mo d h mi s)).
Proof. intros m n it j B. apply (build_at m UMonth) in B. subst it. apply months_fail. Qed.
Lemma b_years_leap_day : forall m n it j k, build m (Years n) = Ok it -> dt_valid m = true -> month m = 2 -> day m = 29 -> (1 <= j)%nat -> (1 <= k)%nat ->
  min_year <= year m + Z.of_nat k * n <= max_year ->
  (forall j', (1 <= j' < j)%nat -> leap (year m + Z.of_nat j' * n) = true) -> leap (year m + Z.of_nat j * n) = false ->
  nth_item (iter_next md) k it = Some (Ok (Moment
    (if (k <? j)%nat then mkdt (year m + Z.of_nat k * n) 2 29 (hour m) (minute m) (second m) 0
     else mkdt (year m + Z.of_nat k * n) 3 1 (hour m) (minute m) (second m) 0))).
Proof. intros m n it j k B. apply (build_at m UYear) in B. subst it. apply years_leap_day. Qed.
End Built.
