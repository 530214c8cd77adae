(** Monthly and yearly iteration; skip and rollback. *)
Require Import ZArith Bool List Lia ZifyBool.
From Verif Require Import Prelude Spec Chrono Util TimeType Matcher Iter SpecTree SpecMoment SpecIter PreludeProofs CalendarProofs EvalProofs AmountProofs ShapeProofs CompProofs AddProofs AddProofs2 SubProofs SubProofs2 IterProofs.
Local Open Scope Z_scope.
Ltac Zify.zify_post_hook ::= Z.div_mod_to_equations.

Section Iter.
Variable md : mode.

Lemma in_month_valid : forall i d m, dt_valid m = true -> min_year <= i / 12 <= max_year -> 1 <= d <= 28 ->
  dt_valid (in_month i d m) = true.
Proof.
  intros i d m Hm Hy Hd. destruct (valid_facts m Hm) as (Vy & Vmo & Vd & Vml & Vh & Vmi & Vs).
  apply dt_valid_iff. cbn [in_month year month day hour minute second nano]. split; [lia|]. split; [|lia].
  apply date_exists_iff. pose proof (month_length_bounds (i / 12) (i mod 12 + 1) ltac:(lia)). lia.
Qed.

Lemma iter_months : forall m n k, dt_valid m = true -> day m <= 28 -> 0 <= n ->
  let i := year m * 12 + month m - 1 + Z.of_nat k * n in
  (1 <= k)%nat -> i / 12 <= max_year ->
  nth_item (iter_next md) k (at_moment UMonth n m false) = Some (Ok (Moment (in_month i (day m) m))).
Proof.
  intros m n k Hm Hd Hn i Hk Hi. destruct (valid_facts m Hm) as (Vy & Vmo & Vd & Vml & Vh & Vmi & Vs).
  apply (follow_item md UMonth n m (fun k => in_month (year m * 12 + month m - 1 + Z.of_nat k * n) (day m) m) k k); [|lia].
  intros j Hj.
  assert (HJ : (year m * 12 + month m - 1 + Z.of_nat (S j) * n) / 12 <= max_year).
  { subst i. assert (Z.of_nat (S j) * n <= Z.of_nat k * n) by (apply Z.mul_le_mono_nonneg_r; lia). lia. }
  set (i' := year m * 12 + month m - 1 + Z.of_nat (S j) * n) in *.
  assert (Hjn : 0 <= Z.of_nat j * n) by (apply Z.mul_nonneg_nonneg; lia).
  assert (Ei' : i' = year m * 12 + month m - 1 + Z.of_nat j * n + n) by (subst i'; lia).
  cbn [mk]. destruct j as [|j].
  - rewrite (add_months_same_day md m n (i' / 12) (i' mod 12 + 1)); try assumption; try lia. reflexivity.
  - set (i0 := year m * 12 + month m - 1 + Z.of_nat (S j) * n) in *.
    assert (V : dt_valid (in_month i0 (day m) m) = true).
    { apply in_month_valid; try assumption; lia. }
    rewrite (add_months_same_day md _ n (i' / 12) (i' mod 12 + 1) V); cbn [in_month year month day hour minute second]; try assumption; try lia.
    reflexivity.
Qed.

Lemma iter_years : forall m n k, dt_valid m = true -> ~ (month m = 2 /\ day m = 29) ->
  (1 <= k)%nat -> min_year <= year m + Z.of_nat k * n <= max_year ->
  nth_item (iter_next md) k (at_moment UYear n m false) =
  Some (Ok (Moment (mkdt (year m + Z.of_nat k * n) (month m) (day m) (hour m) (minute m) (second m) 0))).
Proof.
  intros m n k Hm Hf Hk Hr. destruct (valid_facts m Hm) as (Vy & Vmo & Vd & Vml & Vh & Vmi & Vs).
  apply (follow_item md UYear n m (fun k => mkdt (year m + Z.of_nat k * n) (month m) (day m) (hour m) (minute m) (second m) 0) k k); [|lia].
  assert (B : forall j, (j <= k)%nat -> min_year <= year m + Z.of_nat j * n <= max_year).
  { intros j Hj. destruct (Z_le_gt_dec 0 n).
    - assert (0 <= Z.of_nat j * n <= Z.of_nat k * n) by (split; [apply Z.mul_nonneg_nonneg; lia|apply Z.mul_le_mono_nonneg_r; lia]). lia.
    - assert (Z.of_nat k * n <= Z.of_nat j * n <= 0) by nia. lia. }
  intros j Hj. cbn [mk].
  assert (FF : (month m =? 2) && (day m =? 29) = false).
  { destruct (Z.eqb_spec (month m) 2), (Z.eqb_spec (day m) 29); try reflexivity. tauto. }
  destruct j as [|j].
  - rewrite add_years_in_range; [|assumption|specialize (B 1%nat ltac:(lia)); lia].
    rewrite FF. cbn [andb]. do 3 f_equal. lia.
  - rewrite add_years_in_range.
    + cbn [year month day hour minute second]. rewrite FF. cbn [andb]. do 3 f_equal. lia.
    + apply dt_valid_iff. cbn [in_month year month day hour minute second nano]. split; [apply B; lia|]. split; [|lia].
      apply date_exists_iff. pose proof (month_length_bounds (year m) (month m) Vmo).
      split; [lia|]. split; [lia|].
      destruct (Z.eq_dec (month m) 2) as [E2|E2].
      * rewrite E2 in *. assert (day m <= 28) by (rewrite month_length_val in Vml by lia; cbn in Vml; destruct (leap (year m)); lia).
        pose proof (month_length_bounds (year m + Z.of_nat (S j) * n) 2 ltac:(lia)). lia.
      * rewrite (month_length_leap _ (year m)) by (try (left; assumption); assumption). assumption.
    + cbn [year]. specialize (B (S (S j)) ltac:(lia)). lia.
Qed.

(** Months when the day exists in every month passed. *)
Lemma month_step_keep : forall m, dt_valid m = true ->
  let i := year m * 12 + month m in
  i / 12 <= max_year -> day m <= month_length (i / 12) (i mod 12 + 1) -> day m <= 30 \/ month m < 12 ->
  calculate md (Addition (Moment m) (Months 1)) = Ok (Moment (in_month i (day m) m)).
Proof.
  intros m Hm i Hi Hd Hc. destruct (valid_facts m Hm) as (Vy & Vmo & Vd & Vml & Vh & Vmi & Vs).
  pose proof (sod_range m Hm) as Hs.
  rewrite add_months; [|assumption|lia|unfold i64_max; lia].
  unfold plus_months. destruct (Z_le_gt_dec (month m + 1) 12) as [L|G].
  - assert (E1 : i / 12 = year m) by (subst i; lia). assert (E2 : i mod 12 + 1 = month m + 1) by (subst i; lia).
    rewrite E1, E2 in Hd. replace (month m + 1 <=? 12) with true by lia.
    replace (day m <=? month_length (year m) (month m + 1)) with true by lia.
    rewrite wrap32_id by (unfold min_year, max_year in *; lia).
    unfold built. replace (representable (year m) (month m + 1) (day m)) with true.
    + unfold in_month, at_time. rewrite E1, E2. do 3 f_equal; unfold sod; lia.
    + symmetry. apply representable_iff. split; [assumption|]. apply date_exists_iff. lia.
  - assert (E1 : i / 12 = year m + 1) by (subst i; lia). assert (E2 : i mod 12 + 1 = 1) by (subst i; lia).
    rewrite E1, E2 in Hd. rewrite E1 in Hi. replace (month m + 1 <=? 12) with false by lia.
    replace (day m <=? 30) with true by lia.
    replace (year m + (month m + 1 - 1) / 12) with (year m + 1) by lia.
    replace ((month m + 1 - 1) mod 12 + 1) with 1 by lia.
    rewrite wrap32_id by (unfold min_year, max_year in *; lia).
    unfold built. replace (representable (year m + 1) 1 (day m)) with true.
    + unfold in_month, at_time. rewrite E1, E2. do 3 f_equal; unfold sod; lia.
    + symmetry. apply representable_iff. split; [lia|]. apply date_exists_iff. lia.
Qed.

Lemma iter_months_keep : forall m k, dt_valid m = true ->
  let i0 := year m * 12 + month m - 1 in
  (1 <= k)%nat -> (i0 + Z.of_nat k) / 12 <= max_year ->
  (forall j, (1 <= j <= k)%nat -> let i := i0 + Z.of_nat j in day m <= month_length (i / 12) (i mod 12 + 1)) ->
  day m <= 30 \/ month m + Z.of_nat k <= 12 ->
  nth_item (iter_next md) k (at_moment UMonth 1 m false) = Some (Ok (Moment (in_month (i0 + Z.of_nat k) (day m) m))).
Proof.
  intros m k Hm i0 Hk Hi Hd Hc. destruct (valid_facts m Hm) as (Vy & Vmo & Vd & Vml & Vh & Vmi & Vs).
  apply (follow_item md UMonth 1 m (fun k => in_month (i0 + Z.of_nat k) (day m) m) k k); [|lia].
  intros j Hj. cbn [mk].
  pose proof (Hd (S j) ltac:(lia)) as Hdj. cbv zeta in Hdj.
  assert (Hij : (i0 + Z.of_nat (S j)) / 12 <= max_year) by lia.
  destruct j as [|j].
  - rewrite month_step_keep; [|assumption|subst i0; replace (year m * 12 + month m) with (year m * 12 + month m - 1 + Z.of_nat 1) by lia; assumption| |lia].
    + do 3 f_equal. subst i0. lia.
    + subst i0. replace (year m * 12 + month m) with (year m * 12 + month m - 1 + Z.of_nat 1) by lia. assumption.
  - set (i1 := i0 + Z.of_nat (S j)).
    pose proof (Hd (S j) ltac:(lia)) as Hd1. cbv zeta in Hd1. fold i1 in Hd1.
    assert (V : dt_valid (in_month i1 (day m) m) = true).
    { apply dt_valid_iff. cbn [in_month year month day hour minute second nano]. split; [lia|]. split; [|lia]. apply date_exists_iff. lia. }
    assert (E : year (in_month i1 (day m) m) * 12 + month (in_month i1 (day m) m) = i0 + Z.of_nat (S (S j))) by (cbn; subst i1; lia).
    rewrite (month_step_keep _ V); rewrite ?E; cbn [in_month day month]; try assumption.
    + reflexivity.
    + destruct Hc as [Hc|Hc]; [left; assumption|right; subst i1 i0; lia].
Qed.

(** The first month that is too short is skipped, and from then on the excess is the day. *)
Lemma iter_months_drift : forall m k, dt_valid m = true -> month m < 11 ->
  month_length (year m) (month m + 1) < day m ->
  let i0 := year m * 12 + month m + 1 in
  let d := day m - month_length (year m) (month m + 1) in
  (1 <= k)%nat -> (i0 + Z.of_nat k - 1) / 12 <= max_year ->
  1 <= d <= 3 /\
  nth_item (iter_next md) k (at_moment UMonth 1 m false) = Some (Ok (Moment (in_month (i0 + Z.of_nat k - 1) d m))).
Proof.
  intros m k Hm Hmo Hd i0 d Hk Hi. destruct (valid_facts m Hm) as (Vy & Vmo & Vd & Vml & Vh & Vmi & Vs).
  pose proof (month_length_bounds (year m) (month m + 1) ltac:(lia)) as HL. pose proof (sod_range m Hm).
  split; [lia|].
  apply (follow_item md UMonth 1 m (fun k => in_month (i0 + Z.of_nat k - 1) d m) k k); [|lia].
  intros j Hj. cbn [mk]. destruct j as [|j].
  - rewrite add_months; [|assumption|lia|unfold i64_max; lia].
    unfold plus_months. replace (month m + 1 <=? 12) with true by lia.
    replace (day m <=? month_length (year m) (month m + 1)) with false by lia.
    rewrite wrap32_id by (unfold min_year, max_year in *; lia). fold d.
    assert (E1 : (i0 + Z.of_nat 1 - 1) / 12 = year m) by (subst i0; lia).
    assert (E2 : (i0 + Z.of_nat 1 - 1) mod 12 + 1 = month m + 1 + 1) by (subst i0; lia).
    unfold built. replace (representable (year m) (month m + 1 + 1) d) with true.
    + unfold in_month, at_time. rewrite E1, E2. do 3 f_equal; unfold sod; lia.
    + symmetry. apply representable_iff. split; [assumption|]. apply date_exists_iff.
      pose proof (month_length_bounds (year m) (month m + 1 + 1) ltac:(lia)). lia.
  - set (i1 := i0 + Z.of_nat (S j) - 1).
    assert (V : dt_valid (in_month i1 d m) = true) by (apply in_month_valid; try assumption; subst i1 i0; lia).
    set (i2 := i0 + Z.of_nat (S (S j)) - 1).
    rewrite (add_months_same_day md _ 1 (i2 / 12) (i2 mod 12 + 1) V); cbn [in_month year month day hour minute second].
    + reflexivity.
    + lia.
    + lia.
    + subst i1 i2. lia.
    + lia.
    + subst i2. lia.
Qed.

(** ** skip and rollback *)
Lemma skip_next : forall it it', skip md it = (Ok tt, it') ->
  forall k, nth_item (iter_next md) k it' = nth_item (iter_next md) (S k) it.
Proof.
  intros it it' H k. unfold skip, recalculate, op_add_assign in H. cbn [base increment had_first] in H.
  destruct (calculate md (Addition (base it) (increment it))) eqn:E; try discriminate H. injection H as <-.
  destruct (had_first it) eqn:Hf.
  - change (S k) with (1 + k)%nat. rewrite nth_item_add. cbn [after]. rewrite next_later by exact Hf. unfold step. rewrite E. reflexivity.
  - destruct k as [|k].
    + change 1%nat with (1 + 0)%nat. rewrite nth_item_add. cbn [after]. rewrite next_first by exact Hf. cbn [snd].
      unfold nth_item. cbn [after]. rewrite next_first by reflexivity.
      rewrite next_later by reflexivity. unfold step. cbn [base increment]. rewrite E. reflexivity.
    + change (S (S k)) with (2 + k)%nat. change (S k) with (1 + k)%nat. rewrite !nth_item_add. cbn [after].
      rewrite (next_first md it Hf), (next_first md (mkiter a (increment it) false) eq_refl). cbn [snd base increment].
      rewrite next_later by reflexivity. unfold step. cbn [base increment]. rewrite E. reflexivity.
Qed.
Lemma skip_fails_later : forall it e it', had_first it = true -> skip md it = (Err e, it') ->
  fst (iter_next md it) = Some (Err e) /\ snd (iter_next md it) = it'.
Proof.
  intros it e it' Hf H. unfold skip, recalculate, op_add_assign in H. cbn [base increment had_first] in H.
  rewrite next_later by exact Hf. unfold step.
  destruct (calculate md (Addition (base it) (increment it))) eqn:E; try discriminate H. injection H as -> <-.
  rewrite Hf. split; reflexivity.
Qed.
Lemma skip_fails_fresh : forall it e it', had_first it = false -> skip md it = (Err e, it') ->
  fst (iter_next md it') = Some (Ok (Addition (base it) (increment it))).
Proof.
  intros it e it' Hf H. unfold skip, recalculate, op_add_assign in H. cbn [base increment had_first] in H.
  destruct (calculate md (Addition (base it) (increment it))) eqn:E; try discriminate H. injection H as -> <-.
  rewrite Hf. reflexivity.
Qed.

Lemma round_all : forall m u n, dt_valid m = true -> undoable u n m ->
  calculate md (Subtraction (Addition (Moment m) (mk u n)) (mk u n)) = Ok (Moment (whole_second m)).
Proof.
  intros m u n Hm H. destruct u; cbn [undoable mk] in *.
  - apply (round_clock md m USec n); try tauto.
  - apply (round_clock md m UMin n); try tauto.
  - apply (round_clock md m UHour n); try tauto.
  - apply (round_clock md m UDay n); try tauto.
  - apply round_months; tauto.
  - apply round_years; tauto.
Qed.

Lemma undoable_i64 : forall m u n, dt_valid m = true -> undoable u n m -> in_i64 n = true.
Proof.
  intros m u n Hm H. destruct (valid_facts m Hm) as (Vy & Vmo & _).
  apply in_i64_iff. destruct u; cbn [undoable modulus] in H; unfold i64_min, i64_max, min_year, max_year in *; lia.
Qed.

Lemma rollback_next : forall m u n v it', dt_valid m = true -> undoable u n m ->
  iter_next md (at_moment u n m true) = (Some (Ok v), it') ->
  exists it'', rollback md it' = (Ok tt, it'') /\ it'' = at_moment u n (whole_second m) true /\
    fst (iter_next md it'') = Some (Ok v).
Proof.
  intros m u n v it' Hm Hu H. pose proof (undoable_i64 m u n Hm Hu) as Hi.
  rewrite next_later in H by reflexivity. unfold step, at_moment in H. cbn [base increment] in H.
  destruct (calculate md (Addition (Moment m) (mk u n))) as [w| | |] eqn:E; try discriminate H.
  injection H as -> <-.
  assert (Hv : exists m1, v = Moment m1).
  { pose proof (calculate_shape md (Addition (Moment m) (mk u n))) as K. rewrite E in K. cbn [shape_of] in K. rewrite shape_mk in K. cbn in K.
    destruct v; try discriminate K; try (exfalso; exact K); eexists; reflexivity. }
  destruct Hv as [m1 ->].
  exists (at_moment u n (whole_second m) true). split; [|split; [reflexivity|]].
  - unfold rollback, recalculate, op_sub_assign. cbn [base increment had_first].
    rewrite <- (round_comp md m u n m1 Hm Hi E). rewrite round_all by assumption. reflexivity.
  - rewrite next_later by reflexivity. unfold step, at_moment. cbn [base increment].
    assert (EW : calculate md (Addition (Moment (whole_second m)) (mk u n)) = calculate md (Addition (Moment m) (mk u n))).
    { rewrite !calc_eq by (cbn [tt_ok]; rewrite ok_mk, Hi, ?andb_true_r; first [exact Hm | destruct m; apply dt_valid_iff; apply dt_valid_iff in Hm; cbn in *; intuition lia]).
      cbn [do_calculate].
      rewrite !ev_eq by (split; cbn [tt_ok]; rewrite ?ok_mk; first [exact Hi | exact Hm | destruct m; apply dt_valid_iff; apply dt_valid_iff in Hm; cbn in *; intuition lia]).
      cbn [body].
      destruct u; cbn [mk add]; rewrite !ev_eq by (split; cbn [tt_ok]; first [exact Hi | exact Hm | destruct m; apply dt_valid_iff; apply dt_valid_iff in Hm; cbn in *; intuition lia]); reflexivity. }
    rewrite EW, E. reflexivity.
Qed.
End Iter.

(** ** In terms of Iter::build *)
Section Built.
Variable md : mode.
Lemma build_at : forall m u n it, build m (mk u n) = Ok it -> it = at_moment u n m false.
Proof. intros m u n it H. apply build_iff in H. apply H. Qed.

Lemma build_first : forall m inc it, build m inc = Ok it -> nth_item (iter_next md) 0 it = Some (Ok (Moment m)).
Proof. intros m inc it H. apply build_iff in H. destruct H as [_ ->]. reflexivity. Qed.

Lemma b_clock : forall m u n it k, build m (mk u n) = Ok it ->
  dt_valid m = true -> clock_unit u = true -> 0 <= n -> n * unit_secs u <= 30 * 86400 ->
  (1 <= k)%nat -> inst m + Z.of_nat k * n * unit_secs u < instant (max_year + 1) 1 1 0 0 0 ->
  exists m', nth_item (iter_next md) k it = Some (Ok (Moment m')) /\
    dt_valid m' = true /\ nano m' = 0 /\ inst m' = inst m + Z.of_nat k * n * unit_secs u.
Proof.
  intros m u n it k B Hm Hu Hn Hd Hk HR. apply build_at in B. subst it.
  destruct (iter_clock md m u n k Hm Hu Hn Hd Hk HR) as (m' & H1 & _ & H2). exists m'. split; assumption.
Qed.
Lemma b_clock_beyond : forall m u n it k, build m (mk u n) = Ok it ->
  dt_valid m = true -> clock_unit u = true -> 0 <= n -> n * unit_secs u <= 30 * 86400 ->
  instant (max_year + 1) 1 1 0 0 0 <= inst m + Z.of_nat k * n * unit_secs u ->
  exists y mo d h mi s, forall j, (k <= j)%nat -> nth_item (iter_next md) j it = Some (Err (OutOfBounds y mo d h mi s)).
Proof.
  intros m u n it k B Hm Hu Hn Hd HR. apply build_at in B. subst it.
  destruct (iter_clock_beyond md m u n k Hm Hu Hn Hd HR) as (y & mo & d & h & mi & s & _ & H).
  exists y, mo, d, h, mi, s. exact H.
Qed.
Lemma b_months : forall m n it k, build m (Months n) = Ok it -> dt_valid m = true -> day m <= 28 -> 0 <= n ->
  let i := year m * 12 + month m - 1 + Z.of_nat k * n in
  (1 <= k)%nat -> i / 12 <= max_year ->
  nth_item (iter_next md) k it = Some (Ok (Moment (in_month i (day m) m))).
Proof. intros m n it k B. apply (build_at m UMonth) in B. subst it. apply iter_months. Qed.
Lemma b_years : forall m n it k, build m (Years n) = Ok it -> dt_valid m = true -> ~ (month m = 2 /\ day m = 29) ->
  (1 <= k)%nat -> min_year <= year m + Z.of_nat k * n <= max_year ->
  nth_item (iter_next md) k it =
  Some (Ok (Moment (mkdt (year m + Z.of_nat k * n) (month m) (day m) (hour m) (minute m) (second m) 0))).
Proof. intros m n it k B. apply (build_at m UYear) in B. subst it. apply iter_years. Qed.
Lemma b_keep : forall m it k, build m (Months 1) = Ok it -> dt_valid m = true ->
  let i0 := year m * 12 + month m - 1 in
  (1 <= k)%nat -> (i0 + Z.of_nat k) / 12 <= max_year ->
  (forall j, (1 <= j <= k)%nat -> let i := i0 + Z.of_nat j in day m <= month_length (i / 12) (i mod 12 + 1)) ->
  day m <= 30 \/ month m + Z.of_nat k <= 12 ->
  nth_item (iter_next md) k it = Some (Ok (Moment (in_month (i0 + Z.of_nat k) (day m) m))).
Proof. intros m it k B. apply (build_at m UMonth) in B. subst it. apply iter_months_keep. Qed.
Lemma b_drift : forall m it k, build m (Months 1) = Ok it -> dt_valid m = true -> month m < 11 ->
  month_length (year m) (month m + 1) < day m ->
  let i0 := year m * 12 + month m + 1 in
  let d := day m - month_length (year m) (month m + 1) in
  (1 <= k)%nat -> (i0 + Z.of_nat k - 1) / 12 <= max_year ->
  1 <= d <= 3 /\ nth_item (iter_next md) k it = Some (Ok (Moment (in_month (i0 + Z.of_nat k - 1) d m))).
Proof. intros m it k B. apply (build_at m UMonth) in B. subst it. apply iter_months_drift. Qed.
(** One call keeps [iter_ok]. *)
Lemma iter_ok_next : forall it, iter_ok it -> iter_ok (snd (iter_next md it)).
Proof.
  intros it (Hb & Hi & Ha). destruct (had_first it) eqn:Hf.
  - rewrite next_later by exact Hf.
    assert (OA : tt_ok (step it) = true) by (unfold step; cbn [tt_ok]; rewrite Hb; exact Hi).
    pose proof (calculate_good md (step it) OA) as G.
    destruct (calculate md (step it)); repeat split; cbn [snd base increment]; try assumption. apply G.
  - rewrite next_first by exact Hf. repeat split; assumption.
Qed.
Lemma iter_ok_after : forall k it, iter_ok it -> iter_ok (after (iter_next md) k it).
Proof. induction k; intros it H; [exact H|]. cbn [after]. apply IHk. apply iter_ok_next. exact H. Qed.
Lemma b_sticky : forall it k e, iter_ok it -> nth_item (iter_next md) k it = Some (Err e) ->
  forall j, (k <= j)%nat -> nth_item (iter_next md) j it = Some (Err e).
Proof.
  intros it k e Hok H j Hj. replace j with (k + (j - k))%nat by lia. rewrite nth_item_add.
  pose proof (iter_ok_after k it Hok) as Ok'. unfold nth_item in H.
  destruct (iter_next md (after (iter_next md) k it)) as [r it'] eqn:N. cbn [fst] in H. subst r.
  destruct (j - k)%nat as [|i]; [unfold nth_item; cbn [after]; rewrite N; reflexivity|].
  change (S i) with (1 + i)%nat. rewrite nth_item_add. cbn [after]. rewrite N. cbn [snd].
  apply (sticky md _ _ _ Ok' N).
Qed.
End Built.
