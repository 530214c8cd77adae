(** Exactly when months can be added one after the other. *)
Require Import ZArith Bool List Lia ZifyBool.
From Verif Require Import Prelude Spec Chrono Util TimeType Iter SpecTree SpecMoment SpecIter SpecExact PreludeProofs EvalProofs AmountProofs ShapeProofs CompProofs CalendarProofs
  AddProofs AddProofs2 SubProofs SubProofs2 EndProofs IterProofs IterProofs2 ExactProofs2 ExactProofs4 ReadmeProofs.
Local Open Scope Z_scope.
Local Ltac Zify.zify_post_hook ::= Z.to_euclidean_division_equations.

Section Join.
Variable md : mode.

Definition at_index (i d r : Z) : datetime := at_time (i / 12) (i mod 12 + 1) d r.
Lemma at_index_inj : forall i d i' d' r, at_index i d r = at_index i' d' r -> i = i' /\ d = d'.
Proof. intros i d i' d' r E. unfold at_index, at_time in E. injection E as E1 E2 E3. lia. Qed.
Lemma ok_inj : forall x y, (Ok (Moment x) : result) = Ok (Moment y) -> x = y.
Proof. intros x y H. injection H. auto. Qed.
Definition months_result (i d n sp h mi s : Z) : result :=
  if sp =? 0 then (if d <=? index_length (i + n) then Ok (Moment (at_index (i + n) d (h * 3600 + mi * 60 + s)))
                   else Err (OutOfBounds ((i + n) / 12) ((i + n) mod 12 + 1) h h mi s))
  else Ok (Moment (at_index (i + n + 1) sp (h * 3600 + mi * 60 + s))).

Lemma months_step : forall m n, dt_valid m = true -> 0 <= n -> month_index m + n + 1 <= 12 * max_year + 11 ->
  calculate md (Addition (Moment m) (Months n)) = months_result (month_index m) (day m) n (spill UMonth n m) (hour m) (minute m) (second m).
Proof.
  intros m n Hm Hn Hr. destruct (valid_facts m Hm) as (Vy & Vmo & Vd & Vml & Vh & Vmi & Vs). destruct (sod_parts m Hm) as (P1 & P2 & P3).
  unfold month_index in *. rewrite add_months by (try assumption; unfold max_year, min_year, i64_max in *; lia).
  unfold plus_months, months_result, spill, at_index, index_length. fold (sod m).
  assert (Lb : forall i, 28 <= month_length (i / 12) (i mod 12 + 1) <= 31) by (intro i; apply month_length_bounds; lia).
  destruct (month m + n <=? 12) eqn:C1.
  - assert (I1 : (12 * year m + month m - 1 + n) / 12 = year m) by lia. assert (I2 : (12 * year m + month m - 1 + n) mod 12 + 1 = month m + n) by lia.
    rewrite I1, I2. pose proof (month_length_bounds (year m) (month m + n) ltac:(lia)) as B.
    destruct (day m <=? month_length (year m) (month m + n)) eqn:C2.
    + replace (Z.max 0 (day m - month_length (year m) (month m + n)) =? 0) with true by lia. rewrite wrap32_id by (unfold max_year, min_year in *; lia).
      unfold built. replace (representable (year m) (month m + n) (day m)) with true; [reflexivity|].
      symmetry. apply representable_iff. split; [lia|]. apply date_exists_iff. lia.
    + replace (Z.max 0 (day m - month_length (year m) (month m + n)) =? 0) with false by lia. rewrite Z.max_r by lia.
      assert (M11 : month m + n <= 11).
      { destruct (Z.eq_dec (month m + n) 12) as [Q|]; [|lia]. rewrite Q in C2. change (month_length (year m) 12) with 31 in C2. lia. }
      rewrite wrap32_id by (unfold max_year, min_year in *; lia).
      replace ((12 * year m + month m - 1 + n + 1) / 12) with (year m) by lia. replace ((12 * year m + month m - 1 + n + 1) mod 12 + 1) with (month m + n + 1) by lia.
      pose proof (month_length_bounds (year m) (month m + n + 1) ltac:(lia)) as B2.
      unfold built. replace (representable (year m) (month m + n + 1) (day m - month_length (year m) (month m + n))) with true; [reflexivity|].
      symmetry. apply representable_iff. split; [lia|]. apply date_exists_iff. lia.
  - destruct (day m <=? 30) eqn:C2.
    + replace (day m =? 31) with false by lia. change (0 =? 0) with true. cbv iota.
      rewrite wrap32_id by (unfold max_year, min_year in *; lia).
      replace ((12 * year m + month m - 1 + n) / 12) with (year m + (month m + n - 1) / 12) by lia.
      replace ((12 * year m + month m - 1 + n) mod 12 + 1) with ((month m + n - 1) mod 12 + 1) by lia.
      unfold built. rewrite P1, P2, P3. destruct (day m <=? month_length (year m + (month m + n - 1) / 12) ((month m + n - 1) mod 12 + 1)) eqn:C3.
      * replace (representable _ _ _) with true; [reflexivity|]. symmetry. apply representable_iff. split; [unfold max_year, min_year in *; lia|]. apply date_exists_iff. lia.
      * replace (representable _ _ _) with false; [reflexivity|]. symmetry. apply not_true_iff_false. intro R. apply representable_iff in R as [_ R]. apply date_exists_iff in R. lia.
    + replace (day m =? 31) with true by lia. change (1 =? 0) with false. cbv iota.
      rewrite wrap32_id by (unfold max_year, min_year in *; lia).
      replace ((12 * year m + month m - 1 + n + 1) / 12) with (year m + (month m + n) / 12) by lia.
      replace ((12 * year m + month m - 1 + n + 1) mod 12 + 1) with ((month m + n) mod 12 + 1) by lia.
      unfold built. replace (representable _ _ _) with true; [reflexivity|]. symmetry. apply representable_iff. split; [unfold max_year, min_year in *; lia|]. apply date_exists_iff.
      pose proof (month_length_bounds (year m + (month m + n) / 12) ((month m + n) mod 12 + 1) ltac:(lia)). lia.
Qed.

Definition spill_index (i d n : Z) : Z :=
  if i mod 12 + 1 + n <=? 12 then Z.max 0 (d - index_length (i + n)) else if d =? 31 then 1 else 0.
Lemma spill_is : forall m n, dt_valid m = true -> 0 <= n -> spill UMonth n m = spill_index (month_index m) (day m) n.
Proof.
  intros m n Hm Hn. destruct (valid_facts m Hm) as (Vy & Vmo & _). unfold spill, spill_index, month_index, index_length.
  replace ((12 * year m + month m - 1) mod 12 + 1) with (month m) by lia. destruct (month m + n <=? 12) eqn:C; [|reflexivity].
  replace ((12 * year m + month m - 1 + n) / 12) with (year m) by lia. replace ((12 * year m + month m - 1 + n) mod 12 + 1) with (month m + n) by lia. reflexivity.
Qed.
Lemma index_length_bounds : forall i, 28 <= index_length i <= 31.
Proof. intro i. apply month_length_bounds. lia. Qed.
Lemma index_valid : forall i d r, 0 <= r < 86400 -> 12 * min_year <= i <= 12 * max_year + 11 -> 1 <= d <= index_length i -> dt_valid (at_index i d r) = true.
Proof.
  intros i d r Hr Hi Hd. apply at_valid; [exact Hr|]. apply representable_iff. split; [lia|]. apply date_exists_iff. unfold index_length in Hd. lia.
Qed.
Lemma index_step : forall i d h mi s n, 0 <= h < 24 -> 0 <= mi < 60 -> 0 <= s < 60 -> 12 * min_year <= i -> 1 <= d <= index_length i -> 0 <= n -> i + n + 1 <= 12 * max_year + 11 ->
  calculate md (Addition (Moment (at_index i d (h * 3600 + mi * 60 + s))) (Months n)) = months_result i d n (spill_index i d n) h mi s.
Proof.
  intros i d h mi s n Hh Hmi Hs Hi Hd Hn Hr. set (r := h * 3600 + mi * 60 + s).
  assert (V : dt_valid (at_index i d r) = true) by (apply index_valid; subst r; lia).
  assert (I : month_index (at_index i d r) = i) by (unfold month_index, at_index, at_time; cbn [year month]; lia).
  rewrite months_step by (try assumption; rewrite I; exact Hr). rewrite spill_is by assumption. rewrite I.
  unfold at_index, at_time. cbn [day hour minute second]. f_equal; subst r; lia.
Qed.
Lemma months_twice : forall m a b, dt_valid m = true -> 0 <= a -> 0 <= b -> month_index m + a + b + 2 <= 12 * max_year + 11 ->
  (calculate md (Addition (Addition (Moment m) (Months a)) (Months b)) = calculate md (Addition (Moment m) (Months (a + b))) <-> months_join a b m).
Proof.
  intros m a b Hm Ha Hb Hr. destruct (valid_facts m Hm) as (Vy & Vmo & Vd & Vml & Vh & Vmi & Vs).
  assert (Ia : in_i64 a = true /\ in_i64 b = true) by (split; apply in_i64_iff; unfold month_index, min_year, max_year, i64_min, i64_max in *; lia). destruct Ia as [Ia Ib].
  assert (Ht : tt_ok (Addition (Moment m) (Months a)) = true) by (cbn [tt_ok]; rewrite Hm; exact Ia).
  rewrite (months_step m (a + b)) by (try assumption; lia). pose proof (months_step m a Hm Ha ltac:(lia)) as E1.
  assert (Im : 12 * min_year <= month_index m) by (unfold month_index; lia).
  assert (Mi : month_index m mod 12 + 1 = month m) by (unfold month_index; lia).
  unfold months_join. rewrite <- Mi. rewrite !spill_is in * by (try assumption; lia). set (i := month_index m) in *. set (d := day m) in *.
  pose proof (index_length_bounds (i + a)) as B1. pose proof (index_length_bounds (i + a + 1)) as B2. pose proof (index_length_bounds (i + a + b)) as B3.
  assert (N : forall k, 0 <= spill_index i d k <= 3) by (intro k; unfold spill_index; pose proof (index_length_bounds (i + k)); destruct (_ <=? _); [lia|destruct (_ =? _); lia]).
  (* what the second addition sees *)
  assert (Step : forall j e, months_result i d a (spill_index i d a) (hour m) (minute m) (second m) = Ok (Moment (at_index j e (hour m * 3600 + minute m * 60 + second m))) ->
    12 * min_year <= j -> 1 <= e <= index_length j -> j + b + 1 <= 12 * max_year + 11 ->
    calculate md (Addition (Addition (Moment m) (Months a)) (Months b)) = months_result j e b (spill_index j e b) (hour m) (minute m) (second m)).
  { intros j e Q J1 J2 J3. rewrite Q in E1. destruct (calc_add_comp md (Addition (Moment m) (Months a)) (Months b) Ht Ib) as (C & _); [cbn; discriminate|].
    rewrite (C _ (Months b) E1 eq_refl). apply index_step; assumption. }
  destruct (Z.eq_dec (spill_index i d a) 0) as [Z1|Z1].
  - destruct (Z_le_gt_dec d (index_length (i + a))) as [L|G].
    + (* fits *)
      assert (Q : months_result i d a (spill_index i d a) (hour m) (minute m) (second m) = Ok (Moment (at_index (i + a) d (hour m * 3600 + minute m * 60 + second m)))).
      { unfold months_result. rewrite Z1. change (0 =? 0) with true. cbv iota. replace (d <=? index_length (i + a)) with true by lia. reflexivity. }
      rewrite (Step _ _ Q) by lia. clear Step E1 Q.
      destruct (i mod 12 + 1 + a <=? 12) eqn:C1.
      * split; [intros _; right; left; exact Z1|]. intros _. unfold months_result. replace (spill_index (i + a) d b) with (spill_index i d (a + b)); [rewrite !Z.add_assoc; reflexivity|].
        unfold spill_index. rewrite !Z.add_assoc. replace ((i + a) mod 12 + 1 + b) with (i mod 12 + 1 + a + b) by lia. reflexivity.
      * assert (D : d <> 31) by (intro D; unfold spill_index in Z1; rewrite C1, D in Z1; discriminate Z1).
        assert (S0 : spill_index i d (a + b) = 0) by (unfold spill_index; replace (i mod 12 + 1 + (a + b) <=? 12) with false by lia; replace (d =? 31) with false by lia; reflexivity).
        rewrite S0. unfold spill_index. unfold months_result. rewrite !Z.add_assoc. change (0 =? 0) with true. cbv iota.
        destruct ((i + a) mod 12 + 1 + b <=? 12) eqn:C2.
        -- destruct (Z_le_gt_dec d (index_length (i + a + b))) as [L2|G2].
           ++ replace (Z.max 0 (d - index_length (i + a + b)) =? 0) with true by lia. split; [intros _|reflexivity]. right. right. lia.
           ++ replace (Z.max 0 (d - index_length (i + a + b)) =? 0) with false by lia. replace (d <=? index_length (i + a + b)) with false by lia.
              split; [discriminate|]. intros [Q|[Q|[_ [Q|Q]]]]; try lia. subst b. exfalso. rewrite Z.add_0_r in *. lia.
        -- replace (d =? 31) with false by lia. change (0 =? 0) with true. cbv iota. split; [intros _|reflexivity]. right. right. split; [exact L|]. left. lia.
    + (* no such day *)
      assert (C1 : (i mod 12 + 1 + a <=? 12) = false) by (destruct (i mod 12 + 1 + a <=? 12) eqn:C1; [|reflexivity]; unfold spill_index in Z1; rewrite C1 in Z1; lia).
      assert (D : d <> 31) by (intro D; unfold spill_index in Z1; rewrite C1, D in Z1; discriminate Z1).
      assert (Q : months_result i d a (spill_index i d a) (hour m) (minute m) (second m) = Err (OutOfBounds ((i + a) / 12) ((i + a) mod 12 + 1) (hour m) (hour m) (minute m) (second m))).
      { unfold months_result. rewrite Z1. change (0 =? 0) with true. cbv iota. replace (d <=? index_length (i + a)) with false by lia. reflexivity. }
      rewrite Q in E1. change (Months b) with (mk UMonth b). rewrite (err_add md _ UMonth b _ Ht Ib eq_refl E1). clear Step E1 Q.
      assert (S0 : spill_index i d (a + b) = 0) by (unfold spill_index; replace (i mod 12 + 1 + (a + b) <=? 12) with false by lia; replace (d =? 31) with false by lia; reflexivity).
      rewrite S0, C1. unfold months_result. rewrite !Z.add_assoc. change (0 =? 0) with true. cbv iota. split.
      * destruct (d <=? index_length (i + a + b)); [discriminate|]. intro Q. injection Q as Q1 Q2. left. lia.
      * intros [Q|[Q|Q]]; [|lia|lia]. subst b. rewrite Z.add_0_r. replace (d <=? index_length (i + a)) with false by lia. reflexivity.
  - (* spills *)
    pose proof (N a) as Na. pose proof (N (a + b)) as Nab.
    assert (Q : months_result i d a (spill_index i d a) (hour m) (minute m) (second m) = Ok (Moment (at_index (i + a + 1) (spill_index i d a) (hour m * 3600 + minute m * 60 + second m)))).
    { unfold months_result. replace (spill_index i d a =? 0) with false by lia. reflexivity. }
    rewrite (Step _ _ Q) by lia. clear Step E1 Q.
    assert (S0 : spill_index (i + a + 1) (spill_index i d a) b = 0).
    { set (x := spill_index i d a) in *. unfold spill_index. pose proof (index_length_bounds (i + a + 1 + b)). destruct (_ <=? _); [lia|]. destruct (Z.eqb_spec x 31); lia. }
    rewrite S0. unfold months_result. change (0 =? 0) with true. cbv iota. pose proof (index_length_bounds (i + a + 1 + b)) as B4.
    replace (spill_index i d a <=? index_length (i + a + 1 + b)) with true by lia.
    assert (S31 : (i mod 12 + 1 + a <=? 12) = false -> d = 31 /\ spill_index i d a = 1 /\ spill_index i d (a + b) = 1).
    { intro C1. unfold spill_index in *. rewrite C1 in *. destruct (Z.eqb_spec d 31); [|lia]. replace (i mod 12 + 1 + (a + b) <=? 12) with false by lia. auto. }
    destruct (Z.eq_dec (spill_index i d (a + b)) 0) as [Z2|Z2].
    + rewrite Z2. change (0 =? 0) with true. cbv iota. split.
      * destruct (d <=? index_length (i + (a + b))); [|discriminate]. intro Q. apply ok_inj in Q. apply at_index_inj in Q. lia.
      * intros [Q|Q]; [subst b; rewrite Z.add_0_r in Z2; lia|]. destruct (i mod 12 + 1 + a <=? 12) eqn:C1; [lia|]. destruct (S31 eq_refl) as (_ & _ & Q'). lia.
    + replace (spill_index i d (a + b) =? 0) with false by lia. split.
      * intro Q. apply ok_inj in Q. apply at_index_inj in Q. right. destruct (i mod 12 + 1 + a <=? 12) eqn:C1; [right; lia|]. left. apply S31. reflexivity.
      * intros [Q|Q].
        { subst b. rewrite !Z.add_0_r. do 3 f_equal. }
        assert (X : spill_index i d (a + b) = spill_index i d a).
        { destruct (i mod 12 + 1 + a <=? 12) eqn:C1; [lia|]. destruct (S31 eq_refl) as (_ & Q1 & Q2). lia. }
        rewrite X. do 3 f_equal. lia.
Qed.
End Join.
