(** Evaluation is compositional on well-shaped expressions. *)
Require Import ZArith Bool List Lia String.
From Verif Require Import Prelude Spec Chrono Util TimeType SpecTree PreludeProofs EvalProofs AmountProofs ShapeProofs.
Local Open Scope Z_scope.

Definition isok (r : result) : bool := match r with Ok _ => true | _ => false end.

(** [comp r ra rb f]: [r] is obtained by evaluating both operands and combining the values. *)
Definition comp (r ra rb : result) (f : timetype -> timetype -> result) : Prop :=
  (forall x y, ra = Ok x -> rb = Ok y -> r = f x y) /\
  (isok ra = false -> isok r = false) /\ (isok rb = false -> isok r = false).

Lemma comp_bind_r : forall rb f g, (forall y, rb = Ok y -> g y = f y) ->
  forall x, comp (bind rb g) (Ok x) rb (fun _ y => f y).
Proof.
  intros rb f g H x. split; [|split].
  - intros x' y _ Hy. rewrite Hy. cbn. auto.
  - discriminate.
  - destruct rb; cbn; try discriminate; reflexivity.
Qed.

Lemma addc_comm : forall md x y, @noerr Z x -> @noerr Z y -> goodz md x -> goodz md y ->
  @addc kek md x y = addc md y x.
Proof.
  intros md x y Hx Hy Gx Gy. unfold addc. destruct x, y; cbn in *; try contradiction; try reflexivity.
  - rewrite Z.add_comm. reflexivity.
  - destruct Gx, Gy. congruence.
Qed.

(** Repeated checked multiplication by positive literals is one multiplication. *)
Lemma mulc_mulc : forall md z a b, 1 <= a -> 1 <= b ->
  @mulc kek md (mulc md (Ok z) a) b = mulc md (Ok z) (a * b).
Proof.
  intros md z a b Ha Hb. unfold mulc. cbn [bind]. rewrite Z.mul_assoc.
  destruct (in_i64 (z * a)) eqn:E.
  { rewrite (arith_ok md (z * a)) by (apply in_i64_iff; exact E). reflexivity. }
  unfold arith. rewrite E. apply in_i64_false in E.
  assert (E' : in_i64 (z * a * b) = false) by (apply in_i64_false; unfold i64_min, i64_max in *; nia).
  rewrite E'. destruct md; [reflexivity|]. cbn [bind].
  destruct (wrap64_congr (z * a)) as [k Hk].
  assert (Hw : wrap64 (wrap64 (z * a) * b) = wrap64 (z * a * b)).
  { rewrite Hk. unfold wrap64.
    replace ((z * a + k * 18446744073709551616) * b + 9223372036854775808)
      with (z * a * b + 9223372036854775808 + (k * b) * 18446744073709551616) by ring.
    rewrite Z.mod_add by lia. reflexivity. }
  destruct (in_i64 (wrap64 (z * a) * b)) eqn:E2; [|rewrite Hw; reflexivity].
  rewrite <- Hw. rewrite (wrap64_id (wrap64 (z * a) * b)) by (apply in_i64_iff; exact E2). reflexivity.
Qed.

Lemma good_mulc : forall md z a, goodz md (@mulc kek md (Ok z) a).
Proof. intros. apply mulc_goodz. exact I. Qed.
Lemma noerr_mulc : forall md z a, @noerr Z (mulc md (Ok z) a).
Proof. intros. ne. Qed.

(** Addition of two amounts commutes. *)
Lemma leaf_comm : forall md u v n m, in_i64 n = true -> in_i64 m = true ->
  ev md (CAdd (mk u n) (mk v m)) = ev md (CAdd (mk v m) (mk u n)).
Proof.
  intros md u v n m Hn Hm.
  rewrite (ev_eq md (CAdd (mk u n) (mk v m))) by (split; rewrite ok_mk; assumption).
  rewrite (ev_eq md (CAdd (mk v m) (mk u n))) by (split; rewrite ok_mk; assumption).
  destruct u, v; cbn [mk body add];
    repeat match goal with |- context [ev md ?c] => rewrite (ev_eq md c) by assumption; cbn [body] end;
    cbn [add_to_seconds add_to_minutes add_to_hours add_to_days add_to_months add_to_years];
    repeat (rewrite mulc_mulc by lia); cbn [Z.mul Pos.mul Pos.add Pos.succ];
    f_equal; apply addc_comm; auto using good_mulc, noerr_mulc; exact I.
Qed.

Lemma shape_value : forall v, is_value v = true -> shape_of v = SAmount -> exists u n, v = mk u n.
Proof.
  intros v H S. destruct v; try discriminate.
  - exists USec, n; reflexivity. - exists UMin, n; reflexivity. - exists UHour, n; reflexivity.
  - exists UDay, n; reflexivity. - exists UMonth, n; reflexivity. - exists UYear, n; reflexivity.
Qed.
Lemma calc_shape_value : forall md t v, calculate md t = Ok v -> is_value v = true /\ shape_of v = shape_of t.
Proof.
  intros md t v H. split; [eapply calc_result_value; eassumption|].
  pose proof (calculate_shape md t) as K. rewrite H in K. cbn in K.
  destruct (shape_of t); [|destruct v; try discriminate K; reflexivity|contradiction].
  destruct v; try discriminate K; reflexivity.
Qed.
Lemma calc_tt_ok : forall md t v, tt_ok t = true -> calculate md t = Ok v -> tt_ok v = true.
Proof. intros md t v Ht H. pose proof (calculate_good md t Ht) as G. rewrite H in G. apply G. Qed.
Lemma calc_amount : forall md t v, amount_only t = true -> tt_ok t = true -> calculate md t = Ok v ->
  exists u n, v = mk u n /\ in_i64 n = true.
Proof.
  intros md t v Ha Ht H. destruct (calc_shape_value md t v H) as [Hv Hs].
  apply shape_amount in Ha. rewrite Ha in Hs. destruct (shape_value v Hv Hs) as (u & n & ->).
  exists u, n. split; [reflexivity|]. rewrite <- (ok_mk u n). eapply calc_tt_ok; eassumption.
Qed.

Section Comp.
Variable md : mode.

(** Left operand already a value. *)
Lemma ev_add_value_l : forall x b, is_value x = true -> tt_ok x = true -> tt_ok b = true ->
  amount_only b = true ->
  ev md (CAdd x b) = (do y <- calculate md b; ev md (CAdd x y)).
Proof.
  intros x b Hx Hox Hob Ha.
  destruct b; try discriminate Ha; try reflexivity.
  - change (calculate md (Addition b1 b2)) with (ev md (CAdd b1 b2)).
    assert (Hc : call_ok (CAdd b1 b2)) by (cbn in Hob; apply andb_true_iff in Hob; exact Hob).
    rewrite ev_eq by (split; assumption). cbn [body].
    destruct x; try discriminate Hx; cbn [add];
      rewrite ev_eq by (first [exact Hob | split; assumption]); cbn [body add_to_seconds add_to_minutes add_to_hours add_to_days add_to_months add_to_years add_to_moment];
      (destruct (ev md (CAdd b1 b2)) as [y| | |] eqn:Ey; try reflexivity; cbn [bind];
       destruct (calc_amount md (Addition b1 b2) y Ha Hob Ey) as (u & k & -> & Hk);
       symmetry; rewrite ev_eq by (split; [exact Hox|rewrite ok_mk; exact Hk]); destruct u; reflexivity).
  - change (calculate md (Subtraction b1 b2)) with (ev md (CSub b1 b2)).
    assert (Hc : call_ok (CSub b1 b2)) by (cbn in Hob; apply andb_true_iff in Hob; exact Hob).
    rewrite ev_eq by (split; assumption). cbn [body].
    destruct x; try discriminate Hx; cbn [add];
      rewrite ev_eq by (first [exact Hob | split; assumption]); cbn [body add_to_seconds add_to_minutes add_to_hours add_to_days add_to_months add_to_years add_to_moment];
      (destruct (ev md (CSub b1 b2)) as [y| | |] eqn:Ey; try reflexivity; cbn [bind];
       destruct (calc_amount md (Subtraction b1 b2) y Ha Hob Ey) as (u & k & -> & Hk);
       symmetry; rewrite ev_eq by (split; [exact Hox|rewrite ok_mk; exact Hk]); destruct u; reflexivity).
Qed.
Lemma ev_sub_value_l : forall x b, is_value x = true -> tt_ok x = true -> tt_ok b = true ->
  amount_only b = true ->
  ev md (CSub x b) = (do y <- calculate md b; ev md (CSub x y)).
Proof.
  intros x b Hx Hox Hob Ha.
  destruct b; try discriminate Ha; try reflexivity.
  - change (calculate md (Addition b1 b2)) with (ev md (CAdd b1 b2)).
    assert (Hc : call_ok (CAdd b1 b2)) by (cbn in Hob; apply andb_true_iff in Hob; exact Hob).
    rewrite ev_eq by (split; assumption). cbn [body].
    destruct x; try discriminate Hx; cbn [sub];
      rewrite ev_eq by (first [exact Hob | split; assumption]); cbn [body sub_from_seconds sub_from_minutes sub_from_hours sub_from_days sub_from_months sub_from_years sub_from_moment];
      (destruct (ev md (CAdd b1 b2)) as [y| | |] eqn:Ey; try reflexivity; cbn [bind];
       destruct (calc_amount md (Addition b1 b2) y Ha Hob Ey) as (u & k & -> & Hk);
       symmetry; rewrite ev_eq by (split; [exact Hox|rewrite ok_mk; exact Hk]); destruct u; reflexivity).
  - change (calculate md (Subtraction b1 b2)) with (ev md (CSub b1 b2)).
    assert (Hc : call_ok (CSub b1 b2)) by (cbn in Hob; apply andb_true_iff in Hob; exact Hob).
    rewrite ev_eq by (split; assumption). cbn [body].
    destruct x; try discriminate Hx; cbn [sub];
      rewrite ev_eq by (first [exact Hob | split; assumption]); cbn [body sub_from_seconds sub_from_minutes sub_from_hours sub_from_days sub_from_months sub_from_years sub_from_moment];
      (destruct (ev md (CSub b1 b2)) as [y| | |] eqn:Ey; try reflexivity; cbn [bind];
       destruct (calc_amount md (Subtraction b1 b2) y Ha Hob Ey) as (u & k & -> & Hk);
       symmetry; rewrite ev_eq by (split; [exact Hox|rewrite ok_mk; exact Hk]); destruct u; reflexivity).
Qed.

Lemma ands : forall a b, a && b = true -> a = true /\ b = true.
Proof. intros. apply andb_true_iff. assumption. Qed.

(** [a], then [b]. *)
Lemma ev_add_eq : forall a b, tt_ok a = true -> tt_ok b = true -> amount_only b = true ->
  is_end a = false -> (is_diff a = true -> amount_only a = true) ->
  comp (ev md (CAdd a b)) (calculate md a) (calculate md b) (fun x y => ev md (CAdd x y)).
Proof.
  intros a b Ha Hb Kb He Hd.
  assert (Hsub : forall a1 a2, a = Subtraction a1 a2 -> forall u k, in_i64 k = true ->
     ev md (CAdd a (mk u k)) = (do x <- calculate md a; ev md (CAdd x (mk u k)))).
  { intros a1 a2 -> u k Hk. cbn in Ha. apply ands in Ha as [Ha1 Ha2].
    rewrite ev_eq by (split; [cbn; rewrite Ha1; exact Ha2|rewrite ok_mk; exact Hk]). cbn [body].
    assert (E : add (ev md) (Subtraction a1 a2) (mk u k) = (do bx <- ev md (CSub a1 a2); ev md (CAdd (mk u k) bx))).
    { destruct u; reflexivity. }
    rewrite E. change (calculate md (Subtraction a1 a2)) with (ev md (CSub a1 a2)).
    destruct (ev md (CSub a1 a2)) as [x| | |] eqn:Ex; try reflexivity. cbn [bind].
    destruct (calc_amount md (Subtraction a1 a2) x (Hd eq_refl)) as (u' & k' & -> & Hk');
      [cbn; rewrite Ha1; exact Ha2|exact Ex|]. apply leaf_comm; assumption. }
  assert (Hval : forall x, calculate md a = Ok x -> is_value x = true /\ tt_ok x = true).
  { intros x Hx. split; [eapply calc_result_value|eapply (calc_tt_ok md a)]; eassumption. }
  assert (Hstd : ev md (CAdd a b) = (do x <- calculate md a; ev md (CAdd x b)) ->
     comp (ev md (CAdd a b)) (calculate md a) (calculate md b) (fun x y => ev md (CAdd x y))).
  { intro E. rewrite E. split; [|split].
    - intros x y Hx Hy. rewrite Hx. cbn [bind]. destruct (Hval x Hx).
      rewrite ev_add_value_l by assumption. rewrite Hy. reflexivity.
    - destruct (calculate md a); cbn; try discriminate; reflexivity.
    - intro Hn. destruct (calculate md a) as [x| | |]; cbn [bind]; try reflexivity.
      destruct (Hval x eq_refl). rewrite ev_add_value_l by assumption.
      destruct (calculate md b); cbn in *; try discriminate; reflexivity. }
  destruct a; try discriminate He; try (apply Hstd; reflexivity).
  - apply Hstd. cbn in Ha. apply ands in Ha as [Ha1 Ha2].
    rewrite ev_eq by (split; [cbn; rewrite Ha1; exact Ha2|assumption]). cbn [body].
    destruct b; try discriminate Kb; reflexivity.
  - destruct b; try discriminate Kb.
    + apply Hstd. exact (Hsub a1 a2 eq_refl USec n Hb).
    + apply Hstd. exact (Hsub a1 a2 eq_refl UMin n Hb).
    + apply Hstd. exact (Hsub a1 a2 eq_refl UHour n Hb).
    + apply Hstd. exact (Hsub a1 a2 eq_refl UDay n Hb).
    + apply Hstd. exact (Hsub a1 a2 eq_refl UMonth n Hb).
    + apply Hstd. exact (Hsub a1 a2 eq_refl UYear n Hb).
    + clear Hstd. rewrite ev_eq by (split; assumption). cbn [body add].
      change (ev md (CAdd b1 b2)) with (calculate md (Addition b1 b2)).
      split; [|split].
      * intros x y Hx Hy. rewrite Hy. cbn [bind].
        destruct (calc_amount md _ y Kb Hb Hy) as (u & k & -> & Hk).
        rewrite (Hsub a1 a2 eq_refl u k Hk). rewrite Hx. reflexivity.
      * intro Hn. destruct (calculate md (Addition b1 b2)) as [y| | |] eqn:Hy; try reflexivity. cbn [bind].
        destruct (calc_amount md _ y Kb Hb Hy) as (u & k & -> & Hk).
        rewrite (Hsub a1 a2 eq_refl u k Hk).
        destruct (calculate md (Subtraction a1 a2)); cbn in *; try discriminate; reflexivity.
      * intro Hn. destruct (calculate md (Addition b1 b2)); cbn in *; try discriminate; reflexivity.
    + apply Hstd. rewrite ev_eq by (split; assumption). cbn [body add].
      change (ev md (CSub a1 a2)) with (calculate md (Subtraction a1 a2)).
      destruct (calculate md (Subtraction a1 a2)) as [x| | |] eqn:Hx; try reflexivity. cbn [bind].
      destruct (Hval x eq_refl) as [Hvx Hox].
      destruct (calc_amount md _ x (Hd eq_refl) Ha Hx) as (u & k & -> & Hk).
      rewrite (ev_add_value_l (mk u k)) by assumption.
      rewrite ev_eq by (split; assumption). cbn [body].
      assert (E : add (ev md) (Subtraction b1 b2) (mk u k) = (do bx <- ev md (CSub b1 b2); ev md (CAdd (mk u k) bx))).
      { destruct u; reflexivity. }
      rewrite E. reflexivity.
Qed.

Lemma ev_sub_eq : forall a b, tt_ok a = true -> tt_ok b = true -> amount_only b = true ->
  is_end a = false ->
  comp (ev md (CSub a b)) (calculate md a) (calculate md b) (fun x y => ev md (CSub x y)).
Proof.
  intros a b Ha Hb Kb He.
  assert (Hval : forall x, calculate md a = Ok x -> is_value x = true /\ tt_ok x = true).
  { intros x Hx. split; [eapply calc_result_value|eapply (calc_tt_ok md a)]; eassumption. }
  assert (Hstd : ev md (CSub a b) = (do x <- calculate md a; ev md (CSub x b)) ->
     comp (ev md (CSub a b)) (calculate md a) (calculate md b) (fun x y => ev md (CSub x y))).
  { intro E. rewrite E. split; [|split].
    - intros x y Hx Hy. rewrite Hx. cbn [bind]. destruct (Hval x Hx).
      rewrite ev_sub_value_l by assumption. rewrite Hy. reflexivity.
    - destruct (calculate md a); cbn; try discriminate; reflexivity.
    - intro Hn. destruct (calculate md a) as [x| | |]; cbn [bind]; try reflexivity.
      destruct (Hval x eq_refl). rewrite ev_sub_value_l by assumption.
      destruct (calculate md b); cbn in *; try discriminate; reflexivity. }
  assert (Hleaf : forall a1 a2, a = Addition a1 a2 -> forall u k, in_i64 k = true ->
     ev md (CSub a (mk u k)) = (do x <- calculate md a; ev md (CSub x (mk u k)))).
  { intros a1 a2 -> u k Hk.
    rewrite ev_eq by (split; [assumption|rewrite ok_mk; exact Hk]). destruct u; reflexivity. }
  destruct a; try discriminate He; try (apply Hstd; reflexivity).
  - destruct b; try discriminate Kb.
    + apply Hstd. exact (Hleaf a1 a2 eq_refl USec n Hb).
    + apply Hstd. exact (Hleaf a1 a2 eq_refl UMin n Hb).
    + apply Hstd. exact (Hleaf a1 a2 eq_refl UHour n Hb).
    + apply Hstd. exact (Hleaf a1 a2 eq_refl UDay n Hb).
    + apply Hstd. exact (Hleaf a1 a2 eq_refl UMonth n Hb).
    + apply Hstd. exact (Hleaf a1 a2 eq_refl UYear n Hb).
    + apply Hstd. rewrite ev_eq by (split; assumption). reflexivity.
    + clear Hstd. rewrite ev_eq by (split; assumption). cbn [body sub].
      change (ev md (CSub b1 b2)) with (calculate md (Subtraction b1 b2)).
      split; [|split].
      * intros x y Hx Hy. rewrite Hy. cbn [bind].
        destruct (calc_amount md _ y Kb Hb Hy) as (u & k & -> & Hk).
        rewrite (Hleaf a1 a2 eq_refl u k Hk). rewrite Hx. reflexivity.
      * intro Hn. destruct (calculate md (Subtraction b1 b2)) as [y| | |] eqn:Hy; try reflexivity. cbn [bind].
        destruct (calc_amount md _ y Kb Hb Hy) as (u & k & -> & Hk).
        rewrite (Hleaf a1 a2 eq_refl u k Hk).
        destruct (calculate md (Addition a1 a2)); cbn in *; try discriminate; reflexivity.
      * intro Hn. destruct (calculate md (Subtraction b1 b2)); cbn in *; try discriminate; reflexivity.
  - apply Hstd. rewrite ev_eq by (split; assumption). cbn [body].
    destruct b; try discriminate Kb; reflexivity.
Qed.

Lemma shape_add_ok : forall a b, shape_of (Addition a b) <> SBad ->
  amount_only b = true /\ is_end a = false /\ (is_diff a = true -> amount_only a = true).
Proof.
  intros a b H. rewrite <- !shape_amount. cbn [shape_of] in H.
  destruct (shape_of a) eqn:Ea, (shape_of b); try contradiction; split; auto.
  - split; [|auto]. destruct a; try reflexivity; cbn [shape_of] in Ea; destruct (shape_of a); discriminate.
  - destruct (is_diff a), (is_end a); cbn in H; try contradiction. split; [reflexivity|discriminate].
Qed.
Lemma shape_sub_ok : forall a b, shape_of (Subtraction a b) <> SBad ->
  amount_only b = true /\ is_end a = false.
Proof.
  intros a b H. rewrite <- !shape_amount. cbn [shape_of] in H.
  destruct (shape_of a) eqn:Ea, (shape_of b); try contradiction; split; auto.
  - destruct a; try reflexivity; cbn [shape_of] in Ea; destruct (shape_of a); discriminate.
  - destruct (is_end a); cbn in H; try contradiction. reflexivity.
Qed.

Lemma calc_add_comp : forall a b, tt_ok a = true -> tt_ok b = true -> shape_of (Addition a b) <> SBad ->
  comp (calculate md (Addition a b)) (calculate md a) (calculate md b)
       (fun x y => calculate md (Addition x y)).
Proof. intros a b Ha Hb H. apply shape_add_ok in H as (K1 & K2 & K3). apply ev_add_eq; assumption. Qed.
Lemma calc_sub_comp : forall a b, tt_ok a = true -> tt_ok b = true -> shape_of (Subtraction a b) <> SBad ->
  comp (calculate md (Subtraction a b)) (calculate md a) (calculate md b)
       (fun x y => calculate md (Subtraction x y)).
Proof. intros a b Ha Hb H. apply shape_sub_ok in H as (K1 & K2). apply ev_sub_eq; assumption. Qed.
End Comp.
