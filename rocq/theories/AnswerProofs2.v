(** `calculate` gives the answers of the reference evaluator. *)
Require Import ZArith Bool List Lia ZifyBool.
From Verif Require Import Prelude Spec Chrono Util TimeType SpecTree SpecMoment SpecOver SpecWide SpecValue SpecAnswer PreludeProofs CalendarProofs LoopProofs
  EvalProofs AmountProofs ShapeProofs CompProofs AddProofs EndProofs OverProofs AnswerProofs.
Local Open Scope Z_scope.

Section Answer.
Variable md : mode.

Lemma count_of : forall u v e, v * unit_secs u = e -> e / unit_secs u = v.
Proof. intros u v e <-. pose proof (unit_secs_pos u). apply Z.div_mul. lia. Qed.
Lemma amount_of_correct : forall t, tt_ok t = true -> amount_only t = true -> calculate md t = amount_of md t.
Proof.
  intros t Ht Ha. unfold amount_of. pose proof (amount_overflow t Ht Ha) as O. destruct (amount_wrapping t Ht Ha) as (x & Ex & W).
  rewrite (count_of _ _ _ Ex). destruct (fits t) eqn:F.
  - apply (fits_ok t Ht Ha) in F. destruct F as (v & E & Hv & Ev). assert (v = x) by (apply count_of in Ev; apply count_of in Ex; lia). subst v.
    destruct md; [exact E|]. rewrite W, wrap64_id by (apply in_i64_iff; exact Hv). reflexivity.
  - destruct md; [apply O; reflexivity|exact W].
Qed.

Lemma value_cases : forall v, is_value v = true -> tt_ok v = true -> (exists m, v = Moment m /\ dt_valid m = true) \/ (exists u n, v = mk u n /\ in_i64 n = true).
Proof.
  intros v H Ho. destruct v; try discriminate H; cbn in Ho;
    [right; exists USec|right; exists UMin|right; exists UHour|right; exists UDay|right; exists UMonth|right; exists UYear|left]; eauto.
Qed.
Lemma mk_count : forall u n, secs (mk u n) / unit_secs (finest (mk u n)) = n.
Proof. intros. rewrite finer_mk, secs_mk. apply count_of. reflexivity. Qed.

Lemma plus_values_correct : forall v w, is_value v = true -> tt_ok v = true -> is_value w = true -> tt_ok w = true -> ev md (CAdd v w) = plus_values md v w.
Proof.
  intros v w Hv Hov Hw How. destruct (value_cases w Hw How) as [(m & -> & Hm)|(u & n & -> & Hn)].
  - rewrite ev_eq by (split; assumption). destruct v; try discriminate Hv; cbn [body add plus_values]; try reflexivity. 
  - change (ev md (CAdd v (mk u n))) with (calculate md (Addition v (mk u n))).
    destruct (value_cases v Hv Hov) as [(m & -> & Hm)|(u' & n' & -> & Hn')].
    + rewrite forward_correct by assumption. pose proof (mk_count u n) as E. pose proof (finer_mk u n) as F. rewrite F in E.
      unfold plus_values. rewrite F, E. destruct u; reflexivity.
    + rewrite amount_of_correct; [destruct u, u'; reflexivity| |]; cbn [tt_ok amount_only]; rewrite ?ok_mk, ?amount_mk, ?Hn, ?Hn'; reflexivity.
Qed.
Lemma minus_values_correct : forall v w, is_value v = true -> tt_ok v = true -> is_value w = true -> tt_ok w = true -> ev md (CSub v w) = minus_values md v w.
Proof.
  intros v w Hv Hov Hw How. destruct (value_cases w Hw How) as [(m & -> & Hm)|(u & n & -> & Hn)].
  - rewrite ev_eq by (split; assumption). destruct v; try discriminate Hv; cbn [body sub minus_values];
      rewrite ev_eq by (first [assumption | split; assumption]); reflexivity.
  - change (ev md (CSub v (mk u n))) with (calculate md (Subtraction v (mk u n))).
    destruct (value_cases v Hv Hov) as [(m & -> & Hm)|(u' & n' & -> & Hn')].
    + rewrite backward_correct by assumption. pose proof (mk_count u n) as E. pose proof (finer_mk u n) as F. rewrite F in E.
      unfold minus_values. rewrite F, E. destruct u; reflexivity.
    + rewrite amount_of_correct; [destruct u, u'; reflexivity| |]; cbn [tt_ok amount_only]; rewrite ?ok_mk, ?amount_mk, ?Hn, ?Hn'; reflexivity.
Qed.
Lemma plus_values_comm : forall u v n k, in_i64 n = true -> in_i64 k = true -> plus_values md (mk u n) (mk v k) = plus_values md (mk v k) (mk u n).
Proof.
  intros u v n k Hn Hk.
  rewrite <- !plus_values_correct by (first [rewrite ok_mk; assumption | destruct u; reflexivity | destruct v; reflexivity]).
  apply leaf_comm; assumption.
Qed.

(** A value on the left. *)
Lemma add_value : forall v b, is_value v = true -> tt_ok v = true -> tt_ok b = true ->
  ev md (CAdd v b) = match b with Moment _ => Err (CannotAdd v b) | _ => if is_end b then Err (CannotAdd v b) else do w <- ev md (CCalc b); plus_values md v w end.
Proof.
  intros v b Hv Hov Hb.
  destruct b; cbn [is_end]; try (rewrite plus_values_correct by (assumption || reflexivity); destruct v; try discriminate Hv; reflexivity).
  - rewrite (ev_eq md (CCalc _)) by exact Hb. cbn [body do_calculate]. cbn [tt_ok] in Hb. apply andb_true_iff in Hb.
    rewrite ev_eq by (split; [assumption|apply andb_true_iff; exact Hb]). cbn [body].
    destruct v; try discriminate Hv; cbn [add]; (rewrite ev_eq by (try split; first [assumption | apply andb_true_iff; exact Hb])); cbn [body add_to_seconds add_to_minutes add_to_hours add_to_days add_to_months add_to_years add_to_moment];
    (destruct (ev md (CAdd b1 b2)) as [w| | |] eqn:E; try reflexivity; cbn [bind];
      destruct (ev_ok_value md (CAdd b1 b2) w Hb E) as [Hw How]; symmetry; rewrite <- plus_values_correct by assumption;
      rewrite ev_eq by (split; assumption); cbn [body]; destruct w; try discriminate Hw; cbn [add]; try reflexivity;
      rewrite ev_eq by (try split; assumption); reflexivity).
  - rewrite (ev_eq md (CCalc _)) by exact Hb. cbn [body do_calculate]. cbn [tt_ok] in Hb. apply andb_true_iff in Hb.
    rewrite ev_eq by (split; [assumption|apply andb_true_iff; exact Hb]). cbn [body].
    destruct v; try discriminate Hv; cbn [add]; (rewrite ev_eq by (try split; first [assumption | apply andb_true_iff; exact Hb])); cbn [body add_to_seconds add_to_minutes add_to_hours add_to_days add_to_months add_to_years add_to_moment];
    (destruct (ev md (CSub b1 b2)) as [w| | |] eqn:E; try reflexivity; cbn [bind];
      destruct (ev_ok_value md (CSub b1 b2) w Hb E) as [Hw How]; symmetry; rewrite <- plus_values_correct by assumption;
      rewrite ev_eq by (split; assumption); cbn [body]; destruct w; try discriminate Hw; cbn [add]; try reflexivity;
      rewrite ev_eq by (try split; assumption); reflexivity).
  - rewrite ev_eq by (split; assumption). destruct v; try discriminate Hv; cbn [body add]; rewrite ev_eq by (try split; assumption); reflexivity.
  - rewrite ev_eq by (split; assumption). destruct v; try discriminate Hv; cbn [body add]; rewrite ev_eq by (try split; assumption); reflexivity.
  - rewrite ev_eq by (split; assumption). destruct v; try discriminate Hv; cbn [body add]; rewrite ev_eq by (try split; assumption); reflexivity.
  - rewrite ev_eq by (split; assumption). destruct v; try discriminate Hv; cbn [body add]; rewrite ev_eq by (try split; assumption); reflexivity.
  - rewrite ev_eq by (split; assumption). destruct v; try discriminate Hv; cbn [body add]; rewrite ev_eq by (try split; assumption); reflexivity.
Qed.
Lemma sub_value : forall v b, is_value v = true -> tt_ok v = true -> tt_ok b = true ->
  ev md (CSub v b) = match b with Moment _ => Err (CannotSub v b) | _ => if is_end b then Err (CannotSub v b) else do w <- ev md (CCalc b); minus_values md v w end.
Proof.
  intros v b Hv Hov Hb.
  destruct b; cbn [is_end]; try (rewrite minus_values_correct by (assumption || reflexivity); destruct v; try discriminate Hv; reflexivity).
  - rewrite (ev_eq md (CCalc _)) by exact Hb. cbn [body do_calculate]. cbn [tt_ok] in Hb. apply andb_true_iff in Hb.
    rewrite ev_eq by (split; [assumption|apply andb_true_iff; exact Hb]). cbn [body].
    destruct v; try discriminate Hv; cbn [sub]; (rewrite ev_eq by (try split; first [assumption | apply andb_true_iff; exact Hb])); cbn [body sub_from_seconds sub_from_minutes sub_from_hours sub_from_days sub_from_months sub_from_years sub_from_moment];
    (destruct (ev md (CAdd b1 b2)) as [w| | |] eqn:E; try reflexivity; cbn [bind];
      destruct (ev_ok_value md (CAdd b1 b2) w Hb E) as [Hw How]; symmetry; rewrite <- minus_values_correct by assumption;
      rewrite ev_eq by (split; assumption); cbn [body]; destruct w; try discriminate Hw; cbn [sub]; try reflexivity;
      rewrite ev_eq by (try split; assumption); reflexivity).
  - rewrite (ev_eq md (CCalc _)) by exact Hb. cbn [body do_calculate]. cbn [tt_ok] in Hb. apply andb_true_iff in Hb.
    rewrite ev_eq by (split; [assumption|apply andb_true_iff; exact Hb]). cbn [body].
    destruct v; try discriminate Hv; cbn [sub]; (rewrite ev_eq by (try split; first [assumption | apply andb_true_iff; exact Hb])); cbn [body sub_from_seconds sub_from_minutes sub_from_hours sub_from_days sub_from_months sub_from_years sub_from_moment];
    (destruct (ev md (CSub b1 b2)) as [w| | |] eqn:E; try reflexivity; cbn [bind];
      destruct (ev_ok_value md (CSub b1 b2) w Hb E) as [Hw How]; symmetry; rewrite <- minus_values_correct by assumption;
      rewrite ev_eq by (split; assumption); cbn [body]; destruct w; try discriminate Hw; cbn [sub]; try reflexivity;
      rewrite ev_eq by (try split; assumption); reflexivity).
  - rewrite ev_eq by (split; assumption). destruct v; try discriminate Hv; cbn [body sub]; rewrite ev_eq by (try split; assumption); reflexivity.
  - rewrite ev_eq by (split; assumption). destruct v; try discriminate Hv; cbn [body sub]; rewrite ev_eq by (try split; assumption); reflexivity.
  - rewrite ev_eq by (split; assumption). destruct v; try discriminate Hv; cbn [body sub]; rewrite ev_eq by (try split; assumption); reflexivity.
  - rewrite ev_eq by (split; assumption). destruct v; try discriminate Hv; cbn [body sub]; rewrite ev_eq by (try split; assumption); reflexivity.
  - rewrite ev_eq by (split; assumption). destruct v; try discriminate Hv; cbn [body sub]; rewrite ev_eq by (try split; assumption); reflexivity.
Qed.

Lemma ended_correct : forall k t, tt_ok t = true -> calculate md t = answer md t -> calculate md (end_of k t) = ended k (answer md t).
Proof. intros k t Ht H. rewrite end_complete by exact Ht. rewrite H. unfold ended. destruct (answer md t) as [v| | |]; reflexivity. Qed.

Lemma ok_pair : forall a b, tt_ok a && tt_ok b = true -> tt_ok a = true /\ tt_ok b = true.
Proof. intros. apply andb_true_iff. assumption. Qed.
Definition right (t : timetype) : Prop := tt_ok t = true -> ev md (CCalc t) = answer md t.
Lemma right_add : forall a b, right (Addition a b) -> tt_ok a = true -> tt_ok b = true -> ev md (CAdd a b) = answer md (Addition a b).
Proof. intros a b H Ha Hb. change (ev md (CCalc (Addition a b)) = answer md (Addition a b)). apply H. cbn [tt_ok]. rewrite Ha, Hb. reflexivity. Qed.
Lemma right_sub : forall a b, right (Subtraction a b) -> tt_ok a = true -> tt_ok b = true -> ev md (CSub a b) = answer md (Subtraction a b).
Proof. intros a b H Ha Hb. change (ev md (CCalc (Subtraction a b)) = answer md (Subtraction a b)). apply H. cbn [tt_ok]. rewrite Ha, Hb. reflexivity. Qed.
Lemma right_value : forall t v, right t -> tt_ok t = true -> answer md t = Ok v -> is_value v = true /\ tt_ok v = true.
Proof. intros t v H Ht E. apply (ev_ok_value md (CCalc t)); [exact Ht|]. rewrite H by exact Ht. exact E. Qed.
Lemma add_value' : forall v b, right b -> is_value v = true -> tt_ok v = true -> tt_ok b = true ->
  ev md (CAdd v b) = match b with Moment _ => Err (CannotAdd v b) | _ => if is_end b then Err (CannotAdd v b) else do w <- answer md b; plus_values md v w end.
Proof. intros v b H Hv Hov Hb. rewrite add_value by assumption. rewrite (H Hb). reflexivity. Qed.
Lemma sub_value' : forall v b, right b -> is_value v = true -> tt_ok v = true -> tt_ok b = true ->
  ev md (CSub v b) = match b with Moment _ => Err (CannotSub v b) | _ => if is_end b then Err (CannotSub v b) else do w <- answer md b; minus_values md v w end.
Proof. intros v b H Hv Hov Hb. rewrite sub_value by assumption. rewrite (H Hb). reflexivity. Qed.

(** A difference or an end on the left, a value on the right. *)
Lemma diff_add : forall a1 a2 w, right (Subtraction a1 a2) -> tt_ok (Subtraction a1 a2) = true -> is_value w = true -> tt_ok w = true ->
  ev md (CAdd (Subtraction a1 a2) w) = moment_or_else w (Err (CannotAdd (Subtraction a1 a2) w)) (do v <- answer md (Subtraction a1 a2); plus_values md w v).
Proof.
  intros a1 a2 w Ra Ha Hw How. destruct (ok_pair _ _ Ha) as [Ha1 Ha2]. rewrite ev_eq by (split; assumption). cbn [body].
  assert (G : (do bx <- ev md (CSub a1 a2); ev md (CAdd w bx)) = (do v <- answer md (Subtraction a1 a2); plus_values md w v)).
  { rewrite (right_sub a1 a2 Ra Ha1 Ha2). destruct (answer md (Subtraction a1 a2)) as [v| | |] eqn:E; try reflexivity. cbn [bind].
    destruct (right_value _ _ Ra Ha E) as [Hv Hov]. apply plus_values_correct; assumption. }
  destruct w; try discriminate Hw; cbn [add moment_or_else]; first [exact G | reflexivity].
Qed.
Lemma end_add : forall a w, is_end a = true -> tt_ok a = true -> is_value w = true -> tt_ok w = true ->
  ev md (CAdd a w) = Err (moment_or_else w (CannotAdd a w) (CannotAdd w a)).
Proof.
  intros a w Ea Ha Hw How. rewrite ev_eq by (split; assumption). cbn [body].
  destruct a; try discriminate Ea; destruct w; try discriminate Hw; reflexivity.
Qed.
Lemma end_sub : forall a w, is_end a = true -> tt_ok a = true -> is_value w = true -> tt_ok w = true -> ev md (CSub a w) = Err (CannotSub w a).
Proof.
  intros a w Ea Ha Hw How. rewrite ev_eq by (split; assumption). cbn [body].
  destruct a; try discriminate Ea; destruct w; try discriminate Hw; reflexivity.
Qed.

Lemma add_right : forall a b, right a -> right b -> (forall c d, b = Subtraction c d -> right c) -> tt_ok a = true -> tt_ok b = true ->
  ev md (CAdd a b) = answer md (Addition a b).
Proof.
  intros a b Ra Rb Rc Ha Hb.
  destruct (is_value a) eqn:Va.
  { rewrite add_value' by assumption. destruct a; try discriminate Va; destruct b; cbn [answer is_end is_diff is_sum is_moment_leaf andb bind]; reflexivity. }
  assert (B : call_ok (CAdd a b)) by (split; assumption). rewrite (ev_eq md _ B). cbn [body]. clear B.
  destruct (is_end a) eqn:Ea.
  { (* an end *)
    destruct (is_value b) eqn:Vb.
    { destruct a; try discriminate Ea; destruct b; try discriminate Vb; cbn [add sub answer is_end is_diff is_sum is_moment_leaf andb]; reflexivity. }
    destruct (is_end b) eqn:Eb.
    { destruct a; try discriminate Ea; destruct b; try discriminate Eb; cbn [add sub answer is_end is_diff is_sum is_moment_leaf andb]; reflexivity. }
    destruct b as [n|n|n|n|n|n|m|b1 b2|b1 b2|e|e|e|e|e]; try discriminate Vb; try discriminate Eb; destruct (ok_pair _ _ Hb) as [Hb1 Hb2].
    - assert (G : (do bx <- ev md (CAdd b1 b2); ev md (CAdd a bx)) =
        (do w <- answer md (Addition b1 b2); Err (moment_or_else w (CannotAdd a w) (CannotAdd w a)))).
      { rewrite (right_add b1 b2 Rb Hb1 Hb2). destruct (answer md (Addition b1 b2)) as [w| | |] eqn:E; try reflexivity. cbn [bind].
        destruct (right_value _ _ Rb Hb E) as [Hw How]. apply end_add; assumption. }
      destruct a; try discriminate Ea; exact G.
    - assert (G : (do bx <- ev md (CCalc b1); do rx <- ev md (CAdd a bx); ev md (CSub rx b2)) =
        (do w <- answer md b1; Err (moment_or_else w (CannotAdd a w) (CannotAdd w a)))).
      { specialize (Rc b1 b2 eq_refl). rewrite (Rc Hb1). destruct (answer md b1) as [w| | |] eqn:E; try reflexivity. cbn [bind].
        destruct (right_value _ _ Rc Hb1 E) as [Hw How]. rewrite end_add by assumption. reflexivity. }
      destruct a; try discriminate Ea; exact G. }
  destruct a as [n|n|n|n|n|n|m|a1 a2|a1 a2|e|e|e|e|e]; try discriminate Va; try discriminate Ea; destruct (ok_pair _ _ Ha) as [Ha1 Ha2].
  - (* a sum *)
    assert (G : (do bx <- ev md (CAdd a1 a2); ev md (CAdd bx b)) =
      match b with Moment _ => do bx <- answer md (Addition a1 a2); Err (CannotAdd bx b)
      | _ => do v <- answer md (Addition a1 a2); if is_end b then Err (CannotAdd v b) else do w <- answer md b; plus_values md v w end).
    { rewrite (right_add a1 a2 Ra Ha1 Ha2). destruct (answer md (Addition a1 a2)) as [v| | |] eqn:E; try (destruct b; reflexivity). cbn [bind].
      destruct (right_value _ _ Ra Ha E) as [Hv Hov]. rewrite add_value' by assumption. destruct b; reflexivity. }
    destruct b; cbn [add]; try reflexivity; exact G.
  - (* a difference *)
    assert (L : forall f, (forall v, is_value v = true -> tt_ok v = true -> ev md (CAdd b v) = f v) ->
      (do bx <- ev md (CSub a1 a2); ev md (CAdd b bx)) = (do v <- answer md (Subtraction a1 a2); f v)).
    { intros f Hf. rewrite (right_sub a1 a2 Ra Ha1 Ha2). destruct (answer md (Subtraction a1 a2)) as [v| | |] eqn:E; try reflexivity. cbn [bind].
      destruct (right_value _ _ Ra Ha E) as [Hv Hov]. apply Hf; assumption. }
    destruct (is_end b) eqn:Eb.
    { assert (G := L _ (fun v Hv Hov => end_add b v Eb Hb Hv Hov)).
      transitivity (do bx <- ev md (CSub a1 a2); ev md (CAdd b bx)); [destruct b; try discriminate Eb; reflexivity|]. rewrite G.
      assert (K : answer md (Addition (Subtraction a1 a2) b) = do v <- answer md (Subtraction a1 a2); moment_or_else v (Err (CannotAdd b v)) (if is_end b then Err (CannotAdd v b) else do w <- answer md b; plus_values md v w)).
      { destruct b; try discriminate Eb; reflexivity. }
      rewrite K, Eb. destruct (answer md (Subtraction a1 a2)) as [v| | |]; try reflexivity. destruct v; reflexivity. }
    destruct (is_value b) eqn:Vb.
    { assert (G := L _ (fun v Hv Hov => plus_values_correct b v Vb Hb Hv Hov)).
      destruct (value_cases b Vb Hb) as [(m & -> & Hm)|(u & n & -> & Hn)]; [reflexivity|].
      transitivity (do bx <- ev md (CSub a1 a2); ev md (CAdd (mk u n) bx)); [destruct u; reflexivity|]. rewrite G.
      assert (K : answer md (Addition (Subtraction a1 a2) (mk u n)) = do v <- answer md (Subtraction a1 a2); moment_or_else v (Err (CannotAdd (mk u n) v)) (plus_values md v (mk u n))).
      { destruct u; reflexivity. }
      rewrite K. destruct (answer md (Subtraction a1 a2)) as [v| | |] eqn:E; try reflexivity. cbn [bind].
      destruct (right_value _ _ Ra Ha E) as [Hv Hov]. destruct (value_cases v Hv Hov) as [(m & -> & Hm)|(u' & n' & -> & Hn')].
      - destruct u; reflexivity.
      - rewrite plus_values_comm by assumption. destruct u'; reflexivity. }
    destruct b as [n|n|n|n|n|n|m|b1 b2|b1 b2|e|e|e|e|e]; try discriminate Vb; try discriminate Eb; destruct (ok_pair _ _ Hb) as [Hb1 Hb2].
    + cbn [add]. rewrite (right_add b1 b2 Rb Hb1 Hb2).
      change (answer md (Addition (Subtraction a1 a2) (Addition b1 b2))) with
        (do w <- answer md (Addition b1 b2); moment_or_else w (Err (CannotAdd (Subtraction a1 a2) w)) (do v <- answer md (Subtraction a1 a2); plus_values md w v)).
      destruct (answer md (Addition b1 b2)) as [w| | |] eqn:E; try reflexivity. cbn [bind].
      destruct (right_value _ _ Rb Hb E) as [Hw How]. apply diff_add; assumption.
    + exact (L _ (fun v Hv Hov => diff_add b1 b2 v Rb Hb Hv Hov)).
Qed.

Lemma sub_right : forall a b, right a -> right b -> (forall c d, b = Addition c d -> right c) -> tt_ok a = true -> tt_ok b = true ->
  ev md (CSub a b) = answer md (Subtraction a b).
Proof.
  intros a b Ra Rb Rc Ha Hb.
  destruct (is_value a) eqn:Va.
  { rewrite sub_value' by assumption. destruct a; try discriminate Va; destruct b; cbn [answer is_end is_diff is_sum is_moment_leaf andb bind]; reflexivity. }
  assert (B : call_ok (CSub a b)) by (split; assumption). rewrite (ev_eq md _ B). cbn [body]. clear B.
  destruct (is_end a) eqn:Ea.
  { (* an end *)
    destruct (is_value b) eqn:Vb.
    { destruct a; try discriminate Ea; destruct b; try discriminate Vb; cbn [add sub answer is_end is_diff is_sum is_moment_leaf andb]; reflexivity. }
    destruct (is_end b) eqn:Eb.
    { destruct a; try discriminate Ea; destruct b; try discriminate Eb; cbn [add sub answer is_end is_diff is_sum is_moment_leaf andb]; reflexivity. }
    destruct b as [n|n|n|n|n|n|m|b1 b2|b1 b2|e|e|e|e|e]; try discriminate Vb; try discriminate Eb; destruct (ok_pair _ _ Hb) as [Hb1 Hb2].
    - assert (G : (do bx <- ev md (CCalc b1); do rx <- ev md (CSub a bx); ev md (CAdd rx b2)) = (do w <- answer md b1; Err (CannotSub w a))).
      { specialize (Rc b1 b2 eq_refl). rewrite (Rc Hb1). destruct (answer md b1) as [w| | |] eqn:E; try reflexivity. cbn [bind].
        destruct (right_value _ _ Rc Hb1 E) as [Hw How]. rewrite end_sub by assumption. reflexivity. }
      destruct a; try discriminate Ea; exact G.
    - assert (G : (do bx <- ev md (CSub b1 b2); ev md (CSub a bx)) = (do w <- answer md (Subtraction b1 b2); Err (CannotSub w a))).
      { rewrite (right_sub b1 b2 Rb Hb1 Hb2). destruct (answer md (Subtraction b1 b2)) as [w| | |] eqn:E; try reflexivity. cbn [bind].
        destruct (right_value _ _ Rb Hb E) as [Hw How]. apply end_sub; assumption. }
      destruct a; try discriminate Ea; exact G. }
  assert (G : forall r, (r = answer md a) -> (do v <- r; ev md (CSub v b)) =
    (do v <- answer md a; if is_end b then Err (CannotSub v b) else do w <- answer md b; minus_values md v w)).
  { intros r ->. destruct (answer md a) as [v| | |] eqn:E; try reflexivity. cbn [bind].
    destruct (right_value _ _ Ra Ha E) as [Hv Hov]. rewrite sub_value' by assumption. destruct b; try reflexivity. destruct v; reflexivity. }
  destruct a as [n|n|n|n|n|n|m|a1 a2|a1 a2|e|e|e|e|e]; try discriminate Va; try discriminate Ea; destruct (ok_pair _ _ Ha) as [Ha1 Ha2].
  - (* a sum *)
    specialize (G _ (right_add a1 a2 Ra Ha1 Ha2)).
    destruct b as [n|n|n|n|n|n|m|b1 b2|b1 b2|e|e|e|e|e]; try exact G.
    destruct (ok_pair _ _ Hb) as [Hb1 Hb2]. cbn [sub]. rewrite (right_sub b1 b2 Rb Hb1 Hb2).
    change (answer md (Subtraction (Addition a1 a2) (Subtraction b1 b2))) with
      (do w <- answer md (Subtraction b1 b2); do v <- answer md (Addition a1 a2); minus_values md v w).
    destruct (answer md (Subtraction b1 b2)) as [w| | |] eqn:E; try reflexivity. cbn [bind].
    destruct (right_value _ _ Rb Hb E) as [Hw How]. rewrite ev_eq by (split; assumption). cbn [body].
    transitivity (do bx <- ev md (CAdd a1 a2); ev md (CSub bx w)); [destruct w; try discriminate Hw; reflexivity|].
    rewrite (right_add a1 a2 Ra Ha1 Ha2). destruct (answer md (Addition a1 a2)) as [v| | |] eqn:Ev; try reflexivity. cbn [bind].
    destruct (right_value _ _ Ra Ha Ev) as [Hv Hov]. apply minus_values_correct; assumption.
  - (* a difference *)
    specialize (G _ (right_sub a1 a2 Ra Ha1 Ha2)). destruct b; exact G.
Qed.

Lemma all_right : forall n t, (size t < n)%nat -> right t.
Proof.
  induction n as [|n IH]; intros t Hn; [lia|].
  destruct t as [k|k|k|k|k|k|m|a b|a b|e|e|e|e|e]; intro Ht; try (rewrite ev_eq by exact Ht; reflexivity); cbn [size] in Hn.
  - destruct (ok_pair _ _ Ht) as [Ha Hb]. rewrite ev_eq by exact Ht. cbn [body do_calculate]. apply add_right; try assumption; try (apply IH; lia).
    intros c d ->. cbn [size] in Hn. apply IH. lia.
  - destruct (ok_pair _ _ Ht) as [Ha Hb]. rewrite ev_eq by exact Ht. cbn [body do_calculate]. apply sub_right; try assumption; try (apply IH; lia).
    intros c d ->. cbn [size] in Hn. apply IH. lia.
  - exact (ended_correct SpecMoment.PYear e Ht (IH e ltac:(lia) Ht)).
  - exact (ended_correct SpecMoment.PMonth e Ht (IH e ltac:(lia) Ht)).
  - exact (ended_correct SpecMoment.PDay e Ht (IH e ltac:(lia) Ht)).
  - exact (ended_correct SpecMoment.PHour e Ht (IH e ltac:(lia) Ht)).
  - exact (ended_correct SpecMoment.PMinute e Ht (IH e ltac:(lia) Ht)).
Qed.
Lemma answer_correct : forall t, tt_ok t = true -> calculate md t = answer md t.
Proof. intros t Ht. exact (all_right (S (size t)) t (Nat.lt_succ_diag_r _) Ht). Qed.
End Answer.
