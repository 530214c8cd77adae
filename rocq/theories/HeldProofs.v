(** What a stepping iterator holds: a single moment as long as its items succeed, an expression that grows afterwards. *)
Require Import ZArith Bool List Lia.
From Verif Require Import Prelude Spec Chrono Util TimeType Iter SpecTree SpecMoment SpecIter SpecExact PreludeProofs EvalProofs AmountProofs ShapeProofs CompProofs SubProofs2 IterProofs IterProofs2 AdapterProofs2.
Local Open Scope Z_scope.

Section Held.
Variable md : mode.

Lemma nodes_mk : forall u n, nodes (mk u n) = 1.
Proof. destruct u; reflexivity. Qed.

Lemma grows_step : forall e it o, stuck md e it -> nodes (base (snd (perform md o it))) = nodes (base it) + 2.
Proof.
  intros e [b i h] o [(Hb & Hi & Ha) (Hbin & E & Hf)]. cbn [base increment had_first] in *. subst h.
  destruct (is_amount_mk i Ha) as (u & n & ->). rewrite ok_mk in Hi.
  pose proof (err_add md b u n e Hb Hi Hbin E) as EA. pose proof (err_sub md b u n e Hb Hi Hbin E) as ES.
  destruct o; unfold perform.
  - rewrite next_later by reflexivity. unfold step. cbn [base increment]. rewrite EA. cbn [snd base nodes]. rewrite nodes_mk. lia.
  - unfold skip, recalculate, op_add_assign. cbn [base increment had_first]. rewrite EA. cbn [snd base nodes]. rewrite nodes_mk. lia.
  - unfold rollback, recalculate, op_sub_assign. cbn [base increment had_first]. rewrite ES. cbn [snd base nodes]. rewrite nodes_mk. lia.
Qed.
Lemma grows_all : forall os e it, stuck md e it -> nodes (base (performs md os it)) = nodes (base it) + 2 * Z.of_nat (List.length os).
Proof.
  induction os as [|o os IH]; intros e it H; [cbn; lia|]. cbn [performs List.length]. rewrite (IH e) by (apply stuck_step; exact H).
  rewrite (grows_step e) by exact H. lia.
Qed.
(** After an error every operation adds two nodes. *)
Lemma error_grows : forall it e it' os, iter_ok it -> iter_next md it = (Some (Err e), it') ->
  nodes (base (performs md os it')) = nodes (base it) + 2 + 2 * Z.of_nat (List.length os).
Proof.
  intros it e it' os Hok H. pose proof (next_err_stuck md it e it' Hok H) as K. rewrite (grows_all os e it' K).
  destruct (had_first it) eqn:Hf.
  - rewrite next_later in H by exact Hf. destruct Hok as (Hb & Hi & Ha). destruct (is_amount_mk _ Ha) as (u & n & Ei).
    destruct (calculate md (step it)) eqn:E; try discriminate H. injection H as _ <-. unfold step. cbn [base nodes]. rewrite Ei, nodes_mk. lia.
  - rewrite next_first in H by exact Hf. discriminate.
Qed.

(** A step that does not succeed never succeeds later. *)
Lemma never_again : forall u n, in_i64 n = true -> forall k a b v, tt_ok (Addition a b) = true -> shape_of (Addition a b) = SMoment -> isok (calculate md (Addition a b)) = false ->
  nth_item (iter_next md) k (mkiter (Addition a b) (mk u n) true) <> Some (Ok v).
Proof.
  intros u n Hn. induction k as [|k IH]; intros a b v Ht Hs E.
  all: assert (Hm : tt_ok (mk u n) = true) by (rewrite ok_mk; exact Hn).
  all: assert (S2 : shape_of (Addition (Addition a b) (mk u n)) = SMoment) by (change (shape_of (Addition (Addition a b) (mk u n))) with
    (match shape_of (Addition a b), shape_of (mk u n) with SAmount, SAmount => SAmount | SMoment, SAmount => SMoment | _, _ => SBad end); rewrite Hs, shape_mk; reflexivity).
  all: destruct (calc_add_comp md (Addition a b) (mk u n) Ht Hm ltac:(rewrite S2; discriminate)) as (_ & C & _); specialize (C E).
  - unfold nth_item. cbn [after]. rewrite next_later by reflexivity. unfold step. cbn [base increment].
    destruct (calculate md (Addition (Addition a b) (mk u n))); [discriminate C| | |]; discriminate.
  - rewrite nth_S, next_later by reflexivity. unfold step. cbn [base increment].
    destruct (calculate md (Addition (Addition a b) (mk u n))) eqn:E2; [discriminate C| | |]; cbn [snd];
      (apply IH; [change (tt_ok (Addition a b) && tt_ok (mk u n) = true); rewrite Ht; exact Hm|exact S2|rewrite E2; reflexivity]).
Qed.

(** Items that succeed leave a single moment. *)
Lemma later_held : forall u n, in_i64 n = true -> forall k m v, dt_valid m = true -> nth_item (iter_next md) k (at_moment u n m true) = Some (Ok v) ->
  exists b, v = Moment b /\ dt_valid b = true /\ after (iter_next md) (S k) (at_moment u n m true) = at_moment u n b true.
Proof.
  intros u n Hn. induction k as [|k IH]; intros m v Hm H.
  all: assert (Ht : tt_ok (Addition (Moment m) (mk u n)) = true) by (cbn [tt_ok]; rewrite Hm, ok_mk; exact Hn).
  all: pose proof (calculate_good md _ Ht) as G; pose proof (calculate_shape md (Addition (Moment m) (mk u n))) as K.
  all: assert (W : forall w, calculate md (Addition (Moment m) (mk u n)) = Ok w -> exists b, w = Moment b /\ dt_valid b = true)
    by (intros w E; rewrite E in G, K; assert (W : is_moment w = true) by (destruct u; exact K); destruct w; try discriminate W; eexists; split; [reflexivity|apply G]).
  - unfold nth_item in H. cbn [after] in *. rewrite next_later in * by reflexivity. unfold step, at_moment in *. cbn [base increment] in *.
    destruct (calculate md (Addition (Moment m) (mk u n))) as [w| | |]; cbn [fst snd] in *; try discriminate H. injection H as <-.
    destruct (W w eq_refl) as (b & -> & V). exists b. auto.
  - rewrite nth_S in H. change (after (iter_next md) (S (S k)) (at_moment u n m true)) with (after (iter_next md) (S k) (snd (iter_next md (at_moment u n m true)))).
    rewrite next_later in * by reflexivity. unfold step, at_moment in H |- *. cbn [base increment] in *.
    destruct (calculate md (Addition (Moment m) (mk u n))) as [w|e|p|] eqn:E; cbn [snd] in *.
    + destruct (W w eq_refl) as (b & -> & V). apply (IH b v V H).
    + exfalso. revert H. apply never_again; [exact Hn|exact Ht|cbn [shape_of is_diff is_end orb]; rewrite shape_mk; reflexivity|rewrite E; reflexivity].
    + exfalso. revert H. apply never_again; [exact Hn|exact Ht|cbn [shape_of is_diff is_end orb]; rewrite shape_mk; reflexivity|rewrite E; reflexivity].
    + exfalso. revert H. apply never_again; [exact Hn|exact Ht|cbn [shape_of is_diff is_end orb]; rewrite shape_mk; reflexivity|rewrite E; reflexivity].
Qed.
Lemma items_held : forall m u n it k v, build m (mk u n) = Ok it -> dt_valid m = true -> in_i64 n = true -> nth_item (iter_next md) k it = Some (Ok v) ->
  exists b, v = Moment b /\ dt_valid b = true /\ after (iter_next md) (S k) it = at_moment u n b true.
Proof.
  intros m u n it k v B Hm Hn H. apply build_at in B. subst it. destruct k as [|k].
  - cbn in H. injection H as <-. exists m. auto.
  - rewrite fresh_item in H. rewrite fresh_after. apply later_held; assumption.
Qed.
(** The expression held after the first error and [j] further calls of next(). *)
Lemma errors_held : forall it, had_first it = true -> forall j, (forall k, (k < j)%nat -> exists e, nth_item (iter_next md) k it = Some (Err e)) ->
  after (iter_next md) j it = mkiter (Nat.iter j (fun t => Addition t (increment it)) (base it)) (increment it) true.
Proof.
  intros it Hf. induction j as [|j IH]; intro H; [destruct it; cbn in *; subst; reflexivity|].
  rewrite after_S. destruct (H j ltac:(lia)) as [e E]. unfold nth_item in E. rewrite IH in E |- * by (intros; apply H; lia).
  rewrite next_later in E |- * by reflexivity. unfold step in *. cbn [base increment] in *.
  destruct (calculate md _); cbn [fst snd] in *; try discriminate E. reflexivity.
Qed.
Lemma held_errors : forall m u n it K e, build m (mk u n) = Ok it -> dt_valid m = true -> in_i64 n = true ->
  nth_item (iter_next md) (S K) it = Some (Err e) -> forall b, nth_item (iter_next md) K it = Some (Ok (Moment b)) ->
  forall j, after (iter_next md) (S K + j) it = mkiter (Nat.iter j (fun t => Addition t (mk u n)) (Moment b)) (mk u n) true.
Proof.
  intros m u n it K e B Hm Hn HE b HK j. destruct (items_held m u n it K _ B Hm Hn HK) as (b' & E & Vb & A). injection E as <-.
  rewrite after_add, A. apply (errors_held (at_moment u n b true)); [reflexivity|]. intros k _. exists e.
  assert (Q : nth_item (iter_next md) 0 (at_moment u n b true) = Some (Err e)).
  { replace (S K) with (S K + 0)%nat in HE by lia. rewrite nth_item_add, A in HE. exact HE. }
  destruct k as [|k]; [exact Q|]. unfold nth_item in Q. cbn [after] in Q. destruct (iter_next md (at_moment u n b true)) as [i it'] eqn:N. cbn [fst] in Q. subst i.
  rewrite nth_S, N. cbn [snd]. apply (sticky md _ _ _) with (2 := N). repeat split; cbn; [exact Vb|rewrite ok_mk; exact Hn|destruct u; reflexivity].
Qed.
End Held.
