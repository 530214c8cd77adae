(** Proofs about the calls made by iterators (C103). *)
Require Import ZArith Bool List Lia.
From Verif Require Import Prelude Spec Chrono Util TimeType Iter SpecTree SpecMoment SpecIter SpecExact SpecCalls SpecIterCalls
  PreludeProofs EvalProofs AmountProofs ShapeProofs CompProofs SubProofs2 IterProofs IterProofs2 HeldProofs CallsProofs.
Import ListNotations.

Section Mode.
Variable md : mode.
Lemma plain_calls : forall N b u n, (3 <= N)%nat -> calls md N (CCalc (Addition (Moment b) (mk u n))) = 3%nat.
Proof. intros N b u n L. destruct N as [|[|[|N]]]; try lia. destruct u; reflexivity. Qed.

Definition wrapped (j : nat) (b : datetime) (t : timetype) : timetype := Nat.iter j (fun x => Addition x t) (Moment b).
Lemma plain_run : forall N b u n, run md (S (S N)) (CAdd (Moment b) (mk u n)) = run md 2 (CAdd (Moment b) (mk u n)).
Proof. intros N b u n. destruct u; reflexivity. Qed.
Lemma chain : forall b u n e, run md 2 (CAdd (Moment b) (mk u n)) = Err e -> forall j N, (j + 2 <= N)%nat ->
  run md N (CAdd (wrapped j b (mk u n)) (mk u n)) = Err e /\ calls md N (CAdd (wrapped j b (mk u n)) (mk u n)) = (j + 2)%nat.
Proof.
  intros b u n e E. induction j as [|j IH]; intros N L.
  - destruct N as [|[|N]]; try lia. split; [exact (eq_trans (plain_run N b u n) E)|]. destruct u; reflexivity.
  - destruct N as [|N]; try lia. destruct (IH N ltac:(lia)) as [R C]. change (wrapped (S j) b (mk u n)) with (Addition (wrapped j b (mk u n)) (mk u n)).
    set (x := wrapped j b (mk u n)) in *. clearbody x.
    assert (B : run md (S N) (CAdd (Addition x (mk u n)) (mk u n)) = bind (run md N (CAdd x (mk u n))) (fun v => run md N (CAdd v (mk u n)))).
    { destruct u; reflexivity. }
    rewrite B, R. split; [reflexivity|].
    assert (D : calls md (S N) (CAdd (Addition x (mk u n)) (mk u n)) = S (list_sum (map (calls md N) (andthen (run md N) (CAdd x (mk u n)) (fun v => [CAdd v (mk u n)]))))).
    { destruct u; reflexivity. }
    rewrite D. unfold andthen. rewrite R. cbn [map list_sum fold_right]. rewrite C. lia.
Qed.
Lemma item_calls : forall m u n it k v, build m (mk u n) = Ok it -> dt_valid m = true -> in_i64 n = true ->
  nth_item (iter_next md) k it = Some (Ok v) -> forall N, (3 <= N)%nat -> next_calls md N (after (iter_next md) (S k) it) = 3%nat.
Proof.
  intros m u n it k v B Hm Hn H N L. destruct (items_held md m u n it k v B Hm Hn H) as (b & _ & _ & A). rewrite A.
  unfold next_calls, at_moment. cbn [had_first base increment]. now apply plain_calls.
Qed.
Lemma error_calls : forall m u n it K e, build m (mk u n) = Ok it -> dt_valid m = true -> in_i64 n = true ->
  nth_item (iter_next md) (S K) it = Some (Err e) -> forall b, nth_item (iter_next md) K it = Some (Ok (Moment b)) ->
  forall j N, (j + 3 <= N)%nat -> next_calls md N (after (iter_next md) (S K + j) it) = (j + 3)%nat.
Proof.
  intros m u n it K e B Hm Hn HE b HK j N L. rewrite (held_errors md m u n it K e B Hm Hn HE b HK j).
  destruct (items_held md m u n it K _ B Hm Hn HK) as (b' & E & Vb & A). injection E as <-.
  unfold next_calls. cbn [had_first base increment].
  assert (R : run md 2 (CAdd (Moment b) (mk u n)) = Err e).
  { unfold nth_item in HE. rewrite A in HE. rewrite next_later in HE by reflexivity. unfold step in HE. cbn [base increment at_moment] in HE.
    destruct (calculate md (Addition (Moment b) (mk u n))) as [w|e'|p|] eqn:Q; cbn [fst] in HE; try discriminate HE. injection HE as ->.
    assert (F : calculate md (Addition (Moment b) (mk u n)) = run md (S (S (S 0))) (CCalc (Addition (Moment b) (mk u n)))) by (destruct u; reflexivity).
    rewrite F in Q. exact Q. }
  destruct N as [|N]; [lia|]. destruct (chain b u n e R j N ltac:(lia)) as [_ C].
  change (calls md (S N) (CCalc (Addition ?a ?b))) with (S (list_sum (map (calls md N) [CAdd a b]))). unfold wrapped in C. cbn [map list_sum fold_right]. rewrite C. lia.
Qed.

Lemma total_add : forall N k l it, total_calls md N (k + l) it = (total_calls md N k it + total_calls md N l (after (iter_next md) k it))%nat.
Proof. intros N. induction k as [|k IH]; intros l it; [reflexivity|]. cbn [plus total_calls after]. rewrite IH. lia. Qed.
Lemma total_S : forall N k it, total_calls md N (S k) it = (total_calls md N k it + next_calls md N (after (iter_next md) k it))%nat.
Proof. intros N k it. replace (S k) with (k + 1)%nat by lia. rewrite total_add. cbn [total_calls]. lia. Qed.
Lemma total_later : forall u n, in_i64 n = true -> forall N, (3 <= N)%nat -> forall k m v, dt_valid m = true ->
  nth_item (iter_next md) k (at_moment u n m true) = Some (Ok v) -> total_calls md N (S k) (at_moment u n m true) = (3 * S k)%nat.
Proof.
  intros u n Hn N L. induction k as [|k IH]; intros m v Hm H.
  - cbn [total_calls]. unfold next_calls, at_moment. cbn [had_first base increment]. rewrite plain_calls by exact L. lia.
  - change (total_calls md N (S (S k)) (at_moment u n m true)) with
      (next_calls md N (at_moment u n m true) + total_calls md N (S k) (snd (iter_next md (at_moment u n m true))))%nat.
    unfold next_calls at 1. unfold at_moment at 1 2 3. cbn [had_first base increment]. rewrite plain_calls by exact L.
    assert (Ht : tt_ok (Addition (Moment m) (mk u n)) = true) by (cbn [tt_ok]; rewrite Hm, ok_mk; exact Hn).
    pose proof (calculate_good md _ Ht) as G; pose proof (calculate_shape md (Addition (Moment m) (mk u n))) as K.
    rewrite AdapterProofs2.nth_S in H. rewrite next_later in * by reflexivity. unfold step, at_moment in H |- *. cbn [base increment] in *.
    destruct (calculate md (Addition (Moment m) (mk u n))) as [w|e|p|] eqn:E; cbn [snd] in *.
    + assert (W : is_moment w = true) by (destruct u; exact K). destruct w; try discriminate W. pose proof (IH m0 v (proj2 G) H) as X. unfold at_moment in X. rewrite X. lia.
    + exfalso. revert H. apply never_again; [exact Hn|exact Ht|cbn [shape_of is_diff is_end orb]; rewrite shape_mk; reflexivity|rewrite E; reflexivity].
    + exfalso. revert H. apply never_again; [exact Hn|exact Ht|cbn [shape_of is_diff is_end orb]; rewrite shape_mk; reflexivity|rewrite E; reflexivity].
    + exfalso. revert H. apply never_again; [exact Hn|exact Ht|cbn [shape_of is_diff is_end orb]; rewrite shape_mk; reflexivity|rewrite E; reflexivity].
Qed.
Lemma total_items : forall m u n it k v, build m (mk u n) = Ok it -> dt_valid m = true -> in_i64 n = true ->
  nth_item (iter_next md) k it = Some (Ok v) -> forall N, (3 <= N)%nat -> total_calls md N (S k) it = (3 * k)%nat.
Proof.
  intros m u n it k v B Hm Hn H N L. apply build_at in B. subst it.
  change (total_calls md N (S k) (at_moment u n m false)) with (total_calls md N k (at_moment u n m true)).
  destruct k as [|k]; [reflexivity|]. rewrite fresh_item in H. exact (total_later u n Hn N L k m v Hm H).
Qed.
Lemma total_errors : forall m u n it K e, build m (mk u n) = Ok it -> dt_valid m = true -> in_i64 n = true ->
  nth_item (iter_next md) (S K) it = Some (Err e) -> forall b, nth_item (iter_next md) K it = Some (Ok (Moment b)) ->
  forall j N, (j + 3 <= N)%nat -> (2 * total_calls md N (S K + j) it = 2 * (3 * K) + j * (j + 5))%nat.
Proof.
  intros m u n it K e B Hm Hn HE b HK j N L. induction j as [|j IH].
  - replace (S K + 0)%nat with (S K) by lia. rewrite (total_items m u n it K _ B Hm Hn HK) by lia. lia.
  - replace (S K + S j)%nat with (S (S K + j)) by lia. rewrite total_S, (error_calls m u n it K e B Hm Hn HE b HK j N) by lia.
    specialize (IH ltac:(lia)). nia.
Qed.
End Mode.
(** next() evaluates one sum. *)
Lemma next_evaluates : forall md it,
  (had_first it = false -> fst (iter_next md it) = Some (Ok (base it)) /\ forall N, next_calls md N it = 0%nat) /\
  (had_first it = true -> fst (iter_next md it) = Some (calculate md (Addition (base it) (increment it))) /\
     forall N, next_calls md N it = calls md N (CCalc (Addition (base it) (increment it)))).
Proof.
  intros md it. unfold next_calls. split; intro H; rewrite H.
  - rewrite next_first by exact H. split; reflexivity.
  - rewrite next_later by exact H. split; [|reflexivity]. unfold step. destruct (calculate md _); reflexivity.
Qed.
