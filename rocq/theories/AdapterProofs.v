(** Proofs about the iterator adapters of src/iter.rs. *)
Require Import ZArith Bool List Lia ZifyBool.
From Verif Require Import Prelude Spec PreludeProofs Chrono TimeType Matcher Iter SpecTree SpecMoment SpecIter SpecAdapt
  EvalProofs ShapeProofs CompProofs OrdProofs IterProofs IterProofs2.
Import ListNotations.
Local Open Scope Z_scope.

Section Times.
Variable md : mode.
Context {S : Type}.
Variable nx : next_fn S.

Lemma times_state : forall n s k, in_i64 n = true -> (n < 0 \/ Z.of_nat k <= n) -> Z.of_nat k <= i64_max ->
  after (times_next md nx) k (times_new s n) = mktimes (after nx k s) n (Z.of_nat k).
Proof.
  intros n s k Hn. induction k as [|k IH]; intros Hk Hm.
  - reflexivity.
  - rewrite !after_S, IH by lia. unfold times_next at 1. cbn [times count inner].
    destruct (n =? Z.of_nat k) eqn:E; [lia|].
    unfold addc. cbn [bind]. unfold arith.
    destruct (in_i64 (Z.of_nat k + 1)) eqn:E2; [|unfold in_i64, i64_min, i64_max in *; lia].
    destruct (nx (after nx k s)) as [r i']. cbn [snd]. f_equal. lia.
Qed.

Lemma times_pass : forall n s k, in_i64 n = true -> (n < 0 \/ Z.of_nat k < n) -> Z.of_nat k < i64_max ->
  nth_item (times_next md nx) k (times_new s n) = nth_item nx k s.
Proof.
  intros n s k Hn Hk Hm. unfold nth_item. rewrite times_state by (auto; lia).
  unfold times_next. cbn [times count inner].
  destruct (n =? Z.of_nat k) eqn:E; [lia|].
  unfold addc. cbn [bind]. unfold arith.
  destruct (in_i64 (Z.of_nat k + 1)) eqn:E2; [|unfold in_i64, i64_min, i64_max in *; lia].
  destruct (nx (after nx k s)) as [r i']. reflexivity.
Qed.

Lemma times_done : forall n s k, in_i64 n = true -> 0 <= n -> n <= Z.of_nat k ->
  nth_item (times_next md nx) k (times_new s n) = None /\
  inner (after (times_next md nx) k (times_new s n)) = after nx (Z.to_nat n) s.
Proof.
  intros n s k Hn H0 Hk.
  assert (Hs : forall j, after (times_next md nx) j (mktimes (after nx (Z.to_nat n) s) n n) = mktimes (after nx (Z.to_nat n) s) n n).
  { induction j as [|j IH]; [reflexivity|]. rewrite after_S, IH. unfold times_next. cbn [times count].
    rewrite Z.eqb_refl. reflexivity. }
  assert (Ha : after (times_next md nx) k (times_new s n) = mktimes (after nx (Z.to_nat n) s) n n).
  { replace k with (Z.to_nat n + (k - Z.to_nat n))%nat by lia. rewrite after_add, times_state.
    - rewrite Z2Nat.id by lia. apply Hs.
    - assumption.
    - right. lia.
    - unfold in_i64, i64_min, i64_max in *. lia. }
  unfold nth_item. rewrite Ha. split; [|reflexivity].
  unfold times_next. cbn [times count]. rewrite Z.eqb_refl. reflexivity.
Qed.

End Times.

(** With a negative bound the counter overflows after 2^63 - 1 items. *)
Lemma times_neg_checked : forall S (nx : next_fn S) n s k, in_i64 n = true -> n < 0 -> i64_max <= Z.of_nat k ->
  nth_item (times_next Checked nx) k (times_new s n) = Some (Panic PArith).
Proof.
  intros S nx n s k Hn H0 Hk.
  assert (HK : exists K, Z.of_nat K = i64_max).
  { exists (Z.to_nat i64_max). apply Z2Nat.id. discriminate. }
  destruct HK as [K HK].
  set (t := mktimes (after nx K s) n i64_max).
  assert (Hst : times_next Checked nx t = (Some (Panic PArith), t)).
  { unfold t, times_next. cbn [times count]. destruct (n =? i64_max) eqn:E; [unfold i64_max in *; lia|]. reflexivity. }
  assert (Hs : forall j, after (times_next Checked nx) j t = t).
  { induction j as [|j IH]; [reflexivity|]. rewrite after_S, IH, Hst. reflexivity. }
  unfold nth_item. replace k with (K + (k - K))%nat by lia.
  rewrite after_add, times_state by (auto; lia).
  rewrite HK. fold t. rewrite Hs, Hst. reflexivity.
Qed.

(** Without overflow checks the bound is read modulo 2^64. *)
Lemma times_wrap_state : forall S (nx : next_fn S) n s k, in_i64 n = true -> Z.of_nat k <= n mod 18446744073709551616 ->
  after (times_next Wrapping nx) k (times_new s n) = mktimes (after nx k s) n (wrap64 (Z.of_nat k)).
Proof.
  intros S nx n s k Hn. induction k as [|k IH]; intros Hk.
  - reflexivity.
  - rewrite !after_S, IH by lia. unfold times_next at 1. cbn [times count inner].
    assert (Hr : wrap64 (Z.of_nat k) <> n /\ (in_i64 (wrap64 (Z.of_nat k) + 1) = true -> wrap64 (Z.of_nat k) + 1 = wrap64 (Z.of_nat (Datatypes.S k)))
      /\ wrap64 (wrap64 (Z.of_nat k) + 1) = wrap64 (Z.of_nat (Datatypes.S k))).
    { unfold in_i64, i64_min, i64_max, wrap64 in *.
      set (M := 18446744073709551616) in *. assert (HM : M = 18446744073709551616) by reflexivity. clearbody M.
      assert (Hnm : 0 <= n mod M < M) by (apply Z.mod_pos_bound; lia).
      assert (Hkm : forall j, 0 <= j < M -> (j + 9223372036854775808) mod M = if j <? 9223372036854775808 then j + 9223372036854775808 else j - 9223372036854775808).
      { intros j Hj. destruct (j <? 9223372036854775808) eqn:E.
        - rewrite Z.mod_small; lia.
        - symmetry. apply (Z.mod_unique_pos _ _ 1); lia. }
      rewrite (Hkm (Z.of_nat k)), (Hkm (Z.of_nat (Datatypes.S k))) by lia.
      assert (Hn2 : n mod M = if n <? 0 then n + M else n).
      { destruct (n <? 0) eqn:E; [symmetry; apply (Z.mod_unique_pos _ _ (-1)); lia|rewrite Z.mod_small; lia]. }
      rewrite Hn2 in *.
      destruct (n <? 0) eqn:E0, (Z.of_nat k <? 9223372036854775808) eqn:E1, (Z.of_nat (Datatypes.S k) <? 9223372036854775808) eqn:E2;
        try (repeat split; [lia|lia|]);
        try lia;
        match goal with |- (?a mod M) - _ = _ => first [rewrite (Z.mod_small a M) by lia; lia | rewrite <- (Z.mod_unique_pos a M 1 (a - M)) by lia; lia] end. }
    destruct Hr as (Hr1 & Hr2 & Hr3).
    destruct (n =? wrap64 (Z.of_nat k)) eqn:E; [lia|].
    unfold addc. cbn [bind]. unfold arith.
    destruct (in_i64 (wrap64 (Z.of_nat k) + 1)) eqn:E2;
      destruct (nx (after nx k s)) as [r i']; cbn [snd]; f_equal; auto.
Qed.

Lemma times_wrap : forall S (nx : next_fn S) n s, in_i64 n = true ->
  let N := n mod 18446744073709551616 in
  (forall k, Z.of_nat k < N -> nth_item (times_next Wrapping nx) k (times_new s n) = nth_item nx k s) /\
  (forall k, N <= Z.of_nat k -> nth_item (times_next Wrapping nx) k (times_new s n) = None).
Proof.
  intros S nx n s Hn N.
  assert (HN : 0 <= N < 18446744073709551616) by (apply Z.mod_pos_bound; lia).
  assert (Hw : wrap64 N = n).
  { unfold N, wrap64. rewrite Zplus_mod_idemp_l, Z.mod_small; unfold in_i64, i64_min, i64_max in Hn; lia. }
  split; intros k Hk.
  - pose proof (times_wrap_state S nx n s (Datatypes.S k) Hn ltac:(fold N; lia)) as P1.
    unfold nth_item. rewrite times_wrap_state by (auto; fold N; lia).
    unfold times_next. cbn [times count inner].
    destruct (n =? wrap64 (Z.of_nat k)) eqn:E.
    + exfalso.
      assert (wrap64 (Z.of_nat k) mod 18446744073709551616 = N) by (unfold N; f_equal; lia).
      unfold wrap64 in H. rewrite Zminus_mod_idemp_l in H.
      replace (Z.of_nat k + 9223372036854775808 - 9223372036854775808) with (Z.of_nat k) in H by lia.
      rewrite Z.mod_small in H by lia. lia.
    + unfold addc. cbn [bind]. unfold arith.
      destruct (in_i64 (wrap64 (Z.of_nat k) + 1)) eqn:E2; destruct (nx (after nx k s)) as [r i']; reflexivity.
  - assert (HK : exists K, Z.of_nat K = N) by (exists (Z.to_nat N); apply Z2Nat.id; lia).
    destruct HK as [K HK].
    set (t := mktimes (after nx K s) n n).
    assert (Hst : times_next Wrapping nx t = (None, t)).
    { unfold t, times_next. cbn [times count]. rewrite Z.eqb_refl. reflexivity. }
    assert (Hs : forall j, after (times_next Wrapping nx) j t = t).
    { induction j as [|j IH]; [reflexivity|]. rewrite after_S, IH, Hst. reflexivity. }
    unfold nth_item. replace k with (K + (k - K))%nat by lia.
    rewrite after_add, times_wrap_state by (auto; fold N; lia).
    rewrite HK, Hw. fold t. rewrite Hs, Hst. reflexivity.
Qed.

(** ** until *)
Section Until.
Variable md : mode.
Context {S : Type}.
Variable nx : next_fn S.
Variable ending : datetime.

Lemma until_after : forall k s, after (until_next md nx ending) k s = after nx k s.
Proof.
  induction k; intro s; [reflexivity|]. cbn [after]. rewrite IHk. f_equal.
  unfold until_next. destruct (nx s) as [[[t|e|p|]|] s']; reflexivity.
Qed.
Lemma until_item : forall k s, nth_item (until_next md nx ending) k s = fst (until_next md nx ending (after nx k s)).
Proof. intros k s. unfold nth_item. rewrite until_after. reflexivity. Qed.

Lemma before_ltb : forall a b, dt_valid a = true -> dt_valid b = true -> (dt_ltb a b = true <-> before a b).
Proof.
  intros a b Ha Hb. rewrite dt_ltb_inst by assumption. unfold before.
  pose proof (nano_range a Ha). pose proof (nano_range b Hb). lia.
Qed.

Lemma until_moment : forall k s t m, dt_valid m = true -> dt_valid ending = true ->
  nth_item nx k s = Some (Ok t) -> calculate md t = Ok (Moment m) ->
  (before m ending -> nth_item (until_next md nx ending) k s = Some (Ok (Moment m))) /\
  (~ before m ending -> nth_item (until_next md nx ending) k s = None).
Proof.
  intros k s t m Hm He H E. rewrite until_item. unfold nth_item in H. unfold until_next.
  destruct (nx (after nx k s)) as [r s']. cbn [fst] in H. subst r. rewrite E. cbn [is_moment get_moment fst].
  destruct (dt_ltb m ending) eqn:L; split; intro B; try reflexivity.
  - elim B. apply before_ltb; assumption.
  - apply before_ltb in B; [|assumption|assumption]. congruence.
Qed.
Lemma until_other : forall k s t v, is_moment v = false ->
  nth_item nx k s = Some (Ok t) -> calculate md t = Ok v ->
  nth_item (until_next md nx ending) k s = Some (Err (ArgumentErrorNotAMoment (name v))).
Proof.
  intros k s t v Hv H E. rewrite until_item. unfold nth_item in H. unfold until_next.
  destruct (nx (after nx k s)) as [r s']. cbn [fst] in H. subst r. rewrite E, Hv. reflexivity.
Qed.
Lemma until_calc_err : forall k s t e, nth_item nx k s = Some (Ok t) -> calculate md t = Err e ->
  nth_item (until_next md nx ending) k s = Some (Err e).
Proof.
  intros k s t e H E. rewrite until_item. unfold nth_item in H. unfold until_next.
  destruct (nx (after nx k s)) as [r s']. cbn [fst] in H. subst r. rewrite E. reflexivity.
Qed.
Lemma until_rest : forall k s, (forall t, nth_item nx k s <> Some (Ok t)) ->
  nth_item (until_next md nx ending) k s = nth_item nx k s.
Proof.
  intros k s H. rewrite until_item. unfold nth_item in *. unfold until_next.
  destruct (nx (after nx k s)) as [[[t|e|p|]|] s']; try reflexivity. elim (H t). reflexivity.
Qed.

(** The first item that is not before the end. *)
Lemma until_first : forall s (f : nat -> datetime) K, dt_valid ending = true ->
  (forall k, (k <= K)%nat -> nth_item nx k s = Some (Ok (Moment (f k))) /\ dt_valid (f k) = true) ->
  ~ before (f K) ending ->
  exists k0, (k0 <= K)%nat /\ nth_item (until_next md nx ending) k0 s = None /\ ~ before (f k0) ending /\
    forall k, (k < k0)%nat -> nth_item (until_next md nx ending) k s = Some (Ok (Moment (f k))) /\ before (f k) ending.
Proof.
  intros s f K He Hf HK.
  assert (A : forall j, (j <= Datatypes.S K)%nat -> (exists k0, (k0 < j)%nat /\ ~ before (f k0) ending /\ forall k, (k < k0)%nat -> before (f k) ending)
    \/ forall k, (k < j)%nat -> before (f k) ending).
  { induction j as [|j IH]; intro Hj; [right; intros; lia|].
    destruct IH as [(k0 & H1 & H2)|H]; [lia|left; exists k0; split; [lia|exact H2]|].
    destruct (dt_ltb (f j) ending) eqn:L.
    - right. intros k Hk. destruct (Nat.eq_dec k j) as [->|N]; [|apply H; lia].
      apply before_ltb; [apply (Hf j); lia|assumption|assumption].
    - left. exists j. split; [lia|]. split; [|exact H]. intro B.
      apply before_ltb in B; [congruence|apply (Hf j); lia|assumption]. }
  destruct (A (Datatypes.S K)) as [(k0 & H1 & H2 & H3)|H]; [lia| |elim HK; apply H; lia].
  exists k0. split; [lia|].
  assert (M : forall k, (k <= K)%nat -> calculate md (Moment (f k)) = Ok (Moment (f k))).
  { intros k Hk. apply calc_value. reflexivity. }
  split; [|split; [exact H2|]].
  - destruct (Hf k0) as [F V]; [lia|]. apply (until_moment k0 s _ _ V He F (M k0 ltac:(lia))). exact H2.
  - intros k Hk. split; [|apply H3; exact Hk]. destruct (Hf k) as [F V]; [lia|].
    apply (until_moment k s _ _ V He F (M k ltac:(lia))). apply H3. exact Hk.
Qed.
End Until.

(** ** every and without *)
Section Filter.
Context {S : Type}.
Variable nx : next_fn S.
Variable m : matcher.

(** Both adapters, by the answer that drops an item. *)
Definition drop_next (b : bool) (fuel : nat) : next_fn S := if b then without_next nx fuel m else filter_next nx fuel m.

Lemma drop_eq : forall b fuel s, drop_next b (Datatypes.S fuel) s =
  if decided m b (fst (nx s)) then drop_next b fuel (snd (nx s)) else (seen m (fst (nx s)), snd (nx s)).
Proof.
  intros b fuel s. unfold drop_next. destruct b; cbn [filter_next without_next];
  destruct (nx s) as [[[t|e|p|]|] s']; cbn [fst snd decided seen]; try reflexivity;
  destruct (m t) as [[]|e|p|]; reflexivity.
Qed.

(** One call: skips to the first item that is not dropped. *)
Lemma drop_first : forall b j fuel s, (j < fuel)%nat ->
  (forall i, (i < j)%nat -> decided m b (nth_item nx i s) = true) -> decided m b (nth_item nx j s) = false ->
  drop_next b fuel s = (seen m (nth_item nx j s), after nx (Datatypes.S j) s).
Proof.
  intros b. induction j as [|j IH]; intros fuel s Hf Hd Hj; (destruct fuel as [|fuel]; [lia|]); rewrite drop_eq.
  - unfold nth_item in Hj. cbn [after] in Hj. rewrite Hj. reflexivity.
  - pose proof (Hd 0%nat ltac:(lia)) as H0. unfold nth_item in H0. cbn [after] in H0. rewrite H0.
    rewrite (IH fuel (snd (nx s))); [reflexivity|lia| |exact Hj].
    intros i Hi. apply (Hd (Datatypes.S i)). lia.
Qed.
Lemma drop_never : forall b fuel s, (forall i, (i < fuel)%nat -> decided m b (nth_item nx i s) = true) ->
  fst (drop_next b fuel s) = Some OutOfFuel.
Proof.
  intros b. induction fuel as [|fuel IH]; intros s H; [destruct b; reflexivity|]. rewrite drop_eq.
  pose proof (H 0%nat ltac:(lia)) as H0. unfold nth_item in H0. cbn [after] in H0. rewrite H0.
  apply IH. intros i Hi. apply (H (Datatypes.S i)). lia.
Qed.
(** More fuel does not change an answer. *)
Lemma drop_fuel : forall b f1 f2 s, (f1 <= f2)%nat -> fst (drop_next b f1 s) <> Some OutOfFuel ->
  drop_next b f2 s = drop_next b f1 s.
Proof.
  intros b. induction f1 as [|f1 IH]; intros f2 s Hf Hn; [destruct b; elim Hn; reflexivity|].
  destruct f2 as [|f2]; [lia|]. rewrite !drop_eq in *.
  destruct (decided m b (fst (nx s))) eqn:D; [|reflexivity]. apply IH; [lia|exact Hn].
Qed.

Lemma items_app : forall i j s, items nx (i + j) s = items nx i s ++ items nx j (after nx i s).
Proof. induction i; intros j s; [reflexivity|]. cbn [items Nat.add app after]. f_equal. apply IHi. Qed.

(** The stream: the items not dropped among the first [K], in order. *)
Lemma drop_items : forall b K fuel s, (K <= fuel)%nat ->
  let kept := keep m b (items nx K s) in
  items (drop_next b fuel) (length kept) s = map (seen m) kept.
Proof.
  intros b K fuel.
  assert (A : forall K' j s, (j + K' <= fuel)%nat ->
    (* [s] reached from [s0] by [j] dropped items *)
    forall s0, s = after nx j s0 -> (forall i, (i < j)%nat -> decided m b (nth_item nx i s0) = true) ->
    let kept := keep m b (items nx K' s) in
    items (drop_next b fuel) (length kept) s0 = map (seen m) kept).
  { induction K' as [|K' IH]; intros j s Hf s0 Hs Hd; [reflexivity|].
    cbn [items keep filter]. destruct (decided m b (fst (nx s))) eqn:D.
    - cbn [negb]. apply (IH (Datatypes.S j) (snd (nx s))).
      + lia.
      + rewrite after_S, <- Hs. reflexivity.
      + intros i Hi. destruct (Nat.eq_dec i j) as [->|N]; [|apply Hd; lia].
        unfold nth_item. rewrite <- Hs. exact D.
    - cbn [negb length items map].
      assert (N : drop_next b fuel s0 = (seen m (fst (nx s)), snd (nx s))).
      { rewrite (drop_first b j fuel s0 ltac:(lia) Hd); unfold nth_item; rewrite <- Hs; [|exact D].
        rewrite after_S, <- Hs. reflexivity. }
      rewrite N. cbn [fst snd]. f_equal.
      apply (IH 0%nat (snd (nx s)) ltac:(lia) (snd (nx s)) eq_refl). intros i Hi. lia. }
  intros s Hf. apply (A K 0%nat s Hf s eq_refl). intros i Hi. lia.
Qed.
End Filter.

Lemma every_items : forall S (nx : next_fn S) m K fuel s, (K <= fuel)%nat ->
  let kept := keep m false (items nx K s) in
  items (filter_next nx fuel m) (length kept) s = map (seen m) kept.
Proof. intros S nx m. exact (drop_items nx m false). Qed.
Lemma without_items : forall S (nx : next_fn S) m K fuel s, (K <= fuel)%nat ->
  let kept := keep m true (items nx K s) in
  items (without_next nx fuel m) (length kept) s = map (seen m) kept.
Proof. intros S nx m. exact (drop_items nx m true). Qed.
Lemma every_diverges : forall S (nx : next_fn S) m s, (forall i, decided m false (nth_item nx i s) = true) ->
  forall fuel, fst (filter_next nx fuel m s) = Some OutOfFuel.
Proof. intros S nx m s H fuel. apply (drop_never nx m false). intros. apply H. Qed.
Lemma without_diverges : forall S (nx : next_fn S) m s, (forall i, decided m true (nth_item nx i s) = true) ->
  forall fuel, fst (without_next nx fuel m s) = Some OutOfFuel.
Proof. intros S nx m s H fuel. apply (drop_never nx m true). intros. apply H. Qed.

(** Ok items satisfy the matcher, or its complement. *)
Lemma every_ok : forall S (nx : next_fn S) m fuel s t, fst (filter_next nx fuel m s) = Some (Ok t) -> m t = Ok true.
Proof.
  intros S nx m. induction fuel as [|fuel IH]; intros s t H; [discriminate|].
  cbn [filter_next] in H. destruct (nx s) as [[[t'|e|p|]|] s']; try discriminate.
  destruct (m t') as [[]|e|p|] eqn:E; try discriminate; [injection H as <-; exact E|eapply IH; eassumption].
Qed.
Lemma without_ok : forall S (nx : next_fn S) m fuel s t, fst (without_next nx fuel m s) = Some (Ok t) -> m t = Ok false.
Proof.
  intros S nx m. induction fuel as [|fuel IH]; intros s t H; [discriminate|].
  cbn [without_next] in H. destruct (nx s) as [[[t'|e|p|]|] s']; try discriminate.
  destruct (m t') as [[]|e|p|] eqn:E; try discriminate; [eapply IH; eassumption|injection H as <-; exact E].
Qed.
(** An Ok item of an adapter comes from the inner iterator. *)
Lemma without_inner : forall S (nx : next_fn S) m fuel s t, fst (without_next nx fuel m s) = Some (Ok t) ->
  exists k, nth_item nx k s = Some (Ok t).
Proof.
  intros S nx m. induction fuel as [|fuel IH]; intros s t H; [discriminate|].
  cbn [without_next] in H. destruct (nx s) as [r s'] eqn:E. destruct r as [[t'|e|p|]|]; try discriminate.
  destruct (m t') as [[]|e|p|] eqn:E2; try discriminate.
  - destruct (IH s' t H) as [k Hk]. exists (Datatypes.S k). unfold nth_item in *. cbn [after]. rewrite E. exact Hk.
  - exists 0%nat. unfold nth_item. cbn [after]. rewrite E. exact H.
Qed.
Lemma every_without : forall S (nx : next_fn S) m f1 f2 k s t,
  nth_item (without_next (filter_next nx f1 m) f2 m) k s <> Some (Ok t).
Proof.
  intros S nx m f1 f2 k s t H. unfold nth_item in H.
  pose proof (without_ok _ _ _ _ _ _ H) as W. destruct (without_inner _ _ _ _ _ _ H) as [j Hj].
  unfold nth_item in Hj. pose proof (every_ok _ _ _ _ _ _ Hj). congruence.
Qed.
