(** Proofs about combinations: adapters on top of each other, chains of additions, filters as matchers. *)
Require Import ZArith Bool List Lia ZifyBool Permutation.
From Verif Require Import Prelude Spec PreludeProofs Chrono TimeType Matcher Iter SpecTree SpecMoment SpecIter SpecAdapt SpecSeq
  CalendarProofs EvalProofs ShapeProofs CompProofs OrdProofs AddProofs AddProofs2 IterProofs IterProofs2 AdapterProofs AdapterProofs2 AdapterProofs3 SeqProofs SeqProofs2.
Import ListNotations.
Local Open Scope Z_scope.

(** ** Adapters on top of each other *)
(** Two next() functions that agree on every state agree on every item. *)
Lemma same_items : forall S (f g : next_fn S), (forall s, f s = g s) -> forall k s, nth_item f k s = nth_item g k s /\ after f k s = after g k s.
Proof.
  intros S f g H k. induction k as [|k IH]; intro s; [unfold nth_item; cbn [after]; rewrite H; auto|].
  unfold nth_item. cbn [after]. rewrite (H s). exact (IH (snd (g s))).
Qed.
Lemma until_times : forall md S (nx : next_fn S) ending n k s,
  nth_item (until_next md (times_next md nx) ending) k (times_new s n) = nth_item (times_next md (until_next md nx ending)) k (times_new s n).
Proof.
  intros md S nx ending n k s. apply same_items. clear n k s. intro t. unfold until_next, times_next.
  destruct (times t =? count t); [reflexivity|].
  destruct (addc md (Ok (count t)) (Ok 1)) as [c|e|p|]; try reflexivity.
  destruct (nx (inner t)) as [[[x|e|p|]|] i']; reflexivity.
Qed.
Lemma ltb_trans : forall a b c, dt_ltb a b = true -> dt_ltb b c = true -> dt_ltb a c = true.
Proof.
  intros a b c. unfold dt_ltb. destruct (dt_compare a b) eqn:E1; try discriminate. destruct (dt_compare b c) eqn:E2; try discriminate.
  rewrite (dt_cmp_trans _ _ _ E1 E2). reflexivity.
Qed.
(** The earlier end decides, in either order. *)
Lemma until_until : forall md S (nx : next_fn S) e1 e2 k s, dt_valid e1 = true -> dt_valid e2 = true -> before e1 e2 \/ e1 = e2 ->
  nth_item (until_next md (until_next md nx e2) e1) k s = nth_item (until_next md nx e1) k s /\
  nth_item (until_next md (until_next md nx e1) e2) k s = nth_item (until_next md nx e1) k s.
Proof.
  intros md S nx e1 e2 k s V1 V2 B.
  assert (T : forall m, dt_ltb m e1 = true -> dt_ltb m e2 = true).
  { intros m H. destruct B as [B| ->]; [|exact H]. apply before_ltb in B; try assumption. exact (ltb_trans _ _ _ H B). }
  assert (C : forall m, calculate md (Moment m) = Ok (Moment m)) by (intro m; apply (calc_value md (Moment m) eq_refl)).
  split; apply same_items; clear k s; intro s; unfold until_next;
  (destruct (nx s) as [[[x|e|p|]|] i']; try reflexivity);
  (destruct (calculate md x) as [y|e|p|]; try reflexivity);
  (destruct y; cbn [is_moment get_moment]; try reflexivity).
  - destruct (dt_ltb m e2) eqn:E2; [rewrite C; cbn [is_moment get_moment]; reflexivity|].
    destruct (dt_ltb m e1) eqn:E1; [rewrite (T _ E1) in E2; discriminate|reflexivity].
  - destruct (dt_ltb m e1) eqn:E1; [rewrite C; cbn [is_moment get_moment]; rewrite (T _ E1); reflexivity|reflexivity].
Qed.
Lemma times_times : forall md S (nx : next_fn S) a b k s, in_i64 a = true -> in_i64 b = true -> 0 <= a -> 0 <= b ->
  nth_item (times_next md (times_next md nx)) k (times_new (times_new s a) b) = nth_item (times_next md nx) k (times_new s (Z.min a b)).
Proof.
  intros md S nx a b k s Ia Ib Ha Hb. apply in_i64_iff in Ia as Ra. apply in_i64_iff in Ib as Rb.
  assert (Im : in_i64 (Z.min a b) = true) by (apply in_i64_iff; lia).
  pose proof (times_done md nx (Z.min a b) s k Im ltac:(lia)) as D1.
  pose proof (times_done md nx a s k Ia Ha) as D2.
  pose proof (times_done md (times_next md nx) b (times_new s a) k Ib Hb) as D3.
  pose proof (times_pass md nx (Z.min a b) s k Im) as P1.
  pose proof (times_pass md nx a s k Ia) as P2.
  pose proof (times_pass md (times_next md nx) b (times_new s a) k Ib) as P3.
  destruct (Z_lt_ge_dec (Z.of_nat k) b) as [L|G].
  - rewrite P3 by lia. destruct (Z_le_gt_dec (Z.min a b) (Z.of_nat k)) as [L2|G2].
    + destruct (D1 ltac:(lia)) as [-> _]. apply D2. lia.
    + rewrite P1, P2 by lia. reflexivity.
  - destruct (D1 ltac:(lia)) as [-> _]. apply D3. lia.
Qed.

(** ** A filter and a limit, on a stream of moments *)
Lemma nth_items : forall S (nx : next_fn S) n k s, (k < n)%nat -> nth_error (items nx n s) k = Some (nth_item nx k s).
Proof.
  intros S nx. induction n as [|n IH]; intros k s H; [lia|]. cbn [items]. destruct k as [|k]; [reflexivity|].
  cbn [nth_error]. rewrite IH by lia. reflexivity.
Qed.
Lemma items_seq : forall S (nx : next_fn S) n s (h : nat -> item), (forall k, (k < n)%nat -> nth_item nx k s = h k) ->
  items nx n s = map h (seq 0 n).
Proof.
  intros S nx. induction n as [|n IH]; intros s h H; [reflexivity|]. cbn [items seq map]. f_equal; [apply (H 0%nat); lia|].
  rewrite <- seq_shift, map_map. apply IH. intros k Hk. apply (H (Datatypes.S k)). lia.
Qed.
Lemma collects_intro : forall S (nx : next_fn S) s l r, nth_item nx (length l) s = None ->
  (exists n, (length l <= n)%nat /\ items nx n s = map Some l ++ r) -> collects nx s l.
Proof.
  intros S nx s l r HN [n [Ln E]]. split; [|exact HN].
  assert (Z : exists j, n = (length l + j)%nat) by (exists (n - length l)%nat; lia). destruct Z as [j ->].
  rewrite (items_app nx (length l) j s) in E.
  assert (X : firstn (length l) (items nx (length l) s ++ items nx j (after nx (length l) s)) = firstn (length l) (map Some l ++ r)) by (rewrite E; reflexivity).
  rewrite !firstn_app, items_length, map_length, Nat.sub_diag, !firstn_O, !app_nil_r in X.
  rewrite !firstn_all2 in X by (rewrite ?items_length, ?map_length; lia). exact X.
Qed.

Section FilterUntil.
Variable md : mode.
Context {S : Type}.
Variable nx : next_fn S.
Variable s : S.
Variable ending : datetime.
Variable m : matcher.
Variable g : datetime -> bool.
Variable f : nat -> datetime.
Variable K : nat.
Variable b : bool.
Hypothesis Vf : forall k, dt_valid (f k) = true.
Hypothesis Ve : dt_valid ending = true.
Hypothesis Hm : forall d, m (Moment d) = Ok (g d).
Hypothesis Hbefore : forall k, (k < K)%nat -> before (f k) ending.

Definition chosen (d : datetime) : bool := negb (Bool.eqb b (g d)).
Definition mom (k : nat) : item := Some (Ok (Moment (f k))).
Lemma keep_mom : forall l, keep m b (map mom l) = map mom (filter (fun k => chosen (f k)) l).
Proof.
  induction l as [|k l IH]; [reflexivity|]. cbn [map keep filter]. unfold decided at 1. unfold mom at 1. rewrite Hm. fold (chosen (f k)).
  unfold keep in IH. rewrite IH. destruct (chosen (f k)); reflexivity.
Qed.
Lemma seen_mom : forall l, map (seen m) (map mom l) = map mom l.
Proof. induction l as [|k l IH]; [reflexivity|]. cbn [map]. rewrite IH. f_equal. unfold seen, mom. rewrite Hm. reflexivity. Qed.
Definition answer : list result := map (fun d => Ok (Moment d)) (filter chosen (map f (seq 0 K))).
Lemma answer_mom : map Some answer = map mom (filter (fun k => chosen (f k)) (seq 0 K)).
Proof.
  unfold answer. induction (seq 0 K) as [|k l IH]; [reflexivity|]. cbn [map filter]. destruct (chosen (f k)); cbn [map]; rewrite IH; reflexivity.
Qed.

Lemma until_then_filter : forall fuel, (K < fuel)%nat -> (forall k, (k <= K)%nat -> nth_item nx k s = mom k) -> ~ before (f K) ending ->
  collects (drop_next (until_next md nx ending) m b fuel) s answer.
Proof.
  intros fuel HF Hnx Hafter.
  assert (U : forall k, (k <= K)%nat -> nth_item (until_next md nx ending) k s = if (k <? K)%nat then mom k else None).
  { intros k Hk. destruct (until_moment md nx ending k s (Moment (f k)) (f k) (Vf k) Ve (Hnx k Hk) (calc_value md (Moment _) eq_refl)) as [U1 U2].
    destruct (Nat.ltb_spec k K) as [L|G]; [apply U1, Hbefore, L|]. replace k with K in * by lia. apply U2, Hafter. }
  pose proof (drop_items (until_next md nx ending) m b (Datatypes.S K) fuel s HF) as D. cbv zeta in D.
  replace (Datatypes.S K) with (K + 1)%nat in D by lia. rewrite items_app in D.
  rewrite (items_seq _ _ K s mom) in D by (intros k Hk; rewrite U by lia; destruct (Nat.ltb_spec k K); [reflexivity|lia]).
  assert (L1 : items (until_next md nx ending) 1 (after (until_next md nx ending) K s) = [None]).
  { cbn [items]. f_equal. pose proof (U K (Nat.le_refl _)) as UK. rewrite Nat.ltb_irrefl in UK. exact UK. }
  rewrite L1 in D. unfold keep in D. rewrite filter_app in D. fold (keep m b (map mom (seq 0 K))) in D. rewrite keep_mom in D.
  cbn [filter decided negb] in D. rewrite map_app, seen_mom, <- answer_mom in D. cbn [map seen] in D.
  rewrite app_length in D. cbn [length] in D. rewrite map_length in D.
  apply collects_intro with (r := [None]).
  - pose proof (nth_items _ (drop_next (until_next md nx ending) m b fuel) (length answer + 1) (length answer) s ltac:(lia)) as N.
    rewrite D in N. rewrite nth_error_app2 in N by (rewrite map_length; lia). rewrite map_length, Nat.sub_diag in N. cbn in N. congruence.
  - exists (length answer + 1)%nat. split; [lia|exact D].
Qed.

Lemma filter_then_until : forall fuel j, (K <= j < fuel)%nat -> (forall k, (k <= j)%nat -> nth_item nx k s = mom k) -> chosen (f j) = true ->
  (forall k, (K <= k <= j)%nat -> ~ before (f k) ending) ->
  collects (until_next md (drop_next nx m b fuel) ending) s answer.
Proof.
  intros fuel j HF Hnx Hj Hafter.
  pose proof (drop_items nx m b (Datatypes.S j) fuel s ltac:(lia)) as D. cbv zeta in D.
  rewrite (items_seq _ _ (Datatypes.S j) s mom) in D by (intros k Hk; apply Hnx; lia).
  rewrite keep_mom, seen_mom in D.
  replace (Datatypes.S j) with (K + (Datatypes.S j - K))%nat in D by lia. rewrite seq_app, filter_app, map_app in D.
  set (l1 := filter (fun k => chosen (f k)) (seq 0 K)) in *. set (l2 := filter (fun k => chosen (f k)) (seq (0 + K) (Datatypes.S j - K))) in *.
  assert (P1 : forall k, In k l1 -> (k < K)%nat) by (intros k Hk; apply filter_In in Hk; destruct Hk as [Hk _]; apply in_seq in Hk; lia).
  assert (P2 : forall k, In k l2 -> (K <= k <= j)%nat) by (intros k Hk; apply filter_In in Hk; destruct Hk as [Hk _]; apply in_seq in Hk; lia).
  assert (Q : In j l2) by (apply filter_In; split; [apply in_seq; lia|exact Hj]).
  assert (LA : length answer = length l1).
  { pose proof (f_equal (@length item) answer_mom) as X. rewrite !map_length in X. exact X. }
  destruct l2 as [|i l2']; [destruct Q|].
  set (nx' := drop_next nx m b fuel) in *.
  assert (I : forall k, (k < length l1 + Datatypes.S (length l2'))%nat -> nth_item nx' k s = nth k (map mom l1 ++ map mom (i :: l2')) None).
  { intros k Hk. pose proof (nth_items _ nx' (length (map mom l1 ++ map mom (i :: l2'))) k s) as N.
    rewrite D in N at 1. symmetry. apply nth_error_nth. rewrite !app_length, !map_length in N. apply N. cbn [length]. lia. }
  assert (It : forall k a, (k < length l1 + Datatypes.S (length l2'))%nat -> nth_item nx' k s = mom a ->
    (before (f a) ending -> nth_item (until_next md nx' ending) k s = mom a) /\
    (~ before (f a) ending -> nth_item (until_next md nx' ending) k s = None)).
  { intros k a Hk E. exact (until_moment md nx' ending k s (Moment (f a)) (f a) (Vf a) Ve E (calc_value md (Moment _) eq_refl)). }
  assert (E1 : forall k, (k < length l1)%nat -> nth_item (until_next md nx' ending) k s = nth k (map mom l1) None).
  { intros k Hk. pose proof (I k ltac:(lia)) as X. rewrite app_nth1 in X by (rewrite map_length; lia).
    rewrite (nth_indep _ None (mom 0)) in X by (rewrite map_length; lia). rewrite map_nth in X.
    destruct (It k _ ltac:(lia) X) as [Y _]. rewrite Y.
    - rewrite (nth_indep _ None (mom 0)) by (rewrite map_length; lia). rewrite map_nth. reflexivity.
    - apply Hbefore, P1, nth_In, Hk. }
  assert (E2 : nth_item (until_next md nx' ending) (length l1) s = None).
  { pose proof (I (length l1) ltac:(lia)) as X. rewrite app_nth2 in X by (rewrite map_length; lia).
    rewrite map_length, Nat.sub_diag in X. cbn [map nth] in X.
    destruct (It (length l1) i ltac:(lia) X) as [_ Y]. apply Y, Hafter, P2. left. reflexivity. }
  apply collects_intro with (r := []); rewrite LA; [exact E2|]. exists (length l1). split; [lia|]. rewrite app_nil_r.
  rewrite (items_seq _ _ (length l1) s (fun k => nth k (map mom l1) None)) by exact E1.
  rewrite answer_mom. fold l1. clear. 
  rewrite <- (map_length mom l1). generalize (map mom l1). intro l.
  induction l as [|a l IH]; [reflexivity|]. cbn [length seq map nth]. f_equal. rewrite <- seq_shift, map_map. exact IH.
Qed.
End FilterUntil.

(** The first [n] items of a filtered stream of moments. *)
Lemma filter_then_times : forall md S (nx : next_fn S) s m g f b N fuel n,
  (forall d, m (Moment d) = Ok (g d)) -> (N <= fuel)%nat -> (forall k, (k < N)%nat -> nth_item nx k s = mom f k) ->
  in_i64 n = true -> 0 <= n <= Z.of_nat (length (answer g f N b)) ->
  collects (times_next md (drop_next nx m b fuel)) (times_new s n) (firstn (Z.to_nat n) (answer g f N b)).
Proof.
  intros md S nx s m g f b N fuel n Hm HF Hnx In Hn. apply in_i64_iff in In as Rn.
  pose proof (drop_items nx m b N fuel s HF) as D. cbv zeta in D.
  rewrite (items_seq _ _ N s (mom f)) in D by exact Hnx. rewrite (keep_mom m g f b Hm), (seen_mom m g f Hm), <- answer_mom, map_length in D.
  set (A := answer g f N b) in *. set (c := Z.to_nat n) in *. set (nx' := drop_next nx m b fuel) in *.
  assert (LA : (length (firstn c A) = c)%nat) by (rewrite firstn_length; unfold c; lia).
  apply collects_intro with (r := []); rewrite LA.
  - destruct (times_done md nx' n s c In ltac:(lia) ltac:(unfold c; lia)) as [X _]. exact X.
  - exists c. split; [lia|]. rewrite app_nil_r.
    rewrite (items_seq _ _ c (times_new s n) (fun k => nth k (map Some A) None)).
    + rewrite <- firstn_map. assert (Lc : (c <= length (map Some A))%nat) by (rewrite map_length; unfold c; lia).
      revert Lc. generalize (map Some A). generalize c. clear. induction c as [|c IH]; intros l Hl; [reflexivity|].
      destruct l as [|a l]; [cbn in Hl; lia|]. cbn [seq map nth firstn]. f_equal. rewrite <- seq_shift, map_map. apply IH. cbn in Hl. lia.
    + intros k Hk. rewrite times_pass; try assumption; unfold c in *; try lia.
      symmetry. apply nth_error_nth. rewrite <- D. apply nth_items. lia.
Qed.

Lemma map_nth_seq : forall A (l : list A) (h : nat -> A), (forall k a, nth_error l k = Some a -> h k = a) -> map h (seq 0 (length l)) = l.
Proof.
  intros A. induction l as [|a l IH]; intros h H; [reflexivity|]. cbn [length seq map]. f_equal; [apply (H 0%nat); reflexivity|].
  rewrite <- seq_shift, map_map. apply IH. intros k x E. apply (H (Datatypes.S k)). exact E.
Qed.

(** ** every() and without() around until(), on forward steps *)
Lemma drop_until_commute : forall md m u n it ending (mt : matcher) g b L fuel j d,
  build m (mk u n) = Ok it -> dt_valid m = true -> 0 < n -> n * unit_secs u <= span32 -> dt_valid ending = true ->
  (forall d, mt (Moment d) = Ok (g d)) -> collects (until_next md (iter_next md) ending) it L ->
  (length L <= j < fuel)%nat -> nth_item (iter_next md) j it = Some (Ok (Moment d)) -> g d = negb b ->
  let R := filter (moment_is (fun d => Bool.eqb (g d) (negb b))) L in
  collects (drop_next (until_next md (iter_next md) ending) mt b fuel) it R /\ collects (until_next md (drop_next (iter_next md) mt b fuel) ending) it R.
Proof.
  intros md m u n it ending mt g b L fuel j d B Hm Hn Hs He Hmt [CL CN] HF Hj Hd R.
  set (f := fun k => match nth_item (iter_next md) k it with Some (Ok (Moment x)) => x | _ => m end).
  assert (Cases : forall k, (exists x, nth_item (iter_next md) k it = Some (Ok (Moment x)) /\ dt_valid x = true) \/ exists e, nth_item (iter_next md) k it = Some (Err e)).
  { intro k. apply (fresh_cases md u n (fun a b => inst a < inst b)) with (m := m); try assumption.
    - apply span_i64 with u; lia.
    - intros; lia.
    - intros x Hx. destruct (add_total md x u n Hx ltac:(lia) Hs) as [(m' & E & V)|E]; [left|right; exact E].
      exists m'. split; [exact E|]. split; [exact V|]. exact (add_forward md x u n m' Hx Hn Hs E). }
  assert (OK : iter_ok it) by exact (build_ok m u n it Hm (span_i64 u n ltac:(lia) Hs) B).
  assert (F : forall k, (k <= j)%nat -> nth_item (iter_next md) k it = mom f k).
  { intros k Hk. unfold mom, f. destruct (Cases k) as [(x & E & _)|[e E]]; rewrite E; [reflexivity|exfalso].
    destruct (Nat.eq_dec k j) as [->|NE]; [congruence|].
    assert (E2 : nth_item (iter_next md) j it = Some (Err e)) by exact (b_sticky md it k e OK E j ltac:(lia)). congruence. }
  assert (V : forall k, dt_valid (f k) = true).
  { intro k. unfold f. destruct (Cases k) as [(x & E & Vx)|[e E]]; rewrite E; [exact Vx|exact Hm]. }
  assert (UM : forall k, (k <= j)%nat -> (before (f k) ending -> nth_item (until_next md (iter_next md) ending) k it = mom f k) /\
     (~ before (f k) ending -> nth_item (until_next md (iter_next md) ending) k it = None)).
  { intros k Hk. exact (until_moment md (iter_next md) ending k it (Moment (f k)) (f k) (V k) He (F k Hk) (calc_value md (Moment _) eq_refl)). }
  assert (UL : forall k, (k < length L)%nat -> nth_item (until_next md (iter_next md) ending) k it = nth k (map Some L) None).
  { intros k Hk. symmetry. apply nth_error_nth. rewrite <- CL. apply nth_items. exact Hk. }
  assert (Bf : forall k, (k < length L)%nat -> before (f k) ending).
  { intros k Hk. apply before_ltb; [apply V|exact He|]. destruct (dt_ltb (f k) ending) eqn:E; [reflexivity|exfalso].
    destruct (UM k ltac:(lia)) as [_ U2]. rewrite UL in U2 by exact Hk.
    assert (X : nth k (map Some L) None = None).
    { apply U2. intro Q. apply before_ltb in Q; try assumption; [congruence|apply V]. }
    destruct (nth_error L k) as [r|] eqn:Er; [|apply nth_error_None in Er; lia].
    assert (Er' : nth k (map Some L) None = Some r) by (apply nth_error_nth, map_nth_error, Er). rewrite Er' in X. discriminate X. }
  assert (Af : forall k, (length L <= k <= j)%nat -> ~ before (f k) ending).
  { intros k Hk. exact (until_misses_nothing md m u n it ending (length L) B Hm Hn Hs He CN k (f k) ltac:(lia) (F k ltac:(lia))). }
  assert (EL : L = map (fun k => Ok (Moment (f k))) (seq 0 (length L))).
  { symmetry. apply map_nth_seq. intros k a E.
    assert (Hk : (k < length L)%nat) by (apply nth_error_Some; congruence).
    destruct (UM k ltac:(lia)) as [U1 _]. specialize (U1 (Bf k Hk)). rewrite UL in U1 by exact Hk.
    assert (Er' : nth k (map Some L) None = Some a) by (apply nth_error_nth, map_nth_error, E). rewrite Er' in U1. unfold mom in U1. congruence. }
  assert (ER : R = answer g f (length L) b).
  { unfold R. rewrite EL at 1. unfold answer. clear. clearbody f. induction (seq 0 (length L)) as [|k l IH]; [reflexivity|].
    cbn [map filter moment_is]. rewrite IH.
    assert (Q : chosen g b (f k) = Bool.eqb (g (f k)) (negb b)) by (unfold chosen; destruct b, (g (f k)); reflexivity). rewrite Q.
    destruct (Bool.eqb (g (f k)) (negb b)); reflexivity. }
  rewrite ER. split.
  - apply (until_then_filter md (iter_next md) it ending mt g f (length L) b); try assumption; try lia.
    + intros k Hk. apply F. lia.
    + apply Af. lia.
  - apply (filter_then_until md (iter_next md) it ending mt g f (length L) b) with (j := j); try assumption.
    unfold chosen. pose proof (F j (Nat.le_refl _)) as X. rewrite Hj in X. unfold mom in X. injection X as <-. rewrite Hd. destruct b; reflexivity.
Qed.
Lemma every_until_commute : forall md m u n it ending (mt : matcher) g L fuel j d,
  build m (mk u n) = Ok it -> dt_valid m = true -> 0 < n -> n * unit_secs u <= span32 -> dt_valid ending = true ->
  (forall d, mt (Moment d) = Ok (g d)) -> collects (until_next md (iter_next md) ending) it L ->
  (length L <= j < fuel)%nat -> nth_item (iter_next md) j it = Some (Ok (Moment d)) -> g d = true ->
  collects (filter_next (until_next md (iter_next md) ending) fuel mt) it (filter (moment_is g) L) /\
  collects (until_next md (filter_next (iter_next md) fuel mt) ending) it (filter (moment_is g) L).
Proof.
  intros md m u n it ending mt g L fuel j d B Hm Hn Hs He Hmt CL HF Hj Hd.
  pose proof (drop_until_commute md m u n it ending mt g false L fuel j d B Hm Hn Hs He Hmt CL HF Hj Hd) as D. cbv zeta in D. cbn [negb drop_next] in D.
  rewrite (filter_ext (moment_is (fun d => Bool.eqb (g d) true)) (moment_is g)) in D; [exact D|].
  intros [[]| | |]; try reflexivity; cbn [moment_is]; match goal with |- context [g ?x] => destruct (g x); reflexivity end.
Qed.
Lemma without_until_commute : forall md m u n it ending (mt : matcher) g L fuel j d,
  build m (mk u n) = Ok it -> dt_valid m = true -> 0 < n -> n * unit_secs u <= span32 -> dt_valid ending = true ->
  (forall d, mt (Moment d) = Ok (g d)) -> collects (until_next md (iter_next md) ending) it L ->
  (length L <= j < fuel)%nat -> nth_item (iter_next md) j it = Some (Ok (Moment d)) -> g d = false ->
  collects (without_next (until_next md (iter_next md) ending) fuel mt) it (filter (moment_is (fun d => negb (g d))) L) /\
  collects (until_next md (without_next (iter_next md) fuel mt) ending) it (filter (moment_is (fun d => negb (g d))) L).
Proof.
  intros md m u n it ending mt g L fuel j d B Hm Hn Hs He Hmt CL HF Hj Hd.
  pose proof (drop_until_commute md m u n it ending mt g true L fuel j d B Hm Hn Hs He Hmt CL HF Hj Hd) as D. cbv zeta in D. cbn [negb drop_next] in D.
  rewrite (filter_ext (moment_is (fun d => Bool.eqb (g d) false)) (moment_is (fun d => negb (g d)))) in D; [exact D|].
  intros [[]| | |]; try reflexivity; cbn [moment_is]; match goal with |- context [g ?x] => destruct (g x); reflexivity end.
Qed.

(** ** Chains of additions *)
Lemma step_moment : forall md x t m', tt_ok x = true -> shape_of x = SMoment -> is_diff x || is_end x = false -> tt_ok t = true -> amount_only t = true -> abs_secs t <= i64_max ->
  calculate md x = Ok (Moment m') -> calculate md (Addition x t) = calculate md (Addition (Moment m') t).
Proof.
  intros md x t m' Hx Sx Dx Ht At St E. apply shape_amount in At as Bt.
  assert (Hm' : dt_valid m' = true) by exact (calc_tt_ok md _ _ Hx E).
  destruct (add_tree md m' t Hm' Ht At St) as (n & _ & _ & E2 & _).
  destruct (calc_add_comp md x t Hx Ht) as (C & _); [cbn [shape_of]; rewrite Sx, Bt, Dx; discriminate|].
  rewrite (C _ _ E E2).
  destruct (calc_add_comp md (Moment m') t) as (C' & _); [exact Hm'|exact Ht|cbn [shape_of]; rewrite Bt; discriminate|].
  rewrite (C' _ _ eq_refl E2). reflexivity.
Qed.
Lemma small_add : forall md m t, dt_valid m = true -> tt_ok t = true -> amount_only t = true -> abs_secs t <= i64_max ->
  clock_unit (finest t) = true -> 0 <= secs t <= 30 * 86400 -> inst m + secs t < instant (max_year + 1) 1 1 0 0 0 ->
  exists m', calculate md (Addition (Moment m) t) = Ok (Moment m') /\ dt_valid m' = true /\ nano m' = 0 /\ inst m' = inst m + secs t.
Proof.
  intros md m t Hm Ot At St Ft Pt L. apply add_tree_exact; try assumption; try lia.
  rewrite inst_sod. pose proof (sod_range m Hm). pose proof (doy_bounds _ _ _ (valid_date m Hm)) as HB.
  unfold instant. rewrite day_number_jan, leap_year_step.
  assert (Q : day_number (year m) (month m) (day m) <= days_before_year (year m) + year_length (year m)) by (unfold day_number; lia). lia.
Qed.
Lemma chain_clock_at : forall md l x m, tt_ok x = true -> shape_of x = SMoment -> is_diff x || is_end x = false -> calculate md x = Ok (Moment m) ->
  Forall clock_amount l -> inst m + sum_secs l < instant (max_year + 1) 1 1 0 0 0 ->
  exists m', calculate md (chain x l) = Ok (Moment m') /\ dt_valid m' = true /\ inst m' = inst m + sum_secs l /\ (l <> [] -> nano m' = 0).
Proof.
  intros md. induction l as [|t l IH]; intros x m Ox Sx Dx Ex Hl HR.
  - exists m. cbn. split; [exact Ex|]. split; [exact (calc_tt_ok md _ _ Ox Ex)|]. split; [lia|]. intro X; elim X; reflexivity.
  - pose proof (Forall_inv_tail Hl) as Hl'. destruct (Forall_inv Hl) as (Ot & At & St & Ft & Pt).
    assert (P : 0 <= sum_secs l).
    { clear - Hl'. induction l as [|a l IH]; cbn; [lia|]. destruct (Forall_inv Hl') as (_ & _ & _ & _ & P). specialize (IH (Forall_inv_tail Hl')). unfold sum_secs in *. lia. }
    unfold sum_secs in HR |- *. cbn [map fold_right] in HR |- *. fold (sum_secs l) in HR |- *.
    assert (Vm : dt_valid m = true) by exact (calc_tt_ok md _ _ Ox Ex).
    destruct (small_add md m t Vm Ot At St Ft Pt ltac:(lia)) as (m1 & E1 & V1 & N1 & I1).
    assert (E2 : calculate md (Addition x t) = Ok (Moment m1)) by (rewrite (step_moment md x t m); assumption).
    apply shape_amount in At as Bt.
    destruct (IH (Addition x t) m1) as (m' & E & V & I & N); try assumption.
    + cbn [tt_ok]. rewrite Ox, Ot. reflexivity.
    + cbn [shape_of]. rewrite Sx, Bt, Dx. reflexivity.
    + reflexivity.
    + lia.
    + exists m'. split; [exact E|]. split; [exact V|]. split; [lia|]. intros _.
      destruct l as [|t2 l]; [|apply N; discriminate]. change (calculate md (Addition x t) = Ok (Moment m')) in E. rewrite E2 in E. injection E as <-. exact N1.
Qed.
Lemma chain_clock : forall md m l, dt_valid m = true -> Forall clock_amount l -> l <> [] -> inst m + sum_secs l < instant (max_year + 1) 1 1 0 0 0 ->
  exists m', calculate md (chain (Moment m) l) = Ok (Moment m') /\ dt_valid m' = true /\ nano m' = 0 /\ inst m' = inst m + sum_secs l.
Proof.
  intros md m l Hm Hl Hn HR. destruct (chain_clock_at md l (Moment m) m Hm eq_refl eq_refl eq_refl Hl HR) as (m' & E & V & I & N). exists m'. auto.
Qed.
Lemma sum_perm : forall l1 l2, Permutation l1 l2 -> sum_secs l1 = sum_secs l2.
Proof. intros l1 l2 P. unfold sum_secs. induction P; cbn [map fold_right]; lia. Qed.
Lemma chain_order : forall md m l1 l2, dt_valid m = true -> Forall clock_amount l1 -> Permutation l1 l2 -> inst m + sum_secs l1 < instant (max_year + 1) 1 1 0 0 0 ->
  calculate md (chain (Moment m) l1) = calculate md (chain (Moment m) l2).
Proof.
  intros md m l1 l2 Hm Hl P HR. destruct l1 as [|t l1]; [apply Permutation_nil in P; subst; reflexivity|].
  assert (Hl2 : Forall clock_amount l2) by (eapply Permutation_Forall; eassumption).
  assert (N2 : l2 <> []) by (intros ->; apply Permutation_sym, Permutation_nil in P; discriminate P).
  pose proof (sum_perm _ _ P) as SP.
  destruct (chain_clock md m (t :: l1) Hm Hl ltac:(discriminate) HR) as (a & Ea & Va & Na & Ia).
  destruct (chain_clock md m l2 Hm Hl2 N2 ltac:(lia)) as (b & Eb & Vb & Nb & Ib).
  rewrite Ea, Eb. do 2 f_equal. apply same_moment; try assumption. lia.
Qed.
(** Month amounts in a row are one addition of their sum. *)
Lemma chain_months_at : forall md l x m, tt_ok x = true -> shape_of x = SMoment -> is_diff x || is_end x = false -> calculate md x = Ok (Moment m) -> day m <= 28 -> nano m = 0 ->
  Forall (fun a => 0 <= a) l -> year m * 12 + month m + fold_right Z.add 0 l <= max_year * 12 + 12 ->
  calculate md (chain x (map Months l)) = Ok (Moment (in_month (year m * 12 + month m - 1 + fold_right Z.add 0 l) (day m) m)).
Proof.
  intros md. induction l as [|a l IH]; intros x m Ox Sx Dx Ex Hd Hz Hl HR.
  - cbn [map chain fold_left fold_right]. unfold chain. cbn [fold_left]. rewrite Ex. do 2 f_equal. unfold in_month.
    assert (Vm : dt_valid m = true) by exact (calc_tt_ok md _ _ Ox Ex). apply valid_facts in Vm.
    destruct m as [y mo d h mi s ns]. cbn [year month day hour minute second nano] in *. f_equal; lia.
  - pose proof (Forall_inv Hl) as Ha. pose proof (Forall_inv_tail Hl) as Hl'. cbn beta in Ha.
    assert (P : 0 <= fold_right Z.add 0 l).
    { clear - Hl'. induction l as [|b l IH]; cbn; [lia|]. pose proof (Forall_inv Hl') as P. cbn beta in P. specialize (IH (Forall_inv_tail Hl')). lia. }
    cbn [map fold_right] in HR |- *. 
    assert (Vm : dt_valid m = true) by exact (calc_tt_ok md _ _ Ox Ex). destruct (valid_facts m Vm) as (Vy & Vmo & Vd & Vml & Vh & Vmi & Vs).
    set (i := year m * 12 + month m + a - 1).
    pose proof (add_months_same_day md m a (i / 12) (i mod 12 + 1) Vm Hd Ha ltac:(lia) ltac:(lia) ltac:(lia)) as E1.
    assert (Oa : tt_ok (Months a) = true) by (cbn [tt_ok]; apply in_i64_iff; unfold max_year, min_year, i64_max, i64_min in *; lia).
    assert (E2 : calculate md (Addition x (Months a)) = Ok (Moment (in_month i (day m) m))).
    { assert (Ab : abs_secs (Months a) <= i64_max) by (cbn [abs_secs secs unit_secs]; unfold max_year, min_year, i64_max in *; lia).
      rewrite (step_moment md x (Months a) m Ox Sx Dx Oa eq_refl Ab Ex). exact E1. }
    unfold chain. cbn [fold_left]. fold (chain (Addition x (Months a)) (map Months l)).
    rewrite (IH (Addition x (Months a)) (in_month i (day m) m)); try assumption.
    + do 2 f_equal. unfold in_month. cbn [year month day hour minute second]. f_equal; lia.
    + cbn [tt_ok]. rewrite Ox. exact Oa.
    + cbn [shape_of]. rewrite Sx, Dx. reflexivity.
    + reflexivity.
    + reflexivity.
    + cbn [in_month year month]. lia.
Qed.
Lemma chain_months : forall md m l, dt_valid m = true -> day m <= 28 -> l <> [] -> Forall (fun a => 0 <= a) l ->
  let i := year m * 12 + month m - 1 + fold_right Z.add 0 l in i / 12 <= max_year ->
  calculate md (chain (Moment m) (map Months l)) = Ok (Moment (in_month i (day m) m)).
Proof.
  intros md m l Hm Hd Hn Hl i HR. unfold i in *. destruct l as [|a l]; [elim Hn; reflexivity|].
  pose proof (Forall_inv Hl) as Ha. pose proof (Forall_inv_tail Hl) as Hl'. cbn beta in Ha.
  assert (P : 0 <= fold_right Z.add 0 l).
  { clear - Hl'. induction l as [|b l IH]; cbn; [lia|]. pose proof (Forall_inv Hl') as P. cbn beta in P. specialize (IH (Forall_inv_tail Hl')). lia. }
  cbn [map fold_right] in *. destruct (valid_facts m Hm) as (Vy & Vmo & Vd & Vml & Vh & Vmi & Vs).
  set (i0 := year m * 12 + month m + a - 1).
  pose proof (add_months_same_day md m a (i0 / 12) (i0 mod 12 + 1) Hm Hd Ha ltac:(lia) ltac:(lia) ltac:(lia)) as E1.
  assert (Oa : tt_ok (Months a) = true) by (cbn [tt_ok]; apply in_i64_iff; unfold max_year, min_year, i64_max, i64_min in *; lia).
  unfold chain. cbn [fold_left]. fold (chain (Addition (Moment m) (Months a)) (map Months l)).
  rewrite (chain_months_at md l (Addition (Moment m) (Months a)) (in_month i0 (day m) m)); try assumption.
  - do 2 f_equal. unfold in_month. cbn [year month day hour minute second]. f_equal; lia.
  - cbn [tt_ok]. rewrite Hm. exact Oa.
  - reflexivity.
  - reflexivity.
  - reflexivity.
  - cbn [in_month year month]. lia.
Qed.

(** ** Filters as matchers *)
Lemma day_filter_agrees : forall d m, filter_matches (day_filter d) (Moment m) = day_matches d (Moment m) /\ filter_matches (day_filter d) (Moment m) = is_a (Moment m) d.
Proof. intros d m. unfold filter_matches, day_filter, day_matches, is_a. cbn. rewrite Z.eqb_sym. auto. Qed.
Lemma month_filter_agrees : forall mo m, filter_matches (month_filter mo) (Moment m) = month_matches mo (Moment m) /\ filter_matches (month_filter mo) (Moment m) = is_in (Moment m) mo.
Proof. intros mo m. unfold filter_matches, month_filter, month_matches, is_in. cbn. rewrite Z.eqb_sym. auto. Qed.
Lemma filters_other : forall t d mo, is_moment t = false ->
  filter_matches (day_filter d) t = Ok false /\ filter_matches (month_filter mo) t = Ok false /\
  day_matches d t = Err (ArgumentErrorNotAMoment (name t)) /\ month_matches mo t = Err (ArgumentErrorNotAMoment (name t)).
Proof. intros t d mo H. destruct t; try discriminate H; repeat split; reflexivity. Qed.

(** every(f) then without(f) on a finite stream of moments collects nothing. *)
Lemma every_without_nil : forall S (nx : next_fn S) s m g f N f1 f2, (forall d, m (Moment d) = Ok (g d)) ->
  (forall k, (k < N)%nat -> nth_item nx k s = mom f k) -> nth_item nx N s = None -> (N < f1)%nat -> (N < f2)%nat ->
  collects (without_next (filter_next nx f1 m) f2 m) s [].
Proof.
  intros S nx s m g f N f1 f2 Hm Hnx HN H1 H2. split; [reflexivity|]. cbn [length].
  set (nx' := filter_next nx f1 m).
  pose proof (every_items _ nx m (Datatypes.S N) f1 s H1) as D. cbv zeta in D. fold nx' in D.
  replace (Datatypes.S N) with (N + 1)%nat in D by lia. rewrite items_app in D.
  rewrite (items_seq _ _ N s (mom f)) in D by exact Hnx.
  assert (L1 : items nx 1 (after nx N s) = [None]) by (cbn [items]; f_equal; exact HN).
  rewrite L1 in D. unfold keep in D. rewrite filter_app in D. fold (keep m false (map (mom f) (seq 0 N))) in D.
  rewrite (keep_mom m g f false Hm) in D. cbn [filter decided negb] in D. rewrite map_app, (seen_mom m g f Hm) in D. cbn [map seen] in D.
  rewrite app_length, map_length in D. cbn [length] in D.
  set (l := filter (fun k => chosen g false (f k)) (seq 0 N)) in *.
  assert (Ll : (length l <= N)%nat).
  { unfold l. rewrite <- (seq_length N 0) at 2. generalize (seq 0 N). intro q. induction q as [|x q IH]; [cbn; lia|].
    cbn [filter]. destruct (chosen g false (f x)); cbn [length]; lia. }
  assert (It : forall k, (k < length l + 1)%nat -> nth_item nx' k s = nth k (map (mom f) l ++ [None]) None).
  { intros k Hk. symmetry. apply nth_error_nth. etransitivity; [|exact (nth_items _ nx' (length l + 1) k s Hk)]. f_equal. symmetry. exact D. }
  unfold nth_item. cbn [after].
  pose proof (drop_first nx' m true (length l) f2 s ltac:(lia)) as DF. cbn [drop_next] in DF. rewrite DF.
  - cbn [fst]. rewrite It by lia. rewrite app_nth2 by (rewrite map_length; lia). rewrite map_length, Nat.sub_diag. reflexivity.
  - intros i Hi. rewrite It by lia. rewrite app_nth1 by (rewrite map_length; lia).
    rewrite (nth_indep _ None (mom f 0)) by (rewrite map_length; lia). rewrite map_nth. unfold mom, decided. rewrite Hm.
    assert (Q : In (nth i l 0%nat) l) by (apply nth_In; exact Hi). apply filter_In in Q. destruct Q as [_ Q]. unfold chosen in Q.
    destruct (g (f (nth i l 0%nat))); [reflexivity|discriminate Q].
  - rewrite It by lia. rewrite app_nth2 by (rewrite map_length; lia). rewrite map_length, Nat.sub_diag. reflexivity.
Qed.

(** ** src/iter.rs 534-566, for a reading [now] of the clock *)
Section Today.
Variable md : mode.
Variable now : datetime.
Hypothesis Hnow : dt_valid now = true.
Let it := mkiter (Moment now) (Days 1) false.

Lemma daily_items : forall N, inst now + (Z.of_nat N - 1) * 86400 < instant (max_year + 1) 1 1 0 0 0 ->
  exists f, (forall k, (k < N)%nat -> nth_item (iter_next md) k it = mom f k /\ dt_valid (f k) = true /\ inst (f k) = inst now + Z.of_nat k * 86400).
Proof.
  intros N HR. exists (fun k => match nth_item (iter_next md) k it with Some (Ok (Moment x)) => x | _ => now end).
  intros k Hk. unfold mom.
  assert (X : exists x, nth_item (iter_next md) k it = Some (Ok (Moment x)) /\ dt_valid x = true /\ inst x = inst now + Z.of_nat k * 86400).
  { destruct k as [|k]; [exists now; split; [reflexivity|]; split; [exact Hnow|lia]|].
    destruct (b_clock md now UDay 1 it (Datatypes.S k) eq_refl Hnow eq_refl ltac:(lia) ltac:(cbn; lia) ltac:(lia)) as (x & E & V & _ & I).
    - cbn [unit_secs]. lia.
    - exists x. split; [exact E|]. split; [exact V|]. rewrite I. cbn [unit_secs]. lia. }
  destruct X as (x & E & V & I). rewrite E. auto.
Qed.

Lemma test_compile_skip_ok : forall d f1 f2, inst now + 19 * 86400 < instant (max_year + 1) 1 1 0 0 0 -> (20 < f1)%nat -> (20 < f2)%nat ->
  daily (today now) 1 = Ok it /\
  collects (without_next (filter_next (times_next md (iter_next md)) f1 (day_matches d)) f2 (day_matches d)) (times_new it 20) [].
Proof.
  intros d f1 f2 HR H1 H2. split; [reflexivity|].
  destruct (daily_items 20 ltac:(lia)) as [f F].
  apply (every_without_nil times_iter (times_next md (iter_next md)) (times_new it 20) (day_matches d) (fun x => wday_into d =? dt_weekday x) f 20 f1 f2); try assumption.
  - reflexivity.
  - intros k Hk. rewrite times_pass by (try reflexivity; unfold i64_max; lia). apply F, Hk.
  - destruct (times_done md (iter_next md) 20 it 20 eq_refl ltac:(lia) ltac:(cbn; lia)) as [X _]. exact X.
Qed.

(** At least one of seven consecutive days is a Monday. *)
Lemma mondays : forall g f c, (forall k, (k < 7 * c)%nat -> dt_valid (f k) = true /\ inst (f k) = inst now + Z.of_nat k * 86400) ->
  (forall d, weekday (year d) (month d) (day d) = 0 -> g d = true) -> (c <= length (filter g (map f (seq 0 (7 * c)))))%nat.
Proof.
  intros g f c. induction c as [|c IH]; intros HF Hg; [cbn; lia|].
  replace (7 * Datatypes.S c)%nat with (7 * c + 7)%nat by lia. rewrite seq_app, map_app, filter_app, app_length.
  specialize (IH ltac:(intros k Hk; apply HF; lia) Hg).
  assert (X : exists x, In x (filter g (map f (seq (0 + 7 * c) 7)))).
  { set (w := weekday (year now) (month now) (day now)).
    assert (W : 0 <= w < 7) by apply weekday_range.
    set (k := (7 * c + Z.to_nat ((- w) mod 7))%nat).
    assert (Hk : (7 * c <= k < 7 * c + 7)%nat) by (unfold k; lia).
    exists (f k). apply filter_In. split; [apply in_map, in_seq; lia|]. apply Hg.
    destruct (HF k ltac:(lia)) as [V I]. rewrite (weekday_shift now (f k) (Z.of_nat k) Hnow V I). fold w. unfold k. lia. }
  destruct X as [x X]. destruct (filter g (map f (seq (0 + 7 * c) 7))); [destruct X|]. cbn [length]. lia.
Qed.
Lemma test_compile_ok : forall fuel, inst now + 83 * 86400 < instant (max_year + 1) 1 1 0 0 0 -> (84 <= fuel)%nat ->
  exists f, (forall k, (k < 84)%nat -> dt_valid (f k) = true /\ inst (f k) = inst now + Z.of_nat k * 86400) /\
    let wanted := filter (fun x => (weekday (year x) (month x) (day x) =? 0) || (month x =? 1)) (map f (seq 0 84)) in
    (12 <= length wanted)%nat /\
    collects (times_next md (filter_next (iter_next md) fuel (filter_matches (fun t => day_filter Monday t || month_filter January t)))) (times_new it 12)
      (firstn 12 (map (fun x => Ok (Moment x)) wanted)).
Proof.
  intros fuel HR HF. destruct (daily_items 84 ltac:(lia)) as [f F]. exists f.
  split; [intros k Hk; apply F, Hk|]. intro wanted.
  assert (L : (12 <= length wanted)%nat).
  { apply (mondays _ f 12); [intros k Hk; apply F; lia|]. intros x Hx. rewrite Hx. reflexivity. }
  split; [exact L|].
  set (g := fun x => (weekday (year x) (month x) (day x) =? 0) || (month x =? 1)).
  assert (A : answer g f 84 false = map (fun x => Ok (Moment x)) wanted).
  { unfold answer, wanted. f_equal. apply filter_ext. intro x. unfold chosen. fold (g x). destruct (g x); reflexivity. }
  pose proof (filter_then_times md iter (iter_next md) it (filter_matches (fun t => day_filter Monday t || month_filter January t)) g f false 84 fuel 12) as T.
  rewrite A in T. apply T; try reflexivity; try assumption.
  - intros k Hk. apply F, Hk.
  - rewrite map_length. lia.
Qed.
End Today.
