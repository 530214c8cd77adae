(** Filtered iterations: when next() returns. *)
Require Import ZArith Bool List Lia ZifyBool.
From Verif Require Import Prelude Spec Chrono TimeType Matcher Iter SpecTree SpecMoment SpecIter SpecAdapt SpecHang SpecAnswer
  EvalProofs ShapeProofs IterProofs IterProofs2 AdapterProofs AdapterProofs2 AdapterProofs3 DocProofs SeqProofs AnswerProofs2 AnswerProofs3.
Import ListNotations.
Local Open Scope Z_scope.

Lemma items_listed : forall S (nx : next_fn S) K e s,
  (forall k, (k < K)%nat -> exists b, nth_item nx k s = Some (Ok (Moment b)) /\ dt_valid b = true) -> (forall k, (K <= k)%nat -> nth_item nx k s = Some (Err e)) ->
  exists l, length l = K /\ Forall (fun x => dt_valid x = true) l /\ forall j, items nx (length l + j) s = listed l ++ failing e j.
Proof.
  intros S nx. induction K as [|K IH]; intros e s A B.
  - exists []. split; [reflexivity|]. split; [constructor|]. intro j. revert s A B. induction j as [|j IHj]; intros s A B; [reflexivity|].
    cbn [length Nat.add items listed map app failing repeat]. f_equal; [exact (B 0%nat (le_n 0))|].
    apply IHj; [intros k L; lia|]. intros k _. exact (B (Datatypes.S k) ltac:(lia)).
  - destruct (A 0%nat ltac:(lia)) as (b & E & V). destruct (IH e (snd (nx s))) as (l & L & F & I).
    + intros k Hk. exact (A (Datatypes.S k) ltac:(lia)).
    + intros k Hk. exact (B (Datatypes.S k) ltac:(lia)).
    + exists (b :: l). split; [cbn; congruence|]. split; [constructor; assumption|]. intro j. cbn [length Nat.add items listed map app]. f_equal; [exact E|apply I].
Qed.
Lemma kept_listed : forall m (p : datetime -> bool) b l, (forall x, m (Moment x) = Ok (p x)) -> keep m b (listed l) = listed (filter (fun x => negb (Bool.eqb b (p x))) l).
Proof.
  intros m p b l H. induction l as [|x l IH]; [reflexivity|]. cbn [listed map keep filter decided]. rewrite H.
  destruct (negb (Bool.eqb b (p x))); cbn [listed map]; [f_equal|]; exact IH.
Qed.
Lemma kept_failing : forall m b e j, keep m b (failing e j) = failing e j.
Proof. intros m b e. induction j as [|j IH]; [reflexivity|]. cbn [failing repeat keep filter decided negb]. f_equal. exact IH. Qed.
Lemma seen_listed : forall m (p : datetime -> bool) l, (forall x, m (Moment x) = Ok (p x)) -> map (seen m) (listed l) = listed l.
Proof. intros m p l H. induction l as [|x l IH]; [reflexivity|]. cbn [listed map seen]. rewrite H. f_equal. exact IH. Qed.
Lemma seen_failing : forall m e j, map (seen m) (failing e j) = failing e j.
Proof. intros m e. induction j as [|j IH]; [reflexivity|]. cbn [failing repeat map seen]. f_equal. exact IH. Qed.
Lemma length_failing : forall e j, length (failing e j) = j.
Proof. intros e j. apply repeat_length. Qed.
Lemma length_listed : forall l, length (listed l) = length l.
Proof. intro l. apply map_length. Qed.

Lemma filtered : forall S (nx : next_fn S) m (p : datetime -> bool) b l e s, (forall x, m (Moment x) = Ok (p x)) -> (forall j, items nx (length l + j) s = listed l ++ failing e j) ->
  forall j fuel, (length l + j <= fuel)%nat ->
  let kept := filter (fun x => negb (Bool.eqb b (p x))) l in
  items (drop_next nx m b fuel) (length kept + j) s = listed kept ++ failing e j.
Proof.
  intros S nx m p b l e s H I j fuel F kept. pose proof (drop_items nx m b (length l + j) fuel s F) as D. cbv zeta in D.
  rewrite I in D. unfold keep in D. rewrite filter_app in D. fold (keep m b (listed l)) in D. fold (keep m b (failing e j)) in D.
  rewrite (kept_listed m p b l H), kept_failing in D. fold kept in D. rewrite app_length, length_failing, length_listed, map_app, (seen_listed m p _ H), seen_failing in D.
  exact D.
Qed.
Lemma filter_same : forall (p q : datetime -> bool) l, (forall x, p x = q x) -> filter p l = filter q l.
Proof. intros p q l H. induction l as [|x l IH]; [reflexivity|]. cbn [filter]. rewrite H, IH. reflexivity. Qed.
Lemma every_without_lists : forall S (nx : next_fn S) m (p : datetime -> bool) l e s, (forall x, m (Moment x) = Ok (p x)) -> (forall j, items nx (length l + j) s = listed l ++ failing e j) ->
  forall j fuel, (length l + j <= fuel)%nat ->
  items (filter_next nx fuel m) (length (filter p l) + j) s = listed (filter p l) ++ failing e j /\
  items (without_next nx fuel m) (length (filter (fun x => negb (p x)) l) + j) s = listed (filter (fun x => negb (p x)) l) ++ failing e j.
Proof.
  intros S nx m p l e s H I j fuel F. split.
  - pose proof (filtered S nx m p false l e s H I j fuel F) as D. cbv zeta in D. rewrite (filter_same _ p) in D by (intro x; destruct (p x); reflexivity). exact D.
  - pose proof (filtered S nx m p true l e s H I j fuel F) as D. cbv zeta in D. rewrite (filter_same _ (fun x => negb (p x))) in D by (intro x; destruct (p x); reflexivity). exact D.
Qed.
Lemma day_decides : forall d x, day_matches d (Moment x) = Ok (on_day d x).
Proof. intros d x. unfold day_matches, on_day, dt_weekday. cbn [get_moment ok_or]. rewrite Z.eqb_sym. reflexivity. Qed.
Lemma month_decides : forall mo x, month_matches mo (Moment x) = Ok (in_ymonth mo x).
Proof. intros mo x. unfold month_matches, in_ymonth. cbn [get_moment ok_or]. rewrite Z.eqb_sym. reflexivity. Qed.

(** ** Iterations that end *)
Lemma drop_returns : forall S (nx : next_fn S) m b N s, (forall k, (N <= k)%nat -> decided m b (nth_item nx k s) = false) ->
  (forall k, nth_item nx k s <> Some OutOfFuel) -> (forall v, m v <> OutOfFuel) ->
  forall j fuel, (N + j < fuel)%nat -> nth_item (drop_next nx m b fuel) j s <> Some OutOfFuel.
Proof.
  intros S nx m b N s D F M j fuel L. pose proof (drop_items nx m b (N + Datatypes.S j) fuel s ltac:(lia)) as E. cbv zeta in E.
  set (kept := keep m b (items nx (N + Datatypes.S j) s)) in *.
  assert (Lk : (j < length kept)%nat).
  { subst kept. unfold keep. rewrite items_app, filter_app, app_length.
    assert (X : forall i t, (forall k, decided m b (nth_item nx k t) = false) -> length (filter (fun x => negb (decided m b x)) (items nx i t)) = i).
    { induction i as [|i IH]; intros t H; [reflexivity|]. cbn [items filter]. pose proof (H 0%nat) as H0. unfold nth_item in H0. cbn [after] in H0. rewrite H0. cbn [negb length].
      f_equal. apply IH. intro k. exact (H (Datatypes.S k)). }
    rewrite (X (Datatypes.S j)); [lia|]. intro k. rewrite <- nth_item_add. apply D. lia. }
  pose proof (items_nth (drop_next nx m b fuel) (length kept) s j Lk) as P. rewrite E in P.
  destruct (nth_error kept j) as [x|] eqn:X; [|apply nth_error_None in X; lia]. rewrite (map_nth_error (seen m) j kept X) in P. injection P as <-.
  apply nth_error_In in X. subst kept. unfold keep in X. apply filter_In in X. destruct X as [X _]. apply In_nth_error in X. destruct X as [i X].
  assert (Li : (i < N + Datatypes.S j)%nat).
  { assert (length (items nx (N + Datatypes.S j) s) = (N + Datatypes.S j)%nat) as <-; [|apply nth_error_Some; congruence].
    generalize (N + Datatypes.S j)%nat. intro q. clear. revert s. induction q as [|q IH]; intro s; [reflexivity|]. cbn [items length]. f_equal. apply IH. }
  rewrite items_nth in X by exact Li. injection X as <-. specialize (F i). unfold seen. destruct (nth_item nx i s) as [[t|e|q|]|]; try discriminate; [|congruence].
  pose proof (M t). destruct (m t); try discriminate. congruence.
Qed.

Section Mode.
Variable md : mode.
Lemma filter_times : forall S (nx : next_fn S) n s m, in_i64 n = true -> 0 <= n -> (forall k, nth_item nx k s <> Some OutOfFuel) -> (forall v, m v <> OutOfFuel) ->
  forall j fuel, (Z.to_nat n + j < fuel)%nat ->
  nth_item (filter_next (times_next md nx) fuel m) j (times_new s n) <> Some OutOfFuel /\ nth_item (without_next (times_next md nx) fuel m) j (times_new s n) <> Some OutOfFuel.
Proof.
  intros S nx n s m Hi Hn F M j fuel L.
  assert (D : forall b k, (Z.to_nat n <= k)%nat -> decided m b (nth_item (times_next md nx) k (times_new s n)) = false).
  { intros b k Hk. rewrite (proj1 (times_done md nx n s k Hi Hn ltac:(lia))). reflexivity. }
  assert (G : forall k, nth_item (times_next md nx) k (times_new s n) <> Some OutOfFuel).
  { intro k. destruct (Z_lt_ge_dec (Z.of_nat k) n) as [H|H].
    - rewrite times_pass; [apply F|exact Hi|right; exact H|]. unfold in_i64 in Hi. apply andb_true_iff in Hi. lia.
    - rewrite (proj1 (times_done md nx n s k Hi Hn ltac:(lia))). discriminate. }
  split; [exact (drop_returns _ _ m false _ _ (D false) G M j fuel L)|exact (drop_returns _ _ m true _ _ (D true) G M j fuel L)].
Qed.
Lemma moving_ends : forall m u n it, build m (mk u n) = Ok it -> dt_valid m = true -> moving u n ->
  exists l e, Forall (fun x => dt_valid x = true) l /\ forall j, items (iter_next md) (length l + j) it = listed l ++ failing e j.
Proof.
  intros m u n it B Hm [[N S]|N].
  - destruct (forward_ends md m u n it B Hm N S) as (K & e & _ & A & E). destruct (items_listed _ _ K e it A E) as (l & _ & F & I). exists l, e. split; assumption.
  - destruct (backward_ends md m u n it B Hm N) as (K & e & _ & A & E). destruct (items_listed _ _ K e it A E) as (l & _ & F & I). exists l, e. split; assumption.
Qed.
Lemma filtered_ends : forall m u n it, build m (mk u n) = Ok it -> dt_valid m = true -> moving u n ->
  exists l e, Forall (fun x => dt_valid x = true) l /\ (forall j, items (iter_next md) (length l + j) it = listed l ++ failing e j) /\
  forall j fuel, (length l + j <= fuel)%nat ->
  (forall d, items (filter_next (iter_next md) fuel (day_matches d)) (length (filter (on_day d) l) + j) it = listed (filter (on_day d) l) ++ failing e j /\
     items (without_next (iter_next md) fuel (day_matches d)) (length (filter (fun x => negb (on_day d x)) l) + j) it = listed (filter (fun x => negb (on_day d x)) l) ++ failing e j) /\
  (forall mo, items (filter_next (iter_next md) fuel (month_matches mo)) (length (filter (in_ymonth mo) l) + j) it = listed (filter (in_ymonth mo) l) ++ failing e j /\
     items (without_next (iter_next md) fuel (month_matches mo)) (length (filter (fun x => negb (in_ymonth mo x)) l) + j) it = listed (filter (fun x => negb (in_ymonth mo x)) l) ++ failing e j).
Proof.
  intros m u n it B Hm M. destruct (moving_ends m u n it B Hm M) as (l & e & F & I). exists l, e. split; [exact F|]. split; [exact I|].
  intros j fuel L. split; intro d; [apply every_without_lists with (1 := day_decides d)|apply every_without_lists with (1 := month_decides d)]; assumption.
Qed.
Lemma filter_until : forall m u n it ending mt, build m (mk u n) = Ok it -> dt_valid m = true -> moving u n -> (forall v, mt v <> OutOfFuel) ->
  exists K, forall j fuel, (K + j < fuel)%nat ->
  nth_item (filter_next (until_next md (iter_next md) ending) fuel mt) j it <> Some OutOfFuel /\ nth_item (without_next (until_next md (iter_next md) ending) fuel mt) j it <> Some OutOfFuel.
Proof.
  intros m u n it ending mt B Hm M Mt.
  assert (Hi : in_i64 n = true) by (destruct M as [[N S]|N]; [apply span_i64 with u; lia|unfold in_i64, i64_min, i64_max in *; apply andb_true_iff; lia]).
  pose proof (build_ok m u n it Hm Hi B) as O.
  assert (X : exists K e, (forall k, (k < K)%nat -> exists b, nth_item (iter_next md) k it = Some (Ok (Moment b)) /\ dt_valid b = true) /\
    forall k, (K <= k)%nat -> nth_item (iter_next md) k it = Some (Err e)).
  { destruct M as [[N S]|N]; [destruct (forward_ends md m u n it B Hm N S) as (K & e & _ & A & E)|destruct (backward_ends md m u n it B Hm N) as (K & e & _ & A & E)];
      exists K, e; split; assumption. }
  destruct X as (K & e & A & E). exists K. intros j fuel L.
  assert (D : forall b k, (K <= k)%nat -> decided mt b (nth_item (until_next md (iter_next md) ending) k it) = false).
  { intros b k Hk. rewrite until_rest; rewrite (E k Hk); [reflexivity|discriminate]. }
  assert (G : forall k, nth_item (until_next md (iter_next md) ending) k it <> Some OutOfFuel).
  { intros k Q. pose proof (until_returns md _ (iter_next md) ending it (fun k => iter_returns md it k O)) as R.
    assert (T : forall k t, nth_item (iter_next md) k it = Some (Ok t) -> tt_ok t = true).
    { intros i t Ht. destruct (Nat.lt_ge_cases i K) as [Li|Li]; [|rewrite (E i Li) in Ht; discriminate Ht].
      destruct (A i Li) as (b & Eb & V). rewrite Eb in Ht. injection Ht as <-. exact V. }
    specialize (R T k). rewrite Q in R. exact R. }
  split; [exact (drop_returns _ _ mt false _ _ (D false) G Mt j fuel L)|exact (drop_returns _ _ mt true _ _ (D true) G Mt j fuel L)].
Qed.

(** ** Iterations that stay where they are *)
Lemma zero_items : forall m u it k, build m (mk u 0) = Ok it -> dt_valid m = true ->
  exists x, nth_item (iter_next md) k it = Some (Ok (Moment x)) /\ year x = year m /\ month x = month m /\ day x = day m.
Proof.
  intros m u it k B Hm. apply build_at in B. subst it.
  assert (Z0 : forall x, dt_valid x = true -> calculate md (Addition (Moment x) (mk u 0)) = Ok (Moment (whole_second x))).
  { intros x Hx. apply zero_tree; try assumption; destruct u; try reflexivity; vm_compute; discriminate. }
  assert (W : dt_valid (whole_second m) = true) by (destruct m as [y mo d h mi se na]; unfold dt_valid, whole_second in *; cbn [year month day hour minute second nano] in *; rewrite !andb_true_iff in *; intuition lia).
  assert (A : forall j, after (iter_next md) (Datatypes.S (Datatypes.S j)) (at_moment u 0 m false) = at_moment u 0 (whole_second m) true).
  { assert (N1 : snd (iter_next md (at_moment u 0 m true)) = at_moment u 0 (whole_second m) true).
    { unfold iter_next, at_moment. cbn [had_first negb]. unfold skip, recalculate. cbn [base increment had_first]. unfold op_add_assign. rewrite Z0 by exact Hm. reflexivity. }
    assert (N2 : snd (iter_next md (at_moment u 0 (whole_second m) true)) = at_moment u 0 (whole_second m) true).
    { unfold iter_next, at_moment. cbn [had_first negb]. unfold skip, recalculate. cbn [base increment had_first]. unfold op_add_assign. rewrite Z0 by exact W. reflexivity. }
    induction j as [|j IH].
    - cbn [after]. replace (snd (iter_next md (at_moment u 0 m false))) with (at_moment u 0 m true) by reflexivity. exact N1.
    - rewrite after_S, IH. exact N2. }
  destruct k as [|[|k]].
  - exists m. repeat split.
  - exists (whole_second m). unfold nth_item. cbn [after]. replace (snd (iter_next md (at_moment u 0 m false))) with (at_moment u 0 m true) by reflexivity.
    unfold iter_next, at_moment. cbn [had_first negb]. unfold skip, recalculate. cbn [base increment had_first]. unfold op_add_assign. rewrite Z0 by exact Hm. repeat split.
  - exists (whole_second m). unfold nth_item. rewrite A. unfold iter_next, at_moment. cbn [had_first negb]. unfold skip, recalculate. cbn [base increment had_first]. unfold op_add_assign.
    rewrite Z0 by exact W. repeat split.
Qed.
Lemma zero_hangs : forall m u it, build m (mk u 0) = Ok it -> dt_valid m = true ->
  (forall d, if on_day d m then hangs (fun f => without_next (iter_next md) f (day_matches d)) it else hangs (fun f => filter_next (iter_next md) f (day_matches d)) it) /\
  (forall mo, if in_ymonth mo m then hangs (fun f => without_next (iter_next md) f (month_matches mo)) it else hangs (fun f => filter_next (iter_next md) f (month_matches mo)) it).
Proof.
  intros m u it B Hm. split; intro d.
  - destruct (on_day d m) eqn:D; intro fuel; [apply without_diverges|apply every_diverges]; clear fuel; intro i; destruct (zero_items m u it i B Hm) as (x & -> & Y & M & Dd);
      unfold decided; rewrite day_decides; unfold on_day in *; rewrite Y, M, Dd, D; reflexivity.
  - destruct (in_ymonth d m) eqn:D; intro fuel; [apply without_diverges|apply every_diverges]; clear fuel; intro i; destruct (zero_items m u it i B Hm) as (x & -> & Y & M & Dd);
      unfold decided; rewrite month_decides; unfold in_ymonth in *; rewrite M, D; reflexivity.
Qed.

(** ** The exact criterion *)
Lemma drop_hangs : forall b mt m inc it, build m inc = Ok it -> dt_valid m = true -> tt_ok inc = true -> (forall v, mt v <> OutOfFuel) ->
  (hangs (drop_next (iter_next md) mt b) it <-> forall k, exists v, call_answer md m inc k = Ok v /\ mt v = Ok b).
Proof.
  intros b mt m inc it B Hm Hi M. pose proof (fun k => built_calls md m inc it k Hm Hi B) as C.
  assert (NF : forall k, call_answer md m inc k <> OutOfFuel).
  { intros k E. assert (O : iter_ok it).
    { unfold build in B. destruct (is_a_amount inc) eqn:A; [|discriminate B]. injection B as <-. split; [exact Hm|]. split; assumption. }
    pose proof (iter_returns md it k O) as R. rewrite C, E in R. exact R. }
  assert (Dec : forall k, decided mt b (nth_item (iter_next md) k it) = true <-> exists v, call_answer md m inc k = Ok v /\ mt v = Ok b).
  { intro k. rewrite C. unfold decided. destruct (call_answer md m inc k) as [v|e|q|].
    - destruct (mt v) as [b'|e|q|] eqn:E; split; try (intro H; discriminate H).
      + intro H. apply eqb_prop in H. subst b'. exists v. split; [reflexivity|exact E].
      + intros (w & W & Q). injection W as <-. assert (b' = b) by congruence. subst b'. apply eqb_reflx.
      + intros (w & W & Q). injection W as <-. congruence.
      + intros (w & W & Q). injection W as <-. congruence.
      + intros (w & W & Q). injection W as <-. congruence.
    - split; [discriminate|]. intros (w & W & _). discriminate W.
    - split; [discriminate|]. intros (w & W & _). discriminate W.
    - split; [discriminate|]. intros (w & W & _). discriminate W. }
  split.
  - intros H k. apply Dec. induction k as [k IH] using lt_wf_ind. destruct (decided mt b (nth_item (iter_next md) k it)) eqn:D; [reflexivity|exfalso].
    specialize (H (Datatypes.S k)). rewrite (drop_first _ _ b k (Datatypes.S k) it) in H; [|lia|exact IH|exact D].
    cbn [fst] in H. rewrite C in H. unfold seen in H. specialize (NF k). destruct (call_answer md m inc k) as [v|e|q|]; try discriminate H; [|congruence].
    pose proof (M v). destruct (mt v); try discriminate H. congruence.
  - intros H fuel. apply drop_never. intros i _. apply Dec. apply H.
Qed.
Lemma every_hangs : forall mt m inc it, build m inc = Ok it -> dt_valid m = true -> tt_ok inc = true -> (forall v, mt v <> OutOfFuel) ->
  (hangs (fun f => filter_next (iter_next md) f mt) it <-> forall k, exists v, call_answer md m inc k = Ok v /\ mt v = Ok false).
Proof. exact (drop_hangs false). Qed.
Lemma without_hangs : forall mt m inc it, build m inc = Ok it -> dt_valid m = true -> tt_ok inc = true -> (forall v, mt v <> OutOfFuel) ->
  (hangs (fun f => without_next (iter_next md) f mt) it <-> forall k, exists v, call_answer md m inc k = Ok v /\ mt v = Ok true).
Proof. exact (drop_hangs true). Qed.
End Mode.
