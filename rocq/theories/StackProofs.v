(** Proofs about stacks of adapters. *)
Require Import ZArith Bool List Lia ZifyBool.
From Verif Require Import Prelude Spec PreludeProofs Chrono TimeType Matcher Iter SpecTree SpecMoment SpecIter SpecAdapt SpecHang SpecAnswer SpecAnswer2 ParserIterator Stack SpecStack
  Nom ParserTimetype ParserMod SpecText ParserProofs3
  EvalProofs ShapeProofs CompProofs OrdProofs IterProofs IterProofs2 AdapterProofs AdapterProofs2 AdapterProofs3 SeqProofs ComposeProofs DocProofs HangProofs LowerProofs AnswerProofs2 AnswerProofs3.
Import ListNotations.
Local Open Scope Z_scope.

(** ** More fuel changes nothing *)
Section Fuel.
Variable md : mode.

Lemma drop_more : forall S (nx nx' : next_fn S) mt b, (forall s, fst (nx s) <> Some OutOfFuel -> nx' s = nx s) ->
  forall g g' s, (g <= g')%nat -> fst (drop_next nx mt b g s) <> Some OutOfFuel -> drop_next nx' mt b g' s = drop_next nx mt b g s.
Proof.
  intros S nx nx' mt b H. induction g as [|g IH]; intros g' s L N; [destruct b; elim N; reflexivity|].
  destruct g' as [|g']; [lia|]. rewrite !drop_eq in *.
  assert (I : fst (nx s) <> Some OutOfFuel) by (intro Q; rewrite Q in N; apply N; reflexivity).
  rewrite (H s I). destruct (decided mt b (fst (nx s))); [|reflexivity]. apply IH; [lia|exact N].
Qed.
Lemma until_more : forall S (nx nx' : next_fn S) e, (forall s, fst (nx s) <> Some OutOfFuel -> nx' s = nx s) ->
  forall s, fst (until_next md nx e s) <> Some OutOfFuel -> until_next md nx' e s = until_next md nx e s.
Proof.
  intros S nx nx' e H s N. unfold until_next in *. rewrite (H s); [reflexivity|].
  intro Q. apply N. destruct (nx s) as [i s']. cbn [fst] in Q. subst i. reflexivity.
Qed.
Lemma times_more : forall S (nx nx' : next_fn S), (forall s, fst (nx s) <> Some OutOfFuel -> nx' s = nx s) ->
  forall s, fst (times_next md nx s) <> Some OutOfFuel -> times_next md nx' s = times_next md nx s.
Proof.
  intros S nx nx' H s N. unfold times_next in *. destruct (times s =? count s); [reflexivity|].
  destruct (addc (E := kek) md (Ok (count s)) (Ok 1)) as [c|e|q|]; try reflexivity. rewrite (H (inner s)); [reflexivity|].
  intro Q. apply N. destruct (nx (inner s)) as [i s']. exact Q.
Qed.
Lemma call_more : forall p f f' s, (f <= f')%nat -> fst (call md f p s) <> Some OutOfFuel -> call md f' p s = call md f p s.
Proof.
  induction p as [m inc|ui|p IH mt|p IH mt|p IH e|p IH n]; intros f f' s L N.
  - reflexivity.
  - reflexivity.
  - exact (drop_more _ (call md f p) (call md f' p) mt false (fun s => IH f f' s L) f f' s L N).
  - exact (drop_more _ (call md f p) (call md f' p) mt true (fun s => IH f f' s L) f f' s L N).
  - exact (until_more _ (call md f p) (call md f' p) e (fun s => IH f f' s L) s N).
  - exact (times_more _ (call md f p) (call md f' p) (fun s => IH f f' s L) s N).
Qed.
Lemma items_more : forall p f f' k s, (f <= f')%nat -> returned (items (call md f p) k s) ->
  items (call md f' p) k s = items (call md f p) k s /\ after (call md f' p) k s = after (call md f p) k s.
Proof.
  intros p f f'. induction k as [|k IH]; intros s L R; [split; reflexivity|]. cbn [items after] in *. inversion R as [|x l H1 H2]; subst.
  rewrite (call_more p f f' s L H1). destruct (IH (snd (call md f p s)) L H2) as [-> ->]. split; reflexivity.
Qed.
End Fuel.

(** ** Lists of calls *)
Lemma items_map : forall S (nx : next_fn S) n s, items nx n s = map (fun k => nth_item nx k s) (seq 0 n).
Proof.
  intros S nx. induction n as [|n IH]; intro s; [reflexivity|]. cbn [items seq map]. f_equal. rewrite IH, <- seq_shift, map_map. apply map_ext. intro k. reflexivity.
Qed.
Lemma drop_last : forall S (nx : next_fn S) mt b g s, fst (drop_next nx mt b g s) <> Some OutOfFuel ->
  exists K, snd (drop_next nx mt b g s) = after nx K s /\ returned (items nx K s) /\
    map (seen mt) (keep mt b (items nx K s)) = [fst (drop_next nx mt b g s)].
Proof.
  intros S nx mt b. induction g as [|g IH]; intros s N; [destruct b; elim N; reflexivity|]. rewrite !drop_eq in *.
  assert (I : fst (nx s) <> Some OutOfFuel) by (intro Q; rewrite Q in N; apply N; reflexivity).
  destruct (decided mt b (fst (nx s))) eqn:D.
  - destruct (IH (snd (nx s)) N) as (K & A & R & E). exists (Datatypes.S K). cbn [items after]. split; [exact A|]. split; [constructor; assumption|].
    unfold keep in *. cbn [filter]. rewrite D. exact E.
  - exists 1%nat. cbn [items after fst snd]. split; [reflexivity|]. split; [repeat constructor; exact I|]. unfold keep. cbn [filter]. rewrite D. reflexivity.
Qed.
Lemma drop_lists : forall S (nx : next_fn S) mt b g k s, returned (items (drop_next nx mt b g) k s) ->
  exists K, returned (items nx K s) /\ map (seen mt) (keep mt b (items nx K s)) = items (drop_next nx mt b g) k s.
Proof.
  intros S nx mt b g. induction k as [|k IH]; intros s R; [exists 0%nat; split; [constructor|reflexivity]|].
  cbn [items] in *. inversion R as [|x l H1 H2]; subst. destruct (drop_last S nx mt b g s H1) as (K & A & R1 & E1).
  destruct (IH _ H2) as (K2 & R2 & E2). exists (K + K2)%nat. rewrite A in R2, E2. rewrite items_app. split; [apply Forall_app; split; assumption|].
  unfold keep in *. rewrite filter_app, map_app, E1, E2, A. reflexivity.
Qed.
Definition item_fine (i : item) : Prop := match i with Some (Ok t) => tt_ok t = true | Some OutOfFuel => False | _ => True end.
Lemma fine_returned : forall l, Forall item_fine l -> returned l.
Proof. intros l F. unfold returned. eapply Forall_impl; [|exact F]. intros i H E. subst i. exact H. Qed.
Lemma seen_fine : forall mt, (forall v, mt v <> OutOfFuel) -> forall i, item_fine i -> item_fine (seen mt i).
Proof. intros mt M [[t|e|q|]|] H; cbn [seen]; try exact H. specialize (M t). destruct (mt t); [exact H|exact I|exact I|congruence]. Qed.
Lemma keep_fine : forall mt b l, (forall v, mt v <> OutOfFuel) -> Forall item_fine l -> Forall item_fine (map (seen mt) (keep mt b l)).
Proof.
  intros mt b l M F. apply Forall_forall. intros i Hi. apply in_map_iff in Hi. destruct Hi as (x & <- & Hx). apply filter_In in Hx.
  apply seen_fine; [exact M|]. rewrite Forall_forall in F. apply F, Hx.
Qed.

Section Mode.
Variable md : mode.

Lemma until_list : forall S (nx : next_fn S) e k s, dt_valid e = true -> Forall item_fine (items nx k s) ->
  items (until_next md nx e) k s = map (cut md e) (items nx k s).
Proof.
  intros S nx e k. induction k as [|k IH]; intros s He F; [reflexivity|]. cbn [items map] in *. inversion F as [|x l H1 H2]; subst.
  assert (Sn : snd (until_next md nx e s) = snd (nx s)) by (unfold until_next; destruct (nx s) as [[[t|e'|q|]|] s']; reflexivity).
  rewrite Sn, (IH _ He H2). f_equal. clear IH H2 F Sn. unfold until_next. destruct (nx s) as [[[t|e'|q|]|] s']; cbn [fst] in *; try reflexivity.
  cbn [cut item_fine] in *. rewrite <- (answer_correct md t H1). pose proof (calculate_good md t H1) as G. destruct (calculate md t) as [v|e'|q|]; try reflexivity.
  destruct v as [n|n|n|n|n|n|m| | | | | | | ]; try reflexivity. cbn [is_moment get_moment]. destruct G as [_ V]. change (dt_valid m = true) in V.
  replace (dt_ltb m e) with ((inst m <? inst e) || (inst m =? inst e) && (nano m <? nano e)); [destruct (_ || _); reflexivity|].
  rewrite dt_ltb_inst by assumption. pose proof (nano_range m V). pose proof (nano_range e He). lia.
Qed.
Lemma cut_fine : forall e i, item_fine i -> item_fine (cut md e i).
Proof.
  intros e [[t|e'|q|]|] H; cbn [cut]; try exact H. pose proof (answer_good md t H) as G. destruct (SpecAnswer.answer md t) as [v|e'|q|]; try exact I; [|elim G].
  destruct v as [n|n|n|n|n|n|m| | | | | | | ]; try exact I. destruct (_ || _); [|exact I]. apply G.
Qed.
Lemma until_inner : forall S (nx : next_fn S) e k s, returned (items (until_next md nx e) k s) -> returned (items nx k s).
Proof.
  intros S nx e. induction k as [|k IH]; intros s R; [constructor|]. cbn [items] in *. inversion R as [|x l H1 H2]; subst.
  assert (Sn : snd (until_next md nx e s) = snd (nx s)) by (unfold until_next; destruct (nx s) as [[[t|e'|q|]|] s']; reflexivity).
  rewrite Sn in H2. constructor; [|apply IH, H2]. intro Q. apply H1. unfold until_next. destruct (nx s) as [i s']. cbn [fst] in Q. subst i. reflexivity.
Qed.
Lemma passed_nat : forall n, in_i64 n = true -> exists K, Z.of_nat K = passed_on md n.
Proof.
  intros n H. exists (Z.to_nat (passed_on md n)). apply Z2Nat.id. unfold passed_on. unfold in_i64, i64_min, i64_max in *.
  destruct (0 <=? n) eqn:E; [lia|]. destruct md; lia.
Qed.
Lemma times_nth : forall S (nx : next_fn S) n s k, in_i64 n = true ->
  nth_item (times_next md nx) k (times_new s n) = if Z.of_nat k <? passed_on md n then nth_item nx k s else afterwards md n.
Proof.
  intros S nx n s k H. unfold passed_on, afterwards. destruct (0 <=? n) eqn:E.
  - destruct (Z.of_nat k <? n) eqn:L; [apply times_pass; unfold in_i64 in H; try lia; assumption|apply times_done; try lia; assumption].
  - destruct md.
    + destruct (Z.of_nat k <? i64_max) eqn:L; [apply times_pass; try lia; assumption|apply times_neg_checked; try lia; assumption].
    + assert (M : n mod 18446744073709551616 = n + 18446744073709551616).
      { symmetry. apply (Z.mod_unique_pos _ _ (-1)); unfold in_i64, i64_min, i64_max in H; lia. }
      pose proof (times_wrap S nx n s H) as W. cbv zeta in W. rewrite M in W. destruct W as [W1 W2].
      destruct (Z.of_nat k <? n + 18446744073709551616) eqn:L; [apply W1; lia|apply W2; lia].
Qed.
Lemma times_list : forall S (nx : next_fn S) n s a j, in_i64 n = true -> Z.of_nat a <= passed_on md n -> (j <> 0%nat -> Z.of_nat a = passed_on md n) ->
  items (times_next md nx) (a + j) (times_new s n) = items nx a s ++ repeat (afterwards md n) j.
Proof.
  intros S nx n s a j H La Lj. rewrite (items_map _ (times_next md nx)), items_map, seq_app, map_app. f_equal.
  - apply map_ext_in. intros k Hk. apply in_seq in Hk. rewrite times_nth by exact H. destruct (Z.of_nat k <? passed_on md n) eqn:E; [reflexivity|lia].
  - rewrite Nat.add_0_l. assert (X : forall b i, Z.of_nat b >= passed_on md n -> map (fun k => nth_item (times_next md nx) k (times_new s n)) (seq b i) = repeat (afterwards md n) i).
    { intros b i. revert b. induction i as [|i IH]; intros b Hb; [reflexivity|]. cbn [seq map repeat]. rewrite times_nth by exact H.
      destruct (Z.of_nat b <? passed_on md n) eqn:E; [lia|]. f_equal. apply IH. lia. }
    destruct j as [|j]; [reflexivity|]. apply X. lia.
Qed.
Lemma build_calls : forall m inc it k, dt_valid m = true -> tt_ok inc = true -> build m inc = Ok it ->
  items (iter_next md) k it = map (fun i => Some (call_answer md m inc i)) (seq 0 k) /\ Forall item_fine (items (iter_next md) k it).
Proof.
  intros m inc it k Hm Hi B. split; [apply items_seq; intros i _; apply built_calls; assumption|].
  assert (O : iter_ok it).
  { unfold build in B. destruct (is_a_amount inc) eqn:A; [|discriminate B]. injection B as <-. split; [exact Hm|]. split; assumption. }
  rewrite items_map. apply Forall_forall. intros x Hx. apply in_map_iff in Hx. destruct Hx as (i & <- & _).
  pose proof (iter_returns md it i O) as R. pose proof (iter_ok_after md (Datatypes.S i) it O) as (T & _ & _). rewrite after_S in T. unfold nth_item in *.
  pose proof (iter_ok_after md i it O) as (T0 & _ & _). clear Hm Hi B O.
  set (s := after (iter_next md) i it) in *. unfold iter_next in *. destruct (negb (had_first s)); [exact T0|].
  destruct (skip md s) as [[u|e|q|] s']; cbn [fst snd item_fine] in *; try exact I; [exact T|exact R].
Qed.

(** A parsed iterator is a stack of at most one adapter. *)
Definition unparse (ui : useriterator) : stack :=
  match ui with
  | UIIterator i => Stepping (moment_in i) (increment i)
  | UITimes t => TimesOf (Stepping (moment_in (inner t)) (increment (inner t))) (times t)
  | UIUntil i e => UntilOf (Stepping (moment_in i) (increment i)) e
  end.
Lemma unparse_items : forall ui, stack_ok (Parsed ui) -> exists s, stack_ok (unparse ui) /\ start (unparse ui) = Ok s /\ yields md (unparse ui) = yields md (Parsed ui) /\
  root (unparse ui) = root (Parsed ui) /\ forall f k, items (user_next md) k ui = items (call md f (unparse ui)) k s.
Proof.
  assert (B : forall i, fresh i -> build (moment_in i) (increment i) = Ok i).
  { intros [b inc h] (H1 & _ & _ & H4 & H5). unfold build. cbn [base increment had_first] in *. rewrite H4. cbn [negb]. unfold moment. rewrite <- H1, H5. reflexivity. }
  intros [i|t|i e] F.
  - exists i. destruct F as (F1 & F2 & F3 & F4 & F5). split; [split; assumption|]. split; [apply B; repeat split; assumption|]. split; [reflexivity|]. split; [reflexivity|].
    intros f k. rewrite !items_map. apply map_ext. intro j. apply user_plain.
  - exists t. destruct F as ((F1 & F2 & F3 & F4 & F5) & C & N). destruct t as [i n c]. cbn [inner times count] in *. subst c.
    split; [repeat split; assumption|]. split; [cbn [unparse start inner times]; rewrite B by (repeat split; assumption); reflexivity|]. split; [reflexivity|]. split; [reflexivity|].
    intros f k. rewrite !items_map. apply map_ext. intro j. apply user_times.
  - exists i. destruct F as ((F1 & F2 & F3 & F4 & F5) & V). split; [repeat split; assumption|]. split; [apply B; repeat split; assumption|]. split; [reflexivity|]. split; [reflexivity|].
    intros f k. rewrite !items_map. apply map_ext. intro j. apply user_until.
Qed.
Definition gives_list (p : stack) : Prop := forall s l, stack_ok p -> start p = Ok s -> yields md p l ->
  Forall item_fine l /\ exists F, forall f, (F <= f)%nat -> items (call md f p) (length l) s = l.
Lemma stepping_gives : forall m inc, gives_list (Stepping m inc).
Proof.
  intros m inc s l [Hm Hi] Hs Hy. destruct (build_calls m inc s (length l) Hm Hi Hs) as [E F]. cbn [yields] in Hy. unfold stepped in Hy. rewrite <- Hy in E. rewrite E in F. split; [exact F|].
  exists 0%nat. intros f _. exact E.
Qed.
Lemma until_gives : forall p e, gives_list p -> gives_list (UntilOf p e).
Proof.
  intros p e IH s l [Hf He] Hs (l' & Hy & ->). destruct (IH s l' Hf Hs Hy) as (F & N & H). split.
  - apply Forall_forall. intros x Hx. apply in_map_iff in Hx. destruct Hx as (y & <- & Hx). apply cut_fine. rewrite Forall_forall in F. apply F, Hx.
  - exists N. intros f Lf. rewrite map_length. pose proof (until_list _ (call md f p) e (length l') s He) as D. rewrite (H f Lf) in D. apply D, F.
Qed.
Lemma times_gives : forall p n, gives_list p -> gives_list (TimesOf p n).
Proof.
  intros p n IH s l [Hf Hn] Hs (l' & j & Hy & -> & La & Lj). cbn [start] in Hs. destruct (start p) as [s'|?|?|] eqn:Es; try discriminate Hs. cbn [bind] in Hs. injection Hs as <-.
  destruct (IH s' l' Hf Es Hy) as (F & N & H). split.
  - apply Forall_app. split; [exact F|]. apply Forall_forall. intros x Hx. apply repeat_spec in Hx. subst x. unfold afterwards. destruct (0 <=? n); [exact I|]. destruct md; exact I.
  - exists N. intros f Lf. rewrite app_length, repeat_length. pose proof (times_list _ (call md f p) n s' (length l') j Hn La Lj) as D. rewrite (H f Lf) in D. exact D.
Qed.
Lemma unparse_gives : forall ui, gives_list (unparse ui).
Proof. intros [i|t|i e]; [apply stepping_gives|apply times_gives, stepping_gives|apply until_gives, stepping_gives]. Qed.
Lemma stack_gives : forall p, gives_list p.
Proof.
  induction p as [m inc|ui|p IH mt|p IH mt|p IH e|p IH n].
  - apply stepping_gives.
  - intros s l Hf Hs Hy. injection Hs as <-. destruct (unparse_items ui Hf) as (s & Hf' & Hs' & Ey & _ & E). rewrite <- Ey in Hy.
    destruct (unparse_gives ui s l Hf' Hs' Hy) as (F & N & H). split; [exact F|]. exists N. intros f L. rewrite <- (H f L) at 2. apply E.
  - intros s l [Hf M] Hs (l' & Hy & ->). destruct (IH s l' Hf Hs Hy) as (F & N & H). split; [apply keep_fine; assumption|].
    exists (max N (length l')). intros f Lf. rewrite map_length. pose proof (every_items _ (call md f p) mt (length l') f s ltac:(lia)) as D. cbv zeta in D.
    rewrite (H f ltac:(lia)) in D. exact D.
  - intros s l [Hf M] Hs (l' & Hy & ->). destruct (IH s l' Hf Hs Hy) as (F & N & H). split; [apply keep_fine; assumption|].
    exists (max N (length l')). intros f Lf. rewrite map_length. pose proof (without_items _ (call md f p) mt (length l') f s ltac:(lia)) as D. cbv zeta in D.
    rewrite (H f ltac:(lia)) in D. exact D.
  - apply until_gives, IH.
  - apply times_gives, IH.
Qed.
Definition only_list (p : stack) : Prop := forall s f k, stack_ok p -> start p = Ok s -> returned (items (call md f p) k s) -> yields md p (items (call md f p) k s).
Lemma stepping_only : forall m inc, only_list (Stepping m inc).
Proof.
  intros m inc s f k [Hm Hi] Hs R. pose proof (proj1 (build_calls m inc s k Hm Hi Hs)) as E.
  change (items (iter_next md) k s = map (fun i => Some (call_answer md m inc i)) (seq 0 (length (items (iter_next md) k s)))). rewrite items_length. exact E.
Qed.
Lemma until_only : forall p e, only_list p -> only_list (UntilOf p e).
Proof.
  intros p e IH s f k [Hf He] Hs R. pose proof (until_inner _ (call md f p) e k s R) as R'. pose proof (IH s f k Hf Hs R') as Y. exists (items (call md f p) k s). split; [exact Y|].
  apply until_list; [exact He|]. exact (proj1 (stack_gives p s _ Hf Hs Y)).
Qed.
Lemma times_only : forall p n, only_list p -> only_list (TimesOf p n).
Proof.
  intros p n IH s f k [Hf Hn] Hs R. cbn [start] in Hs. destruct (start p) as [s'|?|?|] eqn:Es; try discriminate Hs. cbn [bind] in Hs. injection Hs as <-.
  destruct (passed_nat n Hn) as [K HK]. change (call md f (TimesOf p n)) with (times_next md (call md f p)) in *.
  assert (X : exists a j, k = (a + j)%nat /\ Z.of_nat a <= passed_on md n /\ (j <> 0%nat -> Z.of_nat a = passed_on md n)).
  { destruct (Nat.le_gt_cases k K) as [L|L]; [exists k, 0%nat|exists K, (k - K)%nat]; lia. }
  destruct X as (a & j & -> & La & Lj). pose proof (times_list _ (call md f p) n s' a j Hn La Lj) as D. cbn [state] in *. rewrite D in *.
  apply Forall_app in R. exists (items (call md f p) a s'), j. split; [apply IH; [exact Hf|exact Es|apply R]|]. split; [reflexivity|]. rewrite items_length. split; assumption.
Qed.
Lemma stack_only : forall p, only_list p.
Proof.
  induction p as [m inc|ui|p IH mt|p IH mt|p IH e|p IH n].
  - apply stepping_only.
  - intros s f k Hf Hs R. injection Hs as <-. destruct (unparse_items ui Hf) as (s & Hf' & Hs' & Ey & _ & E). rewrite <- Ey. cbn [call state] in *. rewrite (E f k) in *.
    assert (O : only_list (unparse ui)) by (destruct ui as [i|t|i e]; [apply stepping_only|apply times_only, stepping_only|apply until_only, stepping_only]).
    apply O; assumption.
  - intros s f k [Hf M] Hs R. destruct (drop_lists _ (call md f p) mt false f k s R) as (K & R' & E). exists (items (call md f p) K s). split; [apply IH; assumption|]. symmetry. exact E.
  - intros s f k [Hf M] Hs R. destruct (drop_lists _ (call md f p) mt true f k s R) as (K & R' & E). exists (items (call md f p) K s). split; [apply IH; assumption|]. symmetry. exact E.
  - apply until_only, IH.
  - apply times_only, IH.
Qed.
Lemma stack_exactly : forall p s l, stack_ok p -> start p = Ok s ->
  (yields md p l <-> returned l /\ exists f, items (call md f p) (length l) s = l).
Proof.
  intros p s l Hf Hs. split.
  - intro Y. destruct (stack_gives p s l Hf Hs Y) as (F & N & H). split; [apply fine_returned, F|]. exists N. apply H. lia.
  - intros [R [f E]]. rewrite <- E. apply (stack_only p s f (length l) Hf Hs). rewrite E. exact R.
Qed.
Lemma stack_enough : forall p s f f' k, (f <= f')%nat -> returned (items (call md f p) k s) -> items (call md f' p) k s = items (call md f p) k s.
Proof. intros p s f f' k L R. apply (items_more md p f f' k s L R). Qed.
Lemma items_snoc : forall S (nx : next_fn S) k s, items nx (k + 1) s = items nx k s ++ [nth_item nx k s].
Proof. intros S nx k s. rewrite items_app. reflexivity. Qed.
Lemma stack_hangs : forall p s l, stack_ok p -> start p = Ok s -> yields md p l ->
  ((~ exists x, yields md p (l ++ [x])) <-> exists F, forall f, (F <= f)%nat -> nth_item (call md f p) (length l) s = Some OutOfFuel).
Proof.
  intros p s l Hf Hs Y. destruct (stack_gives p s l Hf Hs Y) as (FL & N & H). split.
  - intro X. exists N. intros f L. destruct (nth_item (call md f p) (length l) s) as [[t|e|q|]|] eqn:E; try reflexivity; elim X; eexists;
      (apply (stack_exactly p s _ Hf Hs); split; [apply Forall_app; split; [apply fine_returned, FL|repeat constructor]|
        exists f; rewrite app_length; cbn [length]; rewrite items_snoc, (H f L), E; reflexivity]); discriminate.
  - intros [F Hh] [x Yx]. destruct (stack_gives p s _ Hf Hs Yx) as (FL' & N' & H'). specialize (H' (max F N') ltac:(lia)). rewrite app_length in H'. cbn [length] in H'.
    rewrite items_snoc in H'. apply app_inj_tail in H'. destruct H' as [_ <-]. rewrite Hh in FL' by lia. apply Forall_app in FL'. destruct FL' as [_ FL']. inversion FL' as [|? ? Q ?]. exact Q.
Qed.
Lemma same_front : forall A (a b c d : list A), length a = length b -> a ++ c = b ++ d -> a = b.
Proof.
  intros A. induction a as [|x a IH]; intros [|y b] c d L E; try discriminate L; [reflexivity|]. cbn [app] in E. injection E as -> E. f_equal.
  apply (IH b c d); [injection L as L; exact L|exact E].
Qed.
Lemma stack_prefix : forall p s l r, stack_ok p -> start p = Ok s -> yields md p (l ++ r) -> yields md p l.
Proof.
  intros p s l r Hf Hs Y. destruct (stack_gives p s _ Hf Hs Y) as (F & N & H). specialize (H N (le_n N)). rewrite app_length, items_app in H.
  assert (E : items (call md N p) (length l) s = l).
  { eapply same_front; [|exact H]. apply items_length. }
  apply (stack_exactly p s l Hf Hs). split; [|exists N; exact E]. apply fine_returned in F. apply Forall_app in F. apply F.
Qed.
Lemma stack_unique : forall p s l l', stack_ok p -> start p = Ok s -> yields md p l -> yields md p l' -> length l = length l' -> l = l'.
Proof.
  intros p s l l' Hf Hs Y Y' L. destruct (stack_gives p s l Hf Hs Y) as (_ & N & H). destruct (stack_gives p s l' Hf Hs Y') as (_ & N' & H').
  rewrite <- (H (max N N') ltac:(lia)), <- (H' (max N N') ltac:(lia)), L. reflexivity.
Qed.

(** ** Over a step that moves every call returns *)
Definition not_ok (i : item) : Prop := forall t, i <> Some (Ok t).
Definition settles (p : stack) : Prop := exists N, forall k, exists a b, (length a <= N)%nat /\ (k <= length b)%nat /\ Forall not_ok b /\ yields md p (a ++ b).
Lemma keep_not_ok : forall mt b l, Forall not_ok l -> map (seen mt) (keep mt b l) = l.
Proof.
  intros mt b. induction l as [|i l IH]; intro F; [reflexivity|]. inversion F as [|x y H1 H2]; subst. unfold keep in *. cbn [filter].
  assert (D : decided mt b i = false /\ seen mt i = i) by (destruct i as [[t|e|q|]|]; try (split; reflexivity); elim (H1 t); reflexivity).
  destruct D as [-> S]. cbn [negb map]. rewrite S. f_equal. apply IH, H2.
Qed.
Lemma cut_not_ok : forall e l, Forall not_ok l -> map (cut md e) l = l.
Proof.
  intros e. induction l as [|i l IH]; intro F; [reflexivity|]. inversion F as [|x y H1 H2]; subst. cbn [map]. rewrite IH by exact H2. f_equal.
  destruct i as [[t|e'|q|]|]; try reflexivity. elim (H1 t). reflexivity.
Qed.
Lemma keep_short : forall mt b l, (length (keep mt b l) <= length l)%nat.
Proof. intros mt b l. unfold keep. induction l as [|i l IH]; [apply le_n|]. cbn [filter]. destruct (negb (decided mt b i)); cbn [length]; lia. Qed.
Lemma after_not_ok : forall n j, Forall not_ok (repeat (afterwards md n) j).
Proof.
  intros n j. apply Forall_forall. intros x Hx. apply repeat_spec in Hx. subst x. intros t. unfold afterwards. destruct (0 <=? n); [discriminate|]. destruct md; discriminate.
Qed.
Definition settling (p : stack) : Prop := forall s u n, stack_ok p -> start p = Ok s -> root p = mk u n -> moving u n -> settles p.
Lemma stepping_settles : forall m inc, settling (Stepping m inc).
Proof.
  intros m inc s u n Hf Hs Hr Hm. cbn [root] in Hr.
  subst inc. destruct Hf as [Hv Hi]. cbn [start] in Hs.
    assert (X : exists K e, forall k, (K <= k)%nat -> nth_item (iter_next md) k s = Some (Err e)).
    { destruct Hm as [[N S]|N]; [destruct (forward_ends md m u n s Hs Hv N S) as (K & e & _ & _ & E)|destruct (backward_ends md m u n s Hs Hv N) as (K & e & _ & _ & E)]; exists K, e; exact E. }
    destruct X as (K & e & E). exists K. intro k. exists (items (iter_next md) K s), (items (iter_next md) k (after (iter_next md) K s)).
    rewrite !items_length. split; [apply le_n|]. split; [apply le_n|]. split.
    + rewrite items_map. apply Forall_forall. intros x Hx. apply in_map_iff in Hx. destruct Hx as (i & <- & _). rewrite <- nth_item_add, E by lia. intros t. discriminate.
    + rewrite <- items_app. cbn [yields]. unfold stepped. rewrite items_length. apply build_calls; assumption.
Qed.
Lemma until_settles : forall p e, settling p -> settling (UntilOf p e).
Proof.
  intros p e IH s u n Hf Hs Hr Hm. cbn [root] in Hr.
  destruct Hf as [Hf _]. destruct (IH s u n Hf Hs Hr Hm) as [N H]. exists N. intro k. destruct (H k) as (a & b & La & Lb & F & Y).
    exists (map (cut md e) a), b. rewrite map_length. split; [lia|]. split; [exact Lb|]. split; [exact F|].
    exists (a ++ b). split; [exact Y|]. rewrite map_app, (cut_not_ok e b F). reflexivity.
Qed.
Lemma times_settles : forall p c, settling p -> settling (TimesOf p c).
Proof.
  intros p c IH s u n Hf Hs Hr Hm. cbn [root] in Hr.
  destruct Hf as [Hf Hc]. cbn [start] in Hs. destruct (start p) as [s'|?|?|] eqn:Es; try discriminate Hs.
    destruct (IH s' u n Hf Es Hr Hm) as [N H]. exists N. intro k. destruct (H k) as (a & b & La & Lb & F & Y). destruct (passed_nat c Hc) as [K HK].
    destruct (Nat.le_gt_cases (length a) K) as [L|L].
    + exists a, (firstn (K - length a) b ++ repeat (afterwards md c) (length b - (K - length a))). rewrite app_length, firstn_length, repeat_length.
      split; [exact La|]. split; [lia|]. split; [apply Forall_app; split; [|apply after_not_ok]; apply Forall_forall; intros x Hx; rewrite Forall_forall in F; apply F; rewrite <- (firstn_skipn (K - length a) b); apply in_or_app; left; exact Hx|].
      exists (a ++ firstn (K - length a) b), (length b - (K - length a))%nat. split; [apply (stack_prefix p s' _ (skipn (K - length a) b) Hf Es); rewrite <- app_assoc, firstn_skipn; exact Y|].
      split; [rewrite app_assoc; reflexivity|]. rewrite app_length, firstn_length. split; lia.
    + exists (firstn K a), (repeat (afterwards md c) k). rewrite firstn_length, repeat_length. split; [lia|]. split; [apply le_n|]. split; [apply after_not_ok|].
      exists (firstn K a), k. split; [apply (stack_prefix p s' _ (skipn K a ++ b) Hf Es); rewrite app_assoc, firstn_skipn; exact Y|].
      split; [reflexivity|]. rewrite firstn_length. split; lia.
Qed.
Lemma stack_settles : forall p, settling p.
Proof.
  induction p as [m inc|ui|p IH mt|p IH mt|p IH e|p IH c]; [apply stepping_settles| | | |apply until_settles, IH|apply times_settles, IH]; intros s u n Hf Hs Hr Hm; cbn [root] in Hr.
  - destruct (unparse_items ui Hf) as (s' & Hf' & Hs' & Ey & Er & _). change (root (Parsed ui) = mk u n) in Hr. rewrite <- Er in Hr.
    assert (O : settling (unparse ui)) by (destruct ui as [i|t|i e]; [apply stepping_settles|apply times_settles, stepping_settles|apply until_settles, stepping_settles]).
    unfold settles. rewrite <- Ey. exact (O s' u n Hf' Hs' Hr Hm).
  - destruct Hf as [Hf _]. destruct (IH s u n Hf Hs Hr Hm) as [N H]. exists N. intro k. destruct (H k) as (a & b & La & Lb & F & Y).
    exists (map (seen mt) (keep mt false a)), b. rewrite map_length. pose proof (keep_short mt false a). split; [lia|]. split; [exact Lb|]. split; [exact F|].
    exists (a ++ b). split; [exact Y|]. unfold keep. rewrite filter_app, map_app. f_equal. symmetry. exact (keep_not_ok mt false b F).
  - destruct Hf as [Hf _]. destruct (IH s u n Hf Hs Hr Hm) as [N H]. exists N. intro k. destruct (H k) as (a & b & La & Lb & F & Y).
    exists (map (seen mt) (keep mt true a)), b. rewrite map_length. pose proof (keep_short mt true a). split; [lia|]. split; [exact Lb|]. split; [exact F|].
    exists (a ++ b). split; [exact Y|]. unfold keep. rewrite filter_app, map_app. f_equal. symmetry. exact (keep_not_ok mt true b F).
Qed.
Lemma stack_returns : forall p s u n, stack_ok p -> start p = Ok s -> root p = mk u n -> moving u n ->
  (forall k, exists f, forall f', (f <= f')%nat -> returned (items (call md f' p) k s)) /\
  (exists N, forall l i t, yields md p l -> nth_error l i = Some (Some (Ok t)) -> (i < N)%nat).
Proof.
  intros p s u n Hf Hs Hr Hm. destruct (stack_settles p s u n Hf Hs Hr Hm) as [N H]. split.
  - intro k. destruct (H k) as (a & b & La & Lb & F & Y).
    assert (X : exists l, length l = k /\ yields md p l).
    { exists (firstn k (a ++ b)). split; [rewrite firstn_length, app_length; lia|]. apply (stack_prefix p s _ (skipn k (a ++ b)) Hf Hs). rewrite firstn_skipn. exact Y. }
    destruct X as (l & <- & Yl). destruct (stack_gives p s l Hf Hs Yl) as (Fl & G & E). exists G. intros f' L. rewrite (E f' L). apply fine_returned, Fl.
  - exists N. intros l i t Yl Hi. destruct (Nat.lt_ge_cases i N) as [L|L]; [exact L|exfalso]. destruct (H (length l)) as (a & b & La & Lb & F & Y).
    assert (E : l = firstn (length l) (a ++ b)).
    { apply (stack_unique p s _ _ Hf Hs Yl); [apply (stack_prefix p s _ (skipn (length l) (a ++ b)) Hf Hs); rewrite firstn_skipn; exact Y|]. rewrite firstn_length, app_length. lia. }
    assert (Il : (i < length l)%nat) by (apply nth_error_Some; congruence). rewrite E in Hi.
    assert (Q : nth_error (a ++ b) i = Some (Some (Ok t))).
    { rewrite <- (firstn_skipn (length l) (a ++ b)). rewrite nth_error_app1; [exact Hi|]. rewrite firstn_length, app_length. lia. }
    rewrite nth_error_app2 in Q by lia. apply nth_error_In in Q. rewrite Forall_forall in F. exact (F _ Q t eq_refl).
Qed.
End Mode.

(** ** Iterators read from a text *)
Lemma made_ok : forall md now1 now2 it ui, dt_valid now1 = true -> dt_valid now2 = true -> iterator_ok it -> into_user_iterator md now1 now2 it = Ok ui -> stack_ok (Parsed ui).
Proof.
  intros md now1 now2 [d sp u] ui H1 H2 (Hd & Hs & Hu) H. unfold into_user_iterator in H.
  destruct (step_returns md sp Hs) as [_ R2]. destruct (recur_of md sp) as [r|e|p|] eqn:Er; try discriminate H.
  destruct (R2 r eq_refl) as [R3 R4]. cbn [bind] in H.
  assert (B : forall b, build b r = Ok (mkiter (moment b) r false)) by (intro b; unfold build; rewrite R4; reflexivity).
  assert (IO : forall b, dt_valid b = true -> fresh (mkiter (moment b) r false)) by (intros b Hb; repeat split; cbn; assumption).
  pose proof (date_moment md now1 d H1 Hd) as M. unfold as_moment in M.
  destruct (date_value md now1 d) as [v|e|p|]; [|destruct M as [M _]; rewrite M in H; destruct u as [[x|n]|]; discriminate H..|contradiction].
  destruct M as (b & -> & Hb & M). rewrite M in H. cbn [bind] in H. destruct u as [[x|n]|].
  - pose proof (exact_moment md now2 x H2 Hu) as E. unfold as_moment in E.
    destruct (exact_value md now2 x) as [w|e|p|]; [|destruct E as [E _]; rewrite E in H; discriminate H..|contradiction].
    destruct E as (en & -> & He & E). rewrite E in H. cbn [bind] in H. rewrite B in H. injection H as <-. split; [apply IO, Hb|exact He].
  - rewrite B in H. injection H as <-. split; [apply IO, Hb|]. split; [reflexivity|]. cbn in Hu |- *. unfold in_i64, i64_min, i64_max in *. lia.
  - rewrite B in H. injection H as <-. apply IO, Hb.
Qed.
Lemma parsed_ok : forall cfg pd pdt, (forall s r d, pd s = Done r d -> isodate_ok d) -> (forall s r d t, pdt s = Done r (d, t) -> isodate_ok d /\ isotime_ok t) ->
  forall md now1 now2 s ui, dt_valid now1 = true -> dt_valid now2 = true -> parse md cfg pd pdt now1 now2 s = Ok (PIterator (Ok ui)) -> stack_ok (Parsed ui).
Proof.
  intros cfg pd pdt Hpd Hpdt md now1 now2 s ui H1 H2 H. unfold parse in H.
  destruct (do_parse md cfg pd pdt now1 now2 s) as [r p| | |] eqn:E; try discriminate H. subst p.
  unfold do_parse, alt_c, alt, complete at 1 in E. unfold pbind at 1 in E.
  assert (L : alt_last cfg (pdo t <- timetype_parser cfg pd pdt;; pret (lower_timetype md now1 t)) s = Done r (Ok (PIterator (Ok ui))) -> False).
  { intro Hl. unfold alt_last, complete, pbind in Hl.
    destruct (last_complete cfg); destruct (timetype_parser cfg pd pdt s) as [r1 t| | |]; try discriminate Hl;
      injection Hl as _ Hl; unfold lower_timetype in Hl; destruct (ptimetype_into md now1 t); discriminate Hl. }
  destruct (iterator cfg pd pdt s) as [r1 it| | |] eqn:Ei; [|contradiction (L E)|contradiction (L E)|discriminate E].
  apply (iterator_okv cfg pd pdt Hpd Hpdt) in Ei. injection E as _ E. unfold lower_iterator in E.
  destruct (into_user_iterator md now1 now2 it) as [ui'|e|q|] eqn:Eu; try discriminate E. injection E as ->. exact (made_ok md now1 now2 it ui H1 H2 Ei Eu).
Qed.
