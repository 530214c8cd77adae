(** The worth of the items of an iteration. *)
Require Import ZArith Bool List String Lia.
From Verif Require Import Prelude Spec Chrono TimeType Iter SpecTree SpecMoment SpecIter SpecAdapt SpecMode SpecOver SpecWide SpecValue Nom ParserTimetype ParserIterator ParserMod SpecText SpecDoc SpecLong SpecValue2
  PreludeProofs EvalProofs AmountProofs ShapeProofs CompProofs IterProofs IterProofs2 AdapterProofs ModeProofs HeldProofs LowerProofs NomProofs ParserProofs3 ParserProofs5 DocProofs LongProofs LongProofs2 LongProofs3 OverProofs2 ValueProofs ValueProofs2.
Local Open Scope Z_scope.

Definition holds (u : tunit) (n : Z) (w : worth) (it : iter) : Prop :=
  had_first it = true /\ increment it = mk u n /\ lowered w (Ok (base it)) /\ is_diff (base it) = false /\ is_end (base it) = false.
Lemma holds_next : forall u n w it, in_i64 n = true -> holds u n w it ->
  holds u n (later w u n) (snd (iter_next Checked it)) /\ exists r, fst (iter_next Checked it) = Some r /\ worth_result (later w u n) r.
Proof.
  intros u n w it Hn (H1 & H2 & H3 & H4 & H5).
  pose proof (low_add w (base it) u n H3 Hn H4 H5) as L. destruct it as [b inc h]. cbn [had_first increment base] in *. subst h inc.
  unfold iter_next. cbn [had_first negb]. unfold skip, recalculate, op_add_assign, op_add. cbn [base increment had_first].
  destruct L as (L1 & L2 & L4).
  pose proof (value_correct (Addition b (mk u n)) L1 ltac:(congruence)) as V. rewrite L4 in V.
  pose proof (calculate_shape Checked (Addition b (mk u n))) as K. rewrite L2 in K.
  pose proof (calc_tt_ok Checked (Addition b (mk u n))) as O.
  destruct (calculate Checked (Addition b (mk u n))) as [v|e|p|] eqn:E; cbn [fst snd].
  - cbn [kres] in K. destruct v; try discriminate K. split; [|eexists; split; [reflexivity|exact V]].
    assert (Ew : later w u n = Time m).
    { destruct (later w u n) as [u0 n0|m0| | |l0 r0]; cbn [worth_result] in V; try congruence.
      - destruct u0; discriminate V.
      - destruct V as (y & mo & d & h & mi & s & C). discriminate C. }
    split; [reflexivity|]. split; [reflexivity|]. cbn [base is_diff is_end]. split; [|split; reflexivity].
    rewrite Ew. apply low_date. exact (O _ L1 eq_refl).
  - split; [|eexists; split; [reflexivity|exact V]]. split; [reflexivity|]. split; [reflexivity|]. cbn [base is_diff is_end]. split; [|split; reflexivity].
    split; [exact L1|]. split; [exact L2|exact L4].
  - split; [|eexists; split; [reflexivity|exact V]]. split; [reflexivity|]. split; [reflexivity|]. cbn [base is_diff is_end]. split; [|split; reflexivity].
    split; [exact L1|]. split; [exact L2|exact L4].
  - split; [|eexists; split; [reflexivity|exact V]]. split; [reflexivity|]. split; [reflexivity|]. cbn [base is_diff is_end]. split; [|split; reflexivity].
    split; [exact L1|]. split; [exact L2|exact L4].
Qed.
Lemma items_worth : forall m u n it k, build m (mk u n) = Ok it -> dt_valid m = true -> in_i64 n = true ->
  exists r, nth_item (iter_next Checked) k it = Some r /\ worth_result (item_worth m u n k) r.
Proof.
  intros m u n it k B Hm Hn. apply build_at in B. subst it. destruct k as [|k]; [exists (Ok (Moment m)); split; reflexivity|].
  rewrite fresh_item.
  assert (H : forall j, holds u n (item_worth m u n j) (after (iter_next Checked) j (at_moment u n m true))).
  { induction j as [|j IH].
    - split; [reflexivity|]. split; [reflexivity|]. split; [apply low_date; exact Hm|split; reflexivity].
    - rewrite after_S. exact (proj1 (holds_next u n _ _ Hn IH)). }
  exact (proj2 (holds_next u n _ _ Hn (H k))).
Qed.
Lemma worth_before : forall m u n j k, (j <= k)%nat -> item_worth m u n j = Overflow -> item_worth m u n k = Overflow.
Proof.
  intros m u n j k L E. induction L as [|k L IH]; [exact E|].
  change (later (item_worth m u n k) u n = Overflow). rewrite IH. reflexivity.
Qed.
Lemma items_release : forall m u n it k, build m (mk u n) = Ok it -> dt_valid m = true -> in_i64 n = true -> item_worth m u n k <> Overflow ->
  exists r, nth_item (iter_next Wrapping) k it = Some r /\ worth_result (item_worth m u n k) r.
Proof.
  intros m u n it k B Hm Hn No.
  destruct (ag_nth _ _ _ ag_iter_next k it) as [(j & L & P)|E]; [|rewrite E; apply items_worth; assumption].
  elim No. apply (worth_before m u n j k L). destruct (items_worth m u n it j B Hm Hn) as (r & R & W). rewrite P in R. injection R as <-.
  destruct (item_worth m u n j) as [u0 n0|m0| | |l0 r0]; cbn [worth_result] in W; try discriminate W; [|reflexivity].
  destruct W as (y & mo & d & h & mi & s & C). discriminate C.
Qed.

Lemma never_date : forall ymd r u n, date_at ymd r <> Amounts u n.
Proof. intros [[y mo] d] r u n. unfold date_at. destruct (representable y mo d); discriminate. Qed.
Lemma plus_never : forall m u n u' n', plus m u n <> Amounts u' n'.
Proof.
  intros m u n u' n'. unfold plus. destruct (negb (add_fits u m n)); [discriminate|].
  destruct u; repeat first [apply never_date|discriminate|match goal with |- context [if ?b then _ else _] => destruct b end|match goal with |- context [let '(_, _) := ?p in _] => destruct p end
    |match goal with |- context [match ?p with (_, _) => _ end] => destruct p end].
Qed.
Lemma never_amounts : forall m u n k u' n', item_worth m u n k <> Amounts u' n'.
Proof.
  intros m u n k u' n'. destruct k as [|k]; [discriminate|]. change (later (item_worth m u n k) u n <> Amounts u' n').
  induction k as [|k IH]; [apply plus_never|]. change (later (later (item_worth m u n k) u n) u n <> Amounts u' n').
  destruct (later (item_worth m u n k) u n) eqn:E; cbn [later on_worth]; try discriminate; [|apply plus_never].
  unfold later, on_worth. unfold later, on_worth in E. destruct (item_worth m u n k); try discriminate E; [|elim (plus_never _ _ _ _ _ E)]. congruence.
Qed.
Lemma build_ok : forall m u n it, dt_valid m = true -> in_i64 n = true -> build m (mk u n) = Ok it -> iter_ok it.
Proof.
  intros m u n it Hm Hn B. apply build_at in B. subst it. repeat split; cbn [base increment at_moment]; [exact Hm|rewrite ok_mk; exact Hn|destruct u; reflexivity].
Qed.
Lemma item_ok : forall md m u n it k, build m (mk u n) = Ok it -> dt_valid m = true -> in_i64 n = true ->
  item_is md (nth_item (iter_next md) k it) (item_worth m u n k).
Proof.
  intros [|] m u n it k B Hm Hn.
  - right. apply items_worth; assumption.
  - destruct (item_worth m u n k) eqn:W; try (left; split; reflexivity); right; rewrite <- W; apply items_release; try assumption; congruence.
Qed.
Lemma date_mode : forall md now d, dt_valid now = true -> date_ok d ->
  (md = Wrapping /\ text_worth now (PTDate d) = Overflow) \/ worth_result (text_worth now (PTDate d)) (date_value md now d).
Proof. intros md now d Hn Hd. exact (text_mode md now (PTDate d) Hn Hd). Qed.
Lemma exact_mode : forall md now x, dt_valid now = true -> exact_ok x ->
  (md = Wrapping /\ exact_worth now x = Overflow) \/ worth_result (exact_worth now x) (exact_value md now x).
Proof.
  intros md now x Hn Hx. pose proof (date_mode md now (Date x None) Hn (conj Hx I)) as D. cbn [text_worth] in D.
  replace (date_value md now (Date x None)) with (exact_value md now x) in D; [exact D|].
  unfold date_value, exact_value. cbn [date_into]. destruct (exactdate_into md now x); reflexivity.
Qed.

Lemma iteration_made : forall md now1 now2 it, dt_valid now1 = true -> dt_valid now2 = true -> iterator_ok it -> iteration_is md now1 now2 it (lower_iterator md now1 now2 it).
Proof.
  intros md now1 now2 [d sp u] H1 H2 Hok. unfold iteration_is. pose proof Hok as (Hd & Hs & Hu).
  destruct (in_i64 (step_count sp)) eqn:Es.
  2: { destruct md; [right|left; reflexivity]. unfold lower_iterator, into_user_iterator. rewrite (proj1 (step_overflow sp Hs Es)). reflexivity. }
  pose proof (iterator_means md now1 now2 d sp u H1 H2 Hok Es) as M. cbv zeta in M. unfold lower_iterator.
  destruct (date_mode md now1 d H1 Hd) as [[-> W]|W]; [rewrite W; left; reflexivity|].
  destruct (text_worth now1 (PTDate d)) as [u0 n0|m| | |l0 r0]; cbn [worth_result] in W; cbn [with_date].
  - rewrite W in M. destruct M as (b & _ & E & _). destruct u0; discriminate E.
  - rewrite W in M. destruct M as (b & it & [= <-] & Hb & B & M).
    pose proof (fun k => item_ok md m _ _ it k B Hb Es) as IT. destruct u as [[x|n]|].
    + destruct (exact_mode md now2 x H2 Hu) as [[-> X]|X]; [rewrite X; left; reflexivity|].
      destruct (exact_worth now2 x) as [u0 n0|en| | |l0 r0]; cbn [worth_result] in X; cbn [with_date].
      * rewrite X in M. destruct M as (en & E & _). destruct u0; discriminate E.
      * rewrite X in M. destruct M as (b & [= <-] & He & ->). exists (UIUntil it en). split; [reflexivity|]. intro k. rewrite user_until. specialize (IT k).
        assert (Rest : forall w, item_worth m (step_unit sp) (step_count sp) k = w -> (forall t, w <> Time t) -> (forall a b, w <> Amounts a b) ->
          item_is md (nth_item (until_next md (iter_next md) en) k it) w).
        { intros w Ew N1 N2. rewrite Ew in IT. destruct IT as [IT|(r & R & Hr)]; [left; exact IT|right]. exists r. split; [|exact Hr]. rewrite until_rest; [exact R|].
          intros t C. rewrite C in R. injection R as <-. destruct w; cbn [worth_result] in Hr; try (eapply N1; reflexivity); try (eapply N2; reflexivity); try discriminate Hr.
          destruct Hr as (? & ? & ? & ? & ? & ? & Hr). discriminate Hr. }
        destruct (item_worth m (step_unit sp) (step_count sp) k) as [u0 n0|t| | |l0 r0] eqn:Ew.
        -- elim (never_amounts _ _ _ _ _ _ Ew).
        -- destruct IT as [[_ C]|(r & R & Hr)]; [discriminate C|]. cbn [worth_result] in Hr. subst r.
           apply (until_moment md (iter_next md) en k it (Moment t) t); [|exact He|exact R|reflexivity].
           exact (iter_item_ok md it k (Moment t) (build_ok m _ _ it Hb Es B) R).
        -- apply Rest; [reflexivity|discriminate|discriminate].
        -- apply Rest; [reflexivity|discriminate|discriminate].
        -- apply Rest; [reflexivity|discriminate|discriminate].
      * destruct X as (y & mo & dd & h & mi & s & X). rewrite X in M. destruct M as [-> _]. repeat eexists.
      * rewrite X in M. destruct M as [-> _]. right. reflexivity.
      * rewrite X in M. destruct M as [-> _]. reflexivity.
    + rewrite M. exists (UITimes (times_new it n)). split; [reflexivity|]. intro k. rewrite user_times.
      assert (In : in_i64 n = true) by (cbn in Hu; apply in_i64_iff; unfold i64_min, i64_max in *; lia).
      destruct (Z.ltb_spec (Z.of_nat k) n) as [L|L].
      * rewrite times_pass; [apply IT|exact In|right; exact L|cbn in Hu; lia].
      * apply times_done; [exact In|apply Hu|exact L].
    + rewrite M. exists (UIIterator it). split; [reflexivity|]. intro k. rewrite user_plain. apply IT.
  - destruct W as (y & mo & dd & h & mi & s & W). rewrite W in M. destruct M as [-> _]. repeat eexists.
  - rewrite W in M. destruct M as [-> _]. right. reflexivity.
  - rewrite W in M. destruct M as [-> _]. reflexivity.
Qed.

Section Texts.
Variable cfg : nom_cfg.
Variable pd : parser isodate.
Variable pdt : parser (isodate * isotime).
Hypothesis F1 : forall s, fine pd s.
Hypothesis F2 : forall s, fine pdt s.
Hypothesis Hpd : forall s r d, pd s = Done r d -> isodate_ok d.
Hypothesis Hpdt : forall s r d t, pdt s = Done r (d, t) -> isodate_ok d /\ isotime_ok t.
Lemma iterator_read_ok : forall it s r, iterator_read pd pdt it s r -> iterator_ok it.
Proof.
  intros [d sp u] s r (r1 & r2 & [Hd _] & [(t & Ht & _) _] & Hb). split.
  - destruct Hd as [x s' r1 Hx|x s' b1 op b2 e t' b3 r1 Hx _ _ Te _]; (split; [eapply exact_reads_okv; [exact Hpd|exact Hpdt|exact Hx]|]); [exact I|eapply expr_text_ok; exact Te].
  - split; [eapply step_text_okv; exact Ht|]. destruct u as [b|]; [|exact I]. destruct Hb as [x s' rest Hx|b1 ds b2 rest _ Hds Hl _]; cbn.
    + eapply exact_reads_okv; [exact Hpd|exact Hpdt|exact Hx].
    + split; [|exact Hl]. apply decimal_range. apply Hds.
Qed.
Lemma iteration_correct : forall md now1 now2 it s r, dt_valid now1 = true -> dt_valid now2 = true -> reads cfg pd pdt (AsIterator it) s r ->
  iteration_is md now1 now2 it (parse md cfg pd pdt now1 now2 s).
Proof.
  intros md now1 now2 it s r H1 H2 Hr.
  destruct (parse_reads cfg pd pdt F1 F2 md now1 now2 s) as [(x & r' & Hx & E)|[N _]]; [|elim (N _ _ Hr)].
  destruct (reads_fun cfg pd pdt F1 F2 _ _ _ _ _ Hr Hx) as [<- _]. rewrite E. apply iteration_made; try assumption.
  inversion Hr; subst. eapply iterator_read_ok. eassumption.
Qed.
End Texts.
