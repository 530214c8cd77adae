(** The command line program prints what the exact reference program prints. *)
Require Import ZArith Bool List String Lia ZifyBool.
From Verif Require Import Prelude Spec Chrono Util TimeType Iter SpecTree SpecMoment SpecIter SpecAdapt SpecWide SpecValue Nom ParserTimetype ParserIterator ParserMod SpecText SpecDoc SpecLong SpecValue2 Show Cli SpecCli SpecProgram SpecAnswer SpecAnswer2
  PreludeProofs EvalProofs AmountProofs ShapeProofs OrdProofs IterProofs LowerProofs ParserProofs4 DocProofs LongProofs LongProofs2 LongProofs3 ValueProofs ValueProofs2 ValueProofs3 CliProofs CliProofs3 ProgramProofs AnswerProofs AnswerProofs2.
Import ListNotations.
Local Open Scope string_scope.
Local Open Scope Z_scope.

Section Answer.
Variable md : mode.

(** ** Texts *)
Lemma weeks_units : forall n, weeks md n = counted_units md UDay (7 * n).
Proof.
  intro n. unfold weeks, counted_units, within, mulc. cbn [bind]. unfold arith. replace (7 * n) with (n * 7) by lia.
  destruct (in_i64 (n * 7)); [reflexivity|]. destruct md; reflexivity.
Qed.
Lemma fitting_units : forall u n, in_i64 n = true -> counted_units md u n = Ok (mk u n).
Proof. intros u n H. unfold counted_units, within. rewrite H. reflexivity. Qed.
Lemma nat_i64 : forall n, 0 <= n <= i64_max -> in_i64 n = true.
Proof. intros n H. apply in_i64_iff. unfold i64_min, i64_max in *. lia. Qed.
Lemma amount_meant : forall a, amount_ok a -> amount_into md a = counted_units md (amount_unit a) (amount_count a).
Proof.
  intros [n u] H. cbn in H. apply nat_i64 in H. destruct u; cbn [amount_into amount_count amount_unit punit_kept];
    try (rewrite fitting_units by exact H; reflexivity). apply weeks_units.
Qed.
Lemma expr_correct : forall e, expr_ok e -> amountexpr_into md e = expr_meant md e.
Proof.
  induction e as [a|a op e IH]; intro H; cbn [amountexpr_into expr_meant]; [apply amount_meant; exact H|]. destruct H as [Ha He].
  rewrite (amount_meant a Ha), (IH He). destruct (counted_units md (amount_unit a) (amount_count a)); cbn [bind]; try reflexivity.
  destruct (expr_meant md e); cbn [bind]; try reflexivity. destruct op; reflexivity.
Qed.
Lemma recur_correct : forall sp, step_spec_ok sp -> recur_of md sp = counted_units md (step_unit sp) (step_count sp).
Proof.
  intros [| | | | | | |n u] H; try reflexivity; try (destruct md; reflexivity). cbn in H. apply nat_i64 in H.
  destruct u; cbn [recur_of unit_to_amount step_unit step_count times_kept punit_kept];
    try (rewrite fitting_units by exact H; reflexivity). apply weeks_units.
Qed.
Lemma first_correct : forall y, first_of_year y = calendar y 1 1 0 0 0.
Proof. intro y. rewrite first_into. unfold calendar. rewrite jan1. destruct ((min_year <=? y) && (y <=? max_year)); reflexivity. Qed.
Lemma exact_correct : forall now x, exact_ok x -> exactdate_into md now x = exact_meant now x.
Proof.
  intros now [| | |d|d t] H; try reflexivity.
  - destruct d as [y mo d|y ww d|y ddd]; cbn [exact_meant day_meant].
    + rewrite ymd_into. unfold calendar. destruct (representable y mo d); reflexivity.
    + cbn in H. cbn [exactdate_into]. rewrite first_correct. destruct (calendar y 1 1 0 0 0); cbn [bind]; try reflexivity.
      rewrite weeks_units, fitting_units by (replace (7 * ww) with (ww * 7) by lia; apply u32_7; apply H). reflexivity.
    + cbn [exactdate_into]. rewrite first_correct. destruct (calendar y 1 1 0 0 0); reflexivity.
  - destruct H as [H (Th & Tm & Ts)]. destruct d as [y mo d|y ww d|y ddd]; cbn [exact_meant day_meant].
    + rewrite ymdhms_into. unfold calendar, time_ok. destruct (representable y mo d); [|reflexivity]. cbn [andb]. unfold u32 in *.
      replace (0 <=? t_hour t) with true by lia. replace (0 <=? t_minute t) with true by lia. replace (0 <=? t_second t) with true by lia.
      cbn [andb]. rewrite !andb_true_r. reflexivity.
    + cbn in H. cbn [exactdate_into]. rewrite first_correct. destruct (calendar y 1 1 0 0 0); cbn [bind]; try reflexivity.
      rewrite weeks_units, fitting_units by (replace (7 * ww) with (ww * 7) by lia; apply u32_7; apply H). reflexivity.
    + cbn [exactdate_into]. rewrite first_correct. destruct (calendar y 1 1 0 0 0); reflexivity.
Qed.
Lemma date_correct : forall now d, date_ok d -> date_into md now d = date_meant md now d.
Proof.
  intros now [x [[op e]|]] [Hx He]; cbn [date_meant].
  - rewrite date_op_into, exact_correct, expr_correct by assumption. reflexivity.
  - cbn [date_into]. rewrite exact_correct by assumption. reflexivity.
Qed.
Lemma text_correct3 : forall now p, reading_ok p -> ptimetype_into md now p = text_meant md now p.
Proof. intros now [d|e] H; cbn [ptimetype_into text_meant]; [apply date_correct|apply expr_correct]; exact H. Qed.
Lemma pretty_correct : forall v, is_value v = true -> pretty_print v = value_line v.
Proof.
  assert (M : forall u n, value_line (mk u n) = Value (show_int n ++ " " ++ word u)).
  { intros u n. rewrite <- (mk_count u n) at 2. destruct u; reflexivity. }
  intros v H. destruct v; try discriminate H; symmetry;
    [exact (M USec n)|exact (M UMin n)|exact (M UHour n)|exact (M UDay n)|exact (M UMonth n)|exact (M UYear n)|reflexivity].
Qed.
Lemma answer_good : forall t, tt_ok t = true -> good md (answer md t).
Proof. intros t H. rewrite <- answer_correct by exact H. apply calculate_good. exact H. Qed.
Lemma meant_good : forall now p, dt_valid now = true -> reading_ok p ->
  match text_meant md now p with Ok t => tt_ok t = true | Err _ => True | Panic q => q = PArith | OutOfFuel => False end.
Proof.
  intros now [d|e] Hn Hp; rewrite <- text_correct3 by exact Hp; cbn [ptimetype_into].
  - pose proof (date_good md now d Hn Hp) as G. destruct (date_into md now d); cbn in *; try exact I; try exact G; try contradiction; apply G.
  - pose proof (expr_good md e Hp) as G. destruct (amountexpr_into md e); cbn in *; try exact I; try exact G; try contradiction; apply G.
Qed.
Lemma text_output_correct : forall now p n, dt_valid now = true -> reading_ok p -> outputs md n (lower_timetype md now p) = text_output md now p.
Proof.
  intros now p n Hn Hp. unfold lower_timetype, text_output. rewrite text_correct3 by exact Hp. pose proof (meant_good now p Hn Hp) as G.
  destruct (text_meant md now p) as [t|e|q|]; cbn [bind outputs]; [|reflexivity|subst q; reflexivity|contradiction].
  rewrite answer_correct by exact G. pose proof (answer_good t G) as A. destruct (answer md t) as [v|e|q|]; cbn in A; [|reflexivity| |contradiction].
  - rewrite pretty_correct by apply A. reflexivity.
  - destruct A as [-> _]. reflexivity.
Qed.

(** ** Items *)
Lemma dated_moment : forall f v, dated f = Ok v -> exists t, v = Moment t.
Proof.
  intros [[[[[y mo] d] h] mi] s] v H. unfold dated in H. destruct (representable _ _ _ && _ && _ && _); [|discriminate H]. injection H as <-. eexists. reflexivity.
Qed.
Lemma within_moment : forall z f, (forall x v, f x = Ok v -> exists t, v = Moment t) -> forall v, within md z f = Ok v -> exists t, v = Moment t.
Proof. intros z f Hf v H. unfold within in H. destruct (in_i64 z); [exact (Hf _ _ H)|]. destruct md; [discriminate H|exact (Hf _ _ H)]. Qed.
Lemma forward_moment : forall a x n v, forward md a x n = Ok v -> exists t, v = Moment t.
Proof.
  intros a x n v H. revert v H. apply within_moment. intros z v H. unfold carried in H. destruct (numbers_of a x z) as [[[[[y mo] d] h] mi] s].
  destruct (carry_days _ _ _) as [mo' d']. revert v H. apply within_moment. intros z' v H. destruct (if _ <? _ then _ else _) as [y' mo2]. exact (dated_moment _ _ H).
Qed.
Section Items.
Variable m : datetime.
Variable u : tunit.
Variable c : Z.
Hypothesis Hm : dt_valid m = true.
Hypothesis Hc : in_i64 c = true.
Let inc := mk u c.
Let item := item_answer md m inc.

Lemma inc_value : is_value inc = true /\ tt_ok inc = true.
Proof. unfold inc. rewrite ok_mk. split; [destruct u; reflexivity|exact Hc]. Qed.
Lemma item_S : forall k, item (Datatypes.S k) = do v <- item k; plus_values md v inc.
Proof. reflexivity. Qed.
Lemma item_good : forall k, good md (item k).
Proof.
  destruct inc_value as [Iv Io].
  induction k as [|k IH]; [split; [reflexivity|exact Hm]|]. rewrite item_S. destruct (item k) as [v| | |]; cbn in IH |- *; try exact IH.
  destruct IH as [V1 V2]. rewrite <- plus_values_correct by assumption. apply ev_good. split; assumption.
Qed.
Lemma add_step : forall v, is_value v = true -> tt_ok v = true -> calculate md (Addition v inc) = plus_values md v inc.
Proof.
  intros v V1 V2. destruct inc_value as [Iv Io]. rewrite answer_correct by (cbn [tt_ok]; rewrite V2, Io; reflexivity).
  unfold inc. destruct v; try discriminate V1; destruct u; reflexivity.
Qed.
(** The iterator before item [k]. *)
Definition at_item (k : nat) (it : iter) : Prop :=
  match k with
  | O => it = mkiter (Moment m) inc false
  | Datatypes.S k' => exists v, item k' = Ok v /\ it = mkiter v inc true
  end.
Lemma at_item_next : forall k it, at_item k it -> exists it', iter_next md it = (Some (item k), it') /\
  forall v, item k = Ok v -> at_item (Datatypes.S k) it'.
Proof.
  intros [|k] it H; cbn [at_item] in H.
  - subst it. eexists. split; [reflexivity|]. intros v E. exists v. split; [exact E|]. injection E as <-. reflexivity.
  - destruct H as (v & Ev & ->). pose proof (item_good k) as G. rewrite Ev in G. destruct G as [V1 V2].
    unfold iter_next, skip, recalculate. cbn [had_first negb base increment]. unfold op_add_assign.
    rewrite (add_step v V1 V2). cbn [at_item]. rewrite item_S, Ev. cbn [bind].
    destruct (plus_values md v inc) as [w|e|q|]; eexists; (split; [reflexivity|]); intros x [= <-]. exists w. split; reflexivity.
Qed.

(** All calls, those after errors too. *)
Lemma calls_after : forall k, after (iter_next md) (Datatypes.S k) (mkiter (Moment m) inc false) = mkiter (Nat.iter k (held md inc) (Moment m)) inc true /\
  tt_ok (Nat.iter k (held md inc) (Moment m)) = true.
Proof.
  destruct inc_value as [Iv Io]. induction k as [|k [IH1 IH2]]; [split; [reflexivity|exact Hm]|]. rewrite after_S, IH1. cbn [Nat.iter nat_rect].
  change (nat_rect _ _ _ k) with (Nat.iter k (held md inc) (Moment m)). generalize dependent (Nat.iter k (held md inc) (Moment m)). intros t _ Ht.
  assert (T : tt_ok (Addition t inc) = true) by (cbn [tt_ok]; rewrite Ht, Io; reflexivity).
  pose proof (answer_good _ T) as G. unfold iter_next, skip, recalculate, held. cbn [had_first negb base increment]. unfold op_add_assign. rewrite (answer_correct md _ T).
  destruct (answer md (Addition t inc)) as [v|e|q|]; cbn in G; split; try reflexivity; try exact T. apply G.
Qed.
Lemma calls_correct : forall k, nth_item (iter_next md) k (mkiter (Moment m) inc false) = Some (call_answer md m inc k).
Proof.
  destruct inc_value as [Iv Io]. intros [|k]; [reflexivity|]. unfold nth_item. destruct (calls_after k) as [-> Ht]. cbn [call_answer].
  generalize dependent (Nat.iter k (held md inc) (Moment m)). intros t Ht.
  assert (T : tt_ok (Addition t inc) = true) by (cbn [tt_ok]; rewrite Ht, Io; reflexivity).
  unfold iter_next, skip, recalculate. cbn [had_first negb base increment]. unfold op_add_assign. rewrite (answer_correct md _ T).
  destruct (answer md (Addition t inc)); reflexivity.
Qed.

(** Iterators that give what [w] says from item [k] on. *)
Definition follows (R : nat -> useriterator -> Prop) (w : nat -> option result) : Prop :=
  forall k ui, R k ui -> exists ui', user_next md ui = (w k, ui') /\ forall v, w k = Some (Ok v) -> R (Datatypes.S k) ui'.
Lemma listing_correct : forall R w, follows R w -> (forall k r, w k = Some r -> good md r) -> forall n k ui, R k ui -> print_items md n ui = listing n k w.
Proof.
  intros R w F G. induction n as [|n IH]; intros k ui H; [reflexivity|]. destruct (F k ui H) as (ui' & E & N).
  cbn [print_items listing]. rewrite E. specialize (G k). destruct (w k) as [r|]; [|reflexivity]. specialize (G r eq_refl).
  destruct r as [v|e|q|]; cbn in G; [|reflexivity|destruct G as [-> _]; reflexivity|contradiction].
  rewrite (IH (Datatypes.S k) ui') by (apply (N v); reflexivity). destruct (listing n (Datatypes.S k) w). rewrite pretty_correct by apply G. reflexivity.
Qed.
Lemma plain_listing : forall n, print_items md n (UIIterator (mkiter (Moment m) inc false)) = listing n 0 (fun k => Some (item k)).
Proof.
  intro n. apply listing_correct with (R := fun k ui => exists it, ui = UIIterator it /\ at_item k it).
  - intros k ui (it & -> & H). destruct (at_item_next k it H) as (it' & E & N). exists (UIIterator it'). cbn [user_next]. rewrite E. split; [reflexivity|].
    intros v [= Ev]. exists it'. split; [reflexivity|]. exact (N v Ev).
  - intros k r [= <-]. apply item_good.
  - eexists. split; reflexivity.
Qed.
Lemma times_listing : forall n b, 0 <= b <= i64_max -> print_items md n (UITimes (times_new (mkiter (Moment m) inc false) b)) =
  listing n 0 (fun k => if Z.of_nat k <? b then Some (item k) else None).
Proof.
  intros n b Hb. apply listing_correct with (R := fun k ui => exists it, ui = UITimes (mktimes it b (Z.of_nat k)) /\ Z.of_nat k <= b /\ at_item k it).
  - intros k ui (it & -> & Hk & H). cbn [user_next]. unfold times_next. cbn [Iter.times Iter.count Iter.inner].
    destruct (b =? Z.of_nat k) eqn:Eb.
    + replace (Z.of_nat k <? b) with false by lia. eexists. split; [reflexivity|discriminate].
    + replace (Z.of_nat k <? b) with true by lia. unfold addc. cbn [bind]. unfold arith.
      replace (in_i64 (Z.of_nat k + 1)) with true by (symmetry; apply nat_i64; lia).
      destruct (at_item_next k it H) as (it' & E & N). rewrite E. eexists. split; [reflexivity|].
      intros v [= Ev]. exists it'. replace (Z.of_nat k + 1) with (Z.of_nat (Datatypes.S k)) by lia. split; [reflexivity|]. split; [lia|]. exact (N v Ev).
  - intros k r. destruct (Z.of_nat k <? b); [|discriminate]. intros [= <-]. apply item_good.
  - eexists. split; [reflexivity|]. split; [lia|reflexivity].
Qed.
Lemma sooner_ltb : forall a b, dt_valid a = true -> dt_valid b = true -> dt_ltb a b = sooner a b.
Proof.
  intros a b Ha Hb. rewrite dt_ltb_inst by assumption. unfold sooner.
  assert (N : forall x, dt_valid x = true -> 0 <= nano x < 2000000000) by (intros x Hx; unfold dt_valid in Hx; lia).
  pose proof (N a Ha). pose proof (N b Hb). lia.
Qed.
Lemma item_moment : forall k v, item k = Ok v -> exists t, v = Moment t /\ dt_valid t = true.
Proof.
  intros k v E. assert (exists t, v = Moment t) as [t ->].
  { revert v E. induction k as [|k IH]; intros v E; [injection E as <-; eexists; reflexivity|].
    rewrite item_S in E. destruct (item k) as [w| | |]; try discriminate E. destruct (IH w eq_refl) as [t ->]. cbn [bind] in E.
    unfold inc in E. destruct u; exact (forward_moment _ _ _ _ E). }
  exists t. split; [reflexivity|]. pose proof (item_good k) as G. rewrite E in G. apply G.
Qed.
Lemma until_listing : forall n en, dt_valid en = true -> print_items md n (UIUntil (mkiter (Moment m) inc false) en) =
  listing n 0 (fun k => match item k with Ok (Moment t) => if sooner t en then Some (item k) else None | r => Some r end).
Proof.
  intros n en He. apply listing_correct with (R := fun k ui => exists it, ui = UIUntil it en /\ at_item k it).
  - intros k ui (it & -> & H). destruct (at_item_next k it H) as (it' & E & N). exists (UIUntil it' en). cbn [user_next]. unfold until_next. rewrite E.
    pose proof (item_moment k) as M. destruct (item k) as [v|e|q|]; try (split; [reflexivity|discriminate]).
    destruct (M v eq_refl) as (t & -> & Vt). rewrite calc_value by reflexivity. cbn [is_moment get_moment]. rewrite sooner_ltb by assumption.
    split; [reflexivity|]. destruct (sooner t en); [|discriminate]. intros v [= <-]. exists it'. split; [reflexivity|]. apply (N _ eq_refl).
  - intros k r. pose proof (item_good k) as G. destruct (item k) as [v|e|q|]; try (intros [= <-]; exact G).
    destruct v; try (intros [= <-]; exact G). destruct (sooner m0 en); [intros [= <-]; exact G|discriminate].
  - eexists. split; reflexivity.
Qed.
End Items.

(** ** Iterators *)
Lemma ndt_answer : forall x, tt_ok x = true -> into_ndt md x = do v <- answer md x; match v with Moment m => Ok m | _ => Err NotADateInsideIterator end.
Proof. intros x H. unfold into_ndt. rewrite answer_correct by exact H. destruct (answer md x) as [v| | |]; try reflexivity. destruct v; reflexivity. Qed.
Definition shown_iter (n : nat) (o : outcome kek useriterator) : list line * ending :=
  match o with Ok ui => print_items md n ui | Err e => ([BuildError e], Exits 0) | Panic q => ([], Panics q) | OutOfFuel => ([], Stuck) end.
Lemma shown_outputs : forall n now1 now2 it, outputs md n (lower_iterator md now1 now2 it) = shown_iter n (into_user_iterator md now1 now2 it).
Proof. intros n now1 now2 it. unfold lower_iterator. destruct (into_user_iterator md now1 now2 it); reflexivity. Qed.
Lemma bind_moment : forall n x f g, (match x with Ok t => tt_ok t = true | Err _ => True | Panic q => q = PArith | OutOfFuel => False end) ->
  (forall m, dt_valid m = true -> shown_iter n (f m) = g m) -> shown_iter n (do b <- (do t <- x; into_ndt md t); f b) = with_moment (do t <- x; answer md t) g.
Proof.
  intros n x f g Hx H. destruct x as [t|e|q|]; cbn [bind]; [|reflexivity|subst q; reflexivity|contradiction].
  rewrite ndt_answer by exact Hx. pose proof (answer_good t Hx) as G. destruct (answer md t) as [v|e|q|]; cbn in G; cbn [bind]; [|reflexivity| |contradiction].
  - destruct v; try reflexivity. cbn [bind with_moment]. apply H. apply G.
  - destruct G as [-> _]. reflexivity.
Qed.
Lemma build_units : forall m u c, build m (mk u c) = Ok (mkiter (Moment m) (mk u c) false).
Proof. intros m u c. destruct u; reflexivity. Qed.
Lemma built_calls : forall m inc it k, dt_valid m = true -> tt_ok inc = true -> build m inc = Ok it -> nth_item (iter_next md) k it = Some (call_answer md m inc k).
Proof.
  intros m inc it k Hm Hi Hb. destruct inc; try discriminate Hb; cbn in Hi; injection Hb as <-;
    [apply (calls_correct m USec)|apply (calls_correct m UMin)|apply (calls_correct m UHour)|apply (calls_correct m UDay)|apply (calls_correct m UMonth)|apply (calls_correct m UYear)]; assumption.
Qed.
Lemma iterator_output_correct : forall now1 now2 it n, dt_valid now1 = true -> dt_valid now2 = true -> iterator_ok it ->
  outputs md n (lower_iterator md now1 now2 it) = iterator_output md now1 now2 n it.
Proof.
  intros now1 now2 [d sp b] n H1 H2 (Hd & Hs & Hb). rewrite shown_outputs. cbn [into_user_iterator iterator_output].
  rewrite recur_correct by exact Hs.
  assert (U : (exists c, counted_units md (step_unit sp) (step_count sp) = Ok (mk (step_unit sp) c) /\ in_i64 c = true) \/
    counted_units md (step_unit sp) (step_count sp) = Panic PArith).
  { unfold counted_units, within. destruct (in_i64 (step_count sp)) eqn:E; [left; eauto|]. destruct md; [right; reflexivity|].
    left. eexists. split; [reflexivity|]. apply in_i64_iff. apply wrap64_range. }
  destruct U as [(c & -> & Hc)| ->]; [|reflexivity]. cbn [bind].
  assert (Gd : match date_meant md now1 d with Ok t => tt_ok t = true | Err _ => True | Panic q => q = PArith | OutOfFuel => False end)
    by exact (meant_good now1 (PTDate d) H1 Hd).
  rewrite !date_correct by exact Hd. destruct b as [[x|k]|].
  - rewrite exact_correct by exact Hb.
    assert (Gx : match exact_meant now2 x with Ok t => tt_ok t = true | Err _ => True | Panic q => q = PArith | OutOfFuel => False end).
    { pose proof (exact_good md now2 x H2 Hb) as G. rewrite exact_correct in G by exact Hb. destruct (exact_meant now2 x); cbn in G; try exact I; try contradiction; apply G. }
    apply bind_moment; [exact Gd|]. intros m Hm. apply bind_moment; [exact Gx|]. intros en He. rewrite build_units. cbn [bind shown_iter]. apply until_listing; assumption.
  - apply bind_moment; [exact Gd|]. intros m Hm. rewrite build_units. cbn [bind shown_iter]. apply times_listing; assumption.
  - apply bind_moment; [exact Gd|]. intros m Hm. rewrite build_units. cbn [bind shown_iter]. apply plain_listing; assumption.
Qed.
End Answer.

Section Program.
Variable cfg : nom_cfg.
Variable pd : parser isodate.
Variable pdt : parser (isodate * isotime).
Hypothesis F1 : forall s, fine pd s.
Hypothesis F2 : forall s, fine pdt s.
Hypothesis Hpd : forall s r d, pd s = Done r d -> isodate_ok d.
Hypothesis Hpdt : forall s r d t, pdt s = Done r (d, t) -> isodate_ok d /\ isotime_ok t.

Lemma exact_program_correct : forall md now1 now2 n args w1 s w2 x r, dt_valid now1 = true -> dt_valid now2 = true ->
  concat " " args = w1 ++ s ++ w2 -> spaces w1 -> spaces w2 -> solid s -> reads cfg pd pdt x s r ->
  main md cfg pd pdt now1 now2 n args = exact_program md now1 now2 n x.
Proof.
  intros md now1 now2 n args w1 s w2 x r H1 H2 E S1 S2 So Hr. unfold main. rewrite (main_trimmed args w1 s w2 E S1 S2 So). clear E S1 S2 So.
  change (outputs md n (parse md cfg pd pdt now1 now2 s) = exact_program md now1 now2 n x).
  destruct (parse_reads cfg pd pdt F1 F2 md now1 now2 s) as [(x' & r' & Hx & E)|[N _]]; [|elim (N _ _ Hr)].
  destruct (reads_fun cfg pd pdt F1 F2 _ _ _ _ _ Hr Hx) as [<- _]. rewrite E. destruct x as [it|p]; cbn [made exact_program].
  - apply iterator_output_correct; [exact H1|exact H2|]. inversion Hr; subst. eapply iterator_read_ok; eassumption.
  - apply text_output_correct; [exact H1|]. eapply reads_ok; eassumption.
Qed.
End Program.
