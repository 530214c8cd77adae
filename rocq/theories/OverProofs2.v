(** When reading a text overflows. *)
Require Import ZArith Bool List String Lia ZifyBool.
From Verif Require Import Prelude Spec Chrono TimeType Nom ParserTimetype ParserIterator ParserMod Fuzz Iter
  SpecTree SpecMoment SpecIter SpecAdapt SpecText SpecDoc SpecOver SpecOver2 NomProofs PreludeProofs EvalProofs AmountProofs ShapeProofs CompProofs CalendarProofs
  AddProofs AddProofs2 SubProofs EndProofs ErrProofs IterProofs IterProofs2 LowerProofs ParserProofs ParserProofs2 ParserProofs3 ParserProofs4 ParserProofs5 ParserProofs6 DocProofs OverProofs.
Import ListNotations.
Local Open Scope Z_scope.

Lemma amount_big : forall a, amount_ok a -> (amount_into Checked a = Panic PArith <-> big_week a = true).
Proof.
  intros [n u] H. cbn in H. destruct u; try (cbn; split; discriminate).
  cbn [amount_into big_week]. unfold weeks, mulc. cbn [bind]. rewrite arith_checked. destruct (in_i64 (n * 7)) eqn:E; cbn [bind].
  - apply in_i64_iff in E. split; [discriminate|]. intro C. exfalso. lia.
  - apply in_i64_false in E. split; [|reflexivity]. intros _. unfold i64_min in *. lia.
Qed.
Lemma expr_big : forall e, expr_ok e -> (amountexpr_into Checked e = Panic PArith <-> big_weeks e = true).
Proof.
  induction e as [a|a op e IH]; intro H; [apply amount_big; exact H|]. destruct H as [Ha He]. specialize (IH He).
  cbn [amountexpr_into big_weeks]. pose proof (amount_good Checked a Ha) as G. pose proof (amount_big a Ha) as B.
  destruct (amount_into Checked a) as [x| |p|]; cbn in G; try contradiction.
  - replace (big_week a) with false by (symmetry; destruct (big_week a); [discriminate (proj2 B eq_refl)|reflexivity]). cbn [orb bind].
    destruct (amountexpr_into Checked e) as [y| | |]; cbn [bind]; try exact IH. rewrite <- IH. destruct op; split; discriminate.
  - destruct G as [_ ->]. rewrite (proj1 B eq_refl). cbn. split; reflexivity.
Qed.
Lemma exact_names : forall now x, exact_ok x -> dt_valid now = true ->
  (names_date x = true /\ exists t, exactdate_into Checked now x = Ok t) \/ (names_date x = false /\ exists e, exactdate_into Checked now x = Err e).
Proof.
  intros now x Hx Hn. pose proof (exact_good Checked now x Hn Hx) as G.
  assert (X : names_date x = match exactdate_into Checked now x with Ok _ => true | _ => false end).
  { destruct x as [| | |d|d t]; try reflexivity.
    - destruct d as [y mo d|y ww d|y ddd]; cbn in Hx.
      + rewrite ymd_into. cbn [names_date]. unfold representable, year_exists. destruct ((min_year <=? y) && (y <=? max_year) && date_exists y mo d); reflexivity.
      + cbn [exactdate_into names_date]. rewrite first_into. unfold year_exists. destruct ((min_year <=? y) && (y <=? max_year)); [|reflexivity].
        cbn [bind]. unfold weeks. rewrite mul7 by (apply u32_7; tauto). reflexivity.
      + cbn [exactdate_into names_date]. rewrite first_into. unfold year_exists. destruct ((min_year <=? y) && (y <=? max_year)); reflexivity.
    - destruct d as [y mo d|y ww d|y ddd]; cbn in Hx.
      + rewrite ymdhms_into. cbn [names_date]. unfold representable, year_exists, time_ok. match goal with |- ?b = _ => destruct b end; reflexivity.
      + cbn [exactdate_into names_date]. rewrite first_into. unfold year_exists. destruct ((min_year <=? y) && (y <=? max_year)); [|reflexivity].
        cbn [bind]. unfold weeks. rewrite mul7 by (apply u32_7; tauto). reflexivity.
      + cbn [exactdate_into names_date]. rewrite first_into. unfold year_exists. destruct ((min_year <=? y) && (y <=? max_year)); reflexivity. }
  destruct (exactdate_into Checked now x); cbn in G; try contradiction; rewrite X; [left|right]; eauto.
Qed.
Lemma date_big : forall now d, date_ok d -> dt_valid now = true -> (date_into Checked now d = Panic PArith <-> date_overflows d = true).
Proof.
  intros now [x o] [Hx Ho] Hn. cbn [date_into date_overflows].
  destruct (exact_names now x Hx Hn) as [[N (t & E)]|[N (e & E)]]; rewrite E, N; cbn [bind andb].
  - destruct o as [[op e]|]; [|split; discriminate]. rewrite <- (expr_big e Ho).
    destruct op; destruct (amountexpr_into Checked e); cbn [bind]; split; intro C; try discriminate C; exact C.
  - destruct o as [[op a]|]; split; discriminate.
Qed.

(** ** Exact dates do not overflow *)
(** A moment and small amounts. *)
Inductive small : timetype -> Prop :=
| SM_moment m : small (Moment m)
| SM_add a u n : small a -> Z.abs n <= 68719476736 -> small (Addition a (mk u n))
| SM_sub a u n : small a -> Z.abs n <= 68719476736 -> small (Subtraction a (mk u n)).
Lemma add_fits_small : forall u m n, dt_valid m = true -> Z.abs n <= 68719476736 -> add_fits u m n = true.
Proof.
  intros u m n Hm Hn. destruct (valid_facts m Hm) as (Y & Mo & D & _ & Ho & Mi & Se). unfold min_year, max_year in *. unfold add_fits.
  assert (F : in_i64 (field u m + n) = true) by (apply in_i64_iff; destruct u; cbn [field]; unfold i64_min, i64_max; lia).
  rewrite F. destruct u; try reflexivity. replace (month m + n =? i64_max) with false by (unfold i64_max; lia). reflexivity.
Qed.
Lemma sub_fits_small : forall u m n, dt_valid m = true -> Z.abs n <= 68719476736 -> sub_fits u m n = true.
Proof.
  intros u m n Hm Hn. destruct (valid_facts m Hm) as (Y & Mo & D & _ & Ho & Mi & Se). unfold min_year, max_year in *.
  apply in_i64_iff; destruct u; cbn [field]; unfold i64_min, i64_max; lia.
Qed.
Lemma small_fine : forall t, small t -> tt_ok t = true -> shape_of t = SMoment -> calculate Checked t <> Panic PArith.
Proof.
  induction 1; intros Ho Sh P.
  - discriminate P.
  - cbn in Ho. apply andb_true_iff in Ho as [Ha Hb]. destruct (moment_parts _ _ (or_introl Sh)) as [Ma _].
    apply node_add in P; try assumption. destruct P as [P|(m & E & [P|(u' & n' & E' & F)])].
    + exact (IHsmall Ha Ma P).
    + destruct u; discriminate P.
    + destruct (moment_value _ _ Ha Ma E) as (m' & [= <-] & Vm). rewrite calc_value in E' by (destruct u; reflexivity). injection E' as E'. apply mk_inj in E' as [-> ->].
      rewrite add_fits_small in F by assumption. discriminate.
  - cbn in Ho. apply andb_true_iff in Ho as [Ha Hb]. destruct (moment_parts _ _ (or_intror Sh)) as [Ma _].
    apply node_sub in P; try assumption. destruct P as [P|[[_ P]|(m & E & [P|(u' & n' & E' & F)])]].
    + exact (IHsmall Ha Ma P).
    + destruct u; discriminate P.
    + destruct u; discriminate P.
    + destruct (moment_value _ _ Ha Ma E) as (m' & [= <-] & Vm). rewrite calc_value in E' by (destruct u; reflexivity). injection E' as E'. apply mk_inj in E' as [-> ->].
      rewrite sub_fits_small in F by assumption. discriminate.
Qed.
Lemma exact_small : forall now x t, exact_ok x -> exactdate_into Checked now x = Ok t -> small t.
Proof.
  intros now x t Hx E.
  assert (A : forall b u n, small b -> u32 n -> small (Addition b (mk u n))) by (intros b u n Hb Hn; apply SM_add; [exact Hb|unfold u32 in Hn; lia]).
  destruct x as [| | |d|d ti].
  - injection E as <-. apply SM_moment.
  - injection E as <-. apply (SM_sub _ UDay 1); [apply SM_moment|lia].
  - injection E as <-. apply (SM_add _ UDay 1); [apply SM_moment|lia].
  - destruct d as [y mo d|y ww d|y ddd]; cbn in Hx.
    + rewrite ymd_into in E. destruct (representable y mo d); [|discriminate]. injection E as <-. apply SM_moment.
    + cbn [exactdate_into] in E. rewrite first_into in E. destruct ((min_year <=? y) && (y <=? max_year)); [|discriminate]. cbn [bind] in E.
      unfold weeks in E. rewrite mul7 in E by (apply u32_7; tauto). cbn [bind] in E. injection E as <-.
      apply (A _ UDay d); [|tauto]. apply (SM_add _ UDay (ww * 7)); [apply SM_moment|]. unfold u32 in Hx. lia.
    + cbn [exactdate_into] in E. rewrite first_into in E. destruct ((min_year <=? y) && (y <=? max_year)); [|discriminate]. cbn [bind] in E. injection E as <-.
      apply (A _ UDay ddd); [apply SM_moment|tauto].
  - destruct Hx as [Hx (H1 & H2 & H3)]. destruct d as [y mo d|y ww d|y ddd]; cbn in Hx.
    + rewrite ymdhms_into in E. destruct (representable y mo d && _); [|discriminate]. injection E as <-. apply SM_moment.
    + cbn [exactdate_into] in E. rewrite first_into in E. destruct ((min_year <=? y) && (y <=? max_year)); [|discriminate]. cbn [bind] in E.
      unfold weeks in E. rewrite mul7 in E by (apply u32_7; tauto). cbn [bind] in E. injection E as <-.
      apply (A _ USec _); [|assumption]. apply (A _ UMin _); [|assumption]. apply (A _ UHour _); [|assumption].
      apply (A _ UDay d); [|tauto]. apply (SM_add _ UDay (ww * 7)); [apply SM_moment|]. unfold u32 in Hx. lia.
    + cbn [exactdate_into] in E. rewrite first_into in E. destruct ((min_year <=? y) && (y <=? max_year)); [|discriminate]. cbn [bind] in E. injection E as <-.
      apply (A _ USec _); [|assumption]. apply (A _ UMin _); [|assumption]. apply (A _ UHour _); [|assumption]. apply (A _ UDay ddd); [apply SM_moment|tauto].
Qed.
Lemma exact_no_panic : forall now x, exact_ok x -> dt_valid now = true -> forall p, exact_value Checked now x <> Panic p.
Proof.
  intros now x Hx Hn p P. unfold exact_value in P. pose proof (exact_good Checked now x Hn Hx) as G.
  destruct (exactdate_into Checked now x) as [t| | |] eqn:E; cbn [bind good_date] in G, P; try contradiction; try discriminate P.
  destruct G as [G1 G2]. pose proof (calculate_good Checked t G1) as Q. rewrite P in Q. destruct Q as [-> _].
  exact (small_fine t (exact_small _ _ _ Hx E) G1 G2 P).
Qed.

(** ** Readings *)
Definition reading_ok (x : reading) : Prop :=
  match x with AsTimeType (PTAmountExpr e) => expr_ok e | AsTimeType (PTDate d) => date_ok d | AsIterator it => iterator_ok it end.
Lemma made_overflows : forall now1 now2 x, dt_valid now1 = true -> dt_valid now2 = true -> reading_ok x ->
  (made Checked now1 now2 x = Panic PArith <-> reading_overflows (value_overflows now1) x).
Proof.
  intros now1 now2 [[d sp u]|[d|e]] H1 H2 Ok1; cbn [made reading_overflows reading_ok] in *.
  - destruct Ok1 as (Hd & Hs & Hu). unfold lower_iterator.
    destruct (in_i64 (step_count sp)) eqn:Es.
    + pose proof (iterator_means Checked now1 now2 d sp u H1 H2 (conj Hd (conj Hs Hu)) Es) as M. cbv zeta in M.
      assert (Ns : ~ i64_max < step_count sp) by (apply in_i64_iff in Es; lia).
      rewrite <- (date_big now1 d Hd H1). unfold value_overflows.
      unfold date_value in M. pose proof (date_good Checked now1 d H1 Hd) as G.
      destruct (date_into Checked now1 d) as [t|e|p|]; cbn [bind] in M; cbn in G; try contradiction.
      * destruct G as [G1 G2]. destruct (calculate Checked t) as [v|e|p|] eqn:Et.
        -- destruct M as (b & it & -> & Vb & Bu & M). split.
           ++ intro P. exfalso. destruct u as [[x|n]|].
              ** pose proof (exact_no_panic now2 x Hu H2) as Np. destruct (exact_value Checked now2 x) as [w|e|p|]; [|destruct M as [M _]| |contradiction].
                 --- destruct M as (en & _ & _ & M). rewrite M in P. discriminate.
                 --- rewrite M in P. discriminate.
                 --- exact (Np p eq_refl).
              ** rewrite M in P. discriminate.
              ** rewrite M in P. discriminate.
           ++ intros [C|[C|(t' & [= <-] & C)]]; [contradiction|discriminate|congruence].
        -- destruct M as [-> _]. split; [discriminate|]. intros [C|[C|(t' & [= <-] & C)]]; [contradiction|discriminate|congruence].
        -- destruct M as [-> [_ ->]]. split; [|reflexivity]. intros _. right. right. exists t. auto.
        -- contradiction.
      * destruct M as [-> _]. split; [discriminate|]. intros [C|[C|(t' & C & _)]]; [contradiction|discriminate|discriminate].
      * destruct M as [-> [_ ->]]. split; [|reflexivity]. intros _. right. left. reflexivity.
    + destruct (step_overflow sp Hs Es) as [P _]. unfold into_user_iterator. rewrite P. cbn [bind]. split; [|reflexivity]. intros _. left.
      apply in_i64_false in Es. clear - Hs Es. destruct sp as [| | | | | | |n []]; unfold step_spec_ok, step_count, times_kept, i64_min, i64_max in *; lia.
  - unfold lower_timetype. cbn [ptimetype_into]. rewrite <- (date_big now1 d Ok1 H1).
    destruct (date_into Checked now1 d); cbn [bind]; split; intro C; try discriminate C; try reflexivity; congruence.
  - unfold lower_timetype. cbn [ptimetype_into]. rewrite <- (expr_big e Ok1).
    destruct (amountexpr_into Checked e); cbn [bind]; split; intro C; try discriminate C; try reflexivity; congruence.
Qed.

Section Parse.
Variable cfg : nom_cfg.
Variable pd : parser isodate.
Variable pdt : parser (isodate * isotime).
Hypothesis Hpd : forall s r d, pd s = Done r d -> isodate_ok d.
Hypothesis Hpdt : forall s r d t, pdt s = Done r (d, t) -> isodate_ok d /\ isotime_ok t.
Lemma reads_ok : forall x s r, begins_with pd pdt x s r -> reading_ok x.
Proof.
  assert (D : forall d s r, date_begins pd pdt d s r -> date_ok d).
  { intros d s r Hd. destruct Hd as [x s r1 Hx|x s b1 op b2 e t' b3 r1 Hx _ _ Te _]; (split; [eapply exact_reads_okv; [exact Hpd|exact Hpdt|exact Hx]|]); [exact I|eapply expr_text_ok; exact Te]. }
  intros x s r H. destruct H as [d sp u b0 s b1 t b2 s2 rest _ Hd _ Ht _ Hb|d s rest Hd|e t b rest He _].
  - split; [eapply D; exact Hd|]. split; [eapply step_text_okv; exact Ht|].
    destruct Hb as [s3|x b s3 rest _ Hx|b1' ds b2' rest _ Hds Hl _]; cbn; [exact I|eapply exact_reads_okv; [exact Hpd|exact Hpdt|exact Hx]|].
    split; [|exact Hl]. apply decimal_range. apply Hds.
  - eapply D. exact Hd.
  - eapply expr_text_ok. exact He.
Qed.
Lemma parse_overflows : forall now1 now2 s r p, dt_valid now1 = true -> dt_valid now2 = true ->
  do_parse Checked cfg pd pdt now1 now2 s = Done r p ->
  exists x, begins_with pd pdt x s r /\ (parse Checked cfg pd pdt now1 now2 s = Panic PArith <-> reading_overflows (value_overflows now1) x).
Proof.
  intros now1 now2 s r p H1 H2 E. destruct (accepted_reads _ _ _ _ _ _ _ _ _ E) as (x & Bx & ->). exists x. split; [exact Bx|].
  unfold parse. rewrite E. apply made_overflows; try assumption. eapply reads_ok. exact Bx.
Qed.
Lemma fuzz_overflows : forall now1 now2 s r p, dt_valid now1 = true -> dt_valid now2 = true ->
  do_parse Checked cfg pd pdt now1 now2 s = Done r p ->
  exists x, begins_with pd pdt x s r /\ (fuzz_target Checked cfg pd pdt now1 now2 s = Panic PArith <-> utf8_ok s = true /\ reading_overflows (value_overflows now1) x).
Proof.
  intros now1 now2 s r p H1 H2 E. destruct (parse_overflows now1 now2 s r p H1 H2 E) as (x & Bx & I). exists x. split; [exact Bx|]. rewrite <- I. unfold fuzz_target.
  destruct (utf8_ok s); [|split; [discriminate|intros [C _]; discriminate C]].
  destruct (parse Checked cfg pd pdt now1 now2 s) as [v|e|q|]; split; intro C; try discriminate C; try discriminate (proj2 C); [injection C as ->; split; reflexivity|pose proof (proj2 C) as C2; injection C2 as ->; reflexivity].
Qed.
End Parse.
