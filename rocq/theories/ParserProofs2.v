(** Dates and iterator expressions; every parser leaves a suffix and never runs out of fuel. *)
Require Import ZArith Bool List String Ascii Lia ZifyBool.
From Verif Require Import Prelude Spec Chrono TimeType Nom ParserTimetype ParserIterator ParserMod Iter SpecText NomProofs ParserProofs.
Import ListNotations.
Local Open Scope string_scope.
Local Open Scope Z_scope.

(** ** Suffixes and fuel *)
Lemma suffix_refl : forall s, suffix s s.
Proof. intro s. exists "". reflexivity. Qed.
Lemma suffix_trans : forall a b c, suffix a b -> suffix b c -> suffix a c.
Proof. intros a b c [p ->] [q ->]. exists (q ++ p). symmetry. apply app_assoc. Qed.
Lemma suffix_length : forall r s, suffix r s -> (length r <= length s)%nat.
Proof. intros r s [p ->]. rewrite length_app. lia. Qed.

Lemma eats_fine : forall A (p : parser A) s, eats p s -> fine p s.
Proof. unfold eats, fine. intros A p s. destruct (p s); tauto. Qed.
Lemma fine_bind : forall A B (p : parser A) (f : A -> parser B) s,
  fine p s -> (forall r a, suffix r s -> fine (f a) r) -> fine (pbind p f) s.
Proof.
  unfold fine, pbind. intros A B p f s Hp Hf. destruct (p s) as [r a| | |]; try exact Hp.
  specialize (Hf r a Hp). destruct (f a r); try exact Hf. eapply suffix_trans; eassumption.
Qed.
Lemma eats_bind : forall A B (p : parser A) (f : A -> parser B) s,
  eats p s -> (forall r a, suffix r s -> (length r < length s)%nat -> fine (f a) r) -> eats (pbind p f) s.
Proof.
  unfold eats, pbind. intros A B p f s Hp Hf. destruct (p s) as [r a| | |]; try exact Hp.
  destruct Hp as [H1 H2]. specialize (Hf r a H1 H2). unfold fine in Hf. destruct (f a r) as [r' b| | |]; try exact Hf.
  split; [eapply suffix_trans; eassumption|]. apply suffix_length in Hf. lia.
Qed.
Lemma fine_bind_eats : forall A B (p : parser A) (f : A -> parser B) s,
  fine p s -> (forall r a, suffix r s -> eats (f a) r) -> eats (pbind p f) s.
Proof.
  unfold eats, fine, pbind. intros A B p f s Hp Hf. destruct (p s) as [r a| | |]; try exact Hp.
  specialize (Hf r a Hp). destruct (f a r); try exact Hf. destruct Hf as [H1 H2]. split; [eapply suffix_trans; eassumption|].
  apply suffix_length in Hp. lia.
Qed.
Lemma fine_ret : forall A (a : A) s, fine (pret a) s.
Proof. intros. apply suffix_refl. Qed.
Lemma fine_alt : forall A (p q : parser A) s, fine p s -> fine q s -> fine (alt p q) s.
Proof. unfold fine, alt. intros A p q s Hp Hq. destruct (p s); assumption. Qed.
Lemma eats_alt : forall A (p q : parser A) s, eats p s -> eats q s -> eats (alt p q) s.
Proof. unfold eats, alt. intros A p q s Hp Hq. destruct (p s); assumption. Qed.
Lemma fine_complete : forall A (p : parser A) s, fine p s -> fine (complete p) s.
Proof. unfold fine, complete. intros A p s Hp. destruct (p s); assumption. Qed.
Lemma eats_complete : forall A (p : parser A) s, eats p s -> eats (complete p) s.
Proof. unfold eats, complete. intros A p s Hp. destruct (p s); assumption. Qed.
Lemma fine_alt_c : forall A (p q : parser A) s, fine p s -> fine q s -> fine (alt_c p q) s.
Proof. intros. apply fine_alt; [apply fine_complete|]; assumption. Qed.
Lemma eats_alt_c : forall A (p q : parser A) s, eats p s -> eats q s -> eats (alt_c p q) s.
Proof. intros. apply eats_alt; [apply eats_complete|]; assumption. Qed.
Lemma fine_alt_last : forall A cfg (p : parser A) s, fine p s -> fine (alt_last cfg p) s.
Proof. intros. unfold alt_last. destruct (last_complete cfg); [apply fine_complete|]; assumption. Qed.
Lemma eats_alt_last : forall A cfg (p : parser A) s, eats p s -> eats (alt_last cfg p) s.
Proof. intros. unfold alt_last. destruct (last_complete cfg); [apply eats_complete|]; assumption. Qed.
Lemma fine_opt : forall A (p : parser A) s, fine p s -> fine (opt p) s.
Proof. unfold fine, opt. intros A p s Hp. destruct (p s); try assumption. apply suffix_refl. Qed.
Lemma suffix_skip : forall s, suffix (skip_spaces s) s.
Proof.
  induction s as [|c s [p IH]]; [exists ""; reflexivity|]. cbn. destruct (is_space c); [|apply suffix_refl].
  exists (String c p). cbn. congruence.
Qed.
Lemma fine_sp : forall s, fine sp s.
Proof. intro s. apply suffix_skip. Qed.
Lemma eats_tagv : forall A t (v : A) s, t <> "" -> eats (tagv t v) s.
Proof.
  intros A t v s Ht. unfold eats. rewrite tagv_eq. destruct (strip t s) as [r|] eqn:E; [|destruct (too_short t s); exact I].
  apply strip_some in E. subst s. split; [exists t; reflexivity|]. rewrite length_app. destruct t; [congruence|cbn; lia].
Qed.
Lemma eats_tag : forall t s, t <> "" -> eats (tag t) s.
Proof.
  intros t s Ht. unfold eats, tag. destruct (strip t s) as [r|] eqn:E; [|destruct (too_short t s); exact I].
  apply strip_some in E. subst s. split; [exists t; reflexivity|]. rewrite length_app. destruct t; [congruence|cbn; lia].
Qed.
Lemma span_split : forall s, let '(ds, r) := span_digits s in s = ds ++ r.
Proof. induction s as [|c s IH]; [reflexivity|]. cbn. destruct (is_digit c); [|reflexivity]. destruct (span_digits s). cbn. congruence. Qed.
Lemma eats_digit : forall cfg s, eats (digit cfg) s.
Proof.
  intros cfg s. unfold eats, digit. destruct s as [|c s]; [destruct (digit_incomplete cfg); exact I|].
  pose proof (span_split (String c s)) as H. destruct (span_digits (String c s)) as [[|d ds] r]; [exact I|].
  rewrite H. split; [exists (String d ds); reflexivity|]. rewrite length_app. cbn. lia.
Qed.
Lemma eats_integer : forall cfg s, eats (integer cfg) s.
Proof.
  intros cfg s. unfold integer.
  assert (E : eats (ws (digit cfg)) s).
  { unfold ws. apply fine_bind_eats; [apply fine_sp|]. intros r a _. apply eats_bind; [apply eats_digit|]. intros r' a' _ _.
    apply fine_bind; [apply fine_sp|]. intros. apply fine_ret. }
  unfold eats, map_res in *. destruct (ws (digit cfg) s); try exact E. destruct (i64_from_str a); [exact E|exact I].
Qed.
Ltac eat :=
  repeat first
  [ apply eats_alt_c | apply eats_alt_last | apply eats_alt
  | apply eats_tagv; discriminate | apply eats_integer | apply eats_tag; discriminate ].
Lemma eats_unit : forall cfg s, eats (unit_parser cfg) s.
Proof. intros. unfold unit_parser. eat. Qed.
Lemma eats_alias : forall cfg s, eats (unit_alias cfg) s.
Proof. intros. unfold unit_alias. eat. Qed.
Lemma eats_operator : forall s, eats operator_parser s.
Proof. intros. unfold operator_parser. eat. Qed.
Lemma eats_amount : forall cfg s, eats (amount_parser cfg) s.
Proof.
  intros. unfold amount_parser. apply eats_alt.
  - apply eats_bind; [apply eats_integer|]. intros. apply fine_bind; [apply eats_fine, eats_unit|]. intros. apply fine_ret.
  - apply eats_bind; [apply eats_alias|]. intros. apply fine_ret.
Qed.
Lemma eats_expr_fuel : forall cfg fuel s, (length s < fuel)%nat -> eats (amount_expr_fuel cfg fuel) s.
Proof.
  intro cfg. induction fuel as [|fuel IH]; intros s H; [lia|]. cbn [amount_expr_fuel].
  apply eats_bind; [apply eats_amount|]. intros r a Hr Hl.
  apply fine_bind; [apply fine_opt, fine_sp|]. intros r2 _ Hr2. apply suffix_length in Hr2.
  apply fine_bind; [|intros; apply fine_ret]. apply fine_opt, fine_complete.
  apply fine_bind; [apply eats_fine, eats_operator|]. intros r3 op Hr3. apply suffix_length in Hr3.
  apply fine_bind; [apply fine_opt, fine_sp|]. intros r4 _ Hr4. apply suffix_length in Hr4.
  apply fine_bind; [|intros; apply fine_ret]. apply eats_fine, IH. lia.
Qed.
Lemma eats_expr : forall cfg s, eats (amount_expr cfg) s.
Proof. intros. apply eats_expr_fuel. lia. Qed.

(** More fuel changes nothing. *)
Lemma bind_ext : forall A B (p : parser A) (f g : A -> parser B) s, (forall r a, p s = Done r a -> f a r = g a r) -> pbind p f s = pbind p g s.
Proof. intros A B p f g s H. unfold pbind. destruct (p s) as [r a| | |]; try reflexivity. apply H. reflexivity. Qed.
Lemma optc_ext : forall A B (p q : parser A) (f : option A -> parser B) s, p s = q s -> pbind (opt (complete p)) f s = pbind (opt (complete q)) f s.
Proof. intros A B p q f s H. unfold pbind, opt, complete. rewrite H. reflexivity. Qed.
Lemma fuel_irrelevant : forall cfg f1 f2 s, (length s < f1)%nat -> (length s < f2)%nat ->
  amount_expr_fuel cfg f1 s = amount_expr_fuel cfg f2 s.
Proof.
  intro cfg. induction f1 as [|f1 IH]; intros [|f2] s H1 H2; try lia. cbn [amount_expr_fuel].
  apply bind_ext. intros r a E. pose proof (eats_amount cfg s) as Ea. unfold eats in Ea. rewrite E in Ea. destruct Ea as [_ Ea].
  apply bind_ext. intros r1 o E1. rewrite opt_sp in E1. injection E1 as <- _. pose proof (suffix_length _ _ (suffix_skip r)) as L1.
  apply optc_ext. apply bind_ext. intros r2 op E2. pose proof (eats_operator (skip_spaces r)) as Eo. unfold eats in Eo. rewrite E2 in Eo. destruct Eo as [_ Eo].
  apply bind_ext. intros r3 o3 E3. rewrite opt_sp in E3. injection E3 as <- _. pose proof (suffix_length _ _ (suffix_skip r2)) as L2.
  unfold pbind. rewrite (IH f2) by lia. reflexivity.
Qed.

Section Oracles.
Variable cfg : nom_cfg.
Variable pd : parser isodate.
Variable pdt : parser (isodate * isotime).

Section Fine.
Hypothesis Hpd : forall s, fine pd s.
Hypothesis Hpdt : forall s, fine pdt s.

Lemma fine_exact : forall s, fine (exact_date_parser cfg pd pdt) s.
Proof.
  intro s. unfold exact_date_parser.
  repeat (apply fine_alt_c; [solve [apply eats_fine, eats_tagv; discriminate | apply fine_bind; [apply Hpdt|intros; apply fine_ret]]|]).
  apply fine_alt_last. apply fine_bind; [apply Hpd|intros; apply fine_ret].
Qed.
Lemma fine_date : forall s, fine (date cfg pd pdt) s.
Proof.
  intro s. unfold date. apply fine_bind; [apply fine_exact|]. intros r x _. apply fine_bind; [|intros; apply fine_ret].
  apply fine_opt, fine_complete. apply fine_bind; [apply fine_sp|]. intros. apply fine_bind; [apply eats_fine, eats_operator|]. intros.
  apply fine_bind; [apply fine_sp|]. intros. apply fine_bind; [apply eats_fine, eats_expr|]. intros. apply fine_ret.
Qed.
Lemma fine_timetype : forall s, fine (timetype_parser cfg pd pdt) s.
Proof.
  intro s. unfold timetype_parser. apply fine_alt; (apply fine_bind; [|intros; apply fine_ret]); [apply fine_date|apply eats_fine, eats_expr].
Qed.
Lemma eats_step : forall s, eats (iter_spec cfg) s.
Proof.
  intro s. unfold iter_spec. eat. apply eats_bind; [apply eats_tag; discriminate|]. intros.
  apply fine_bind; [apply eats_fine, eats_integer|]. intros. apply fine_bind; [apply eats_fine, eats_unit|]. intros. apply fine_ret.
Qed.
Lemma eats_bound : forall s, eats (until_spec cfg pd pdt) s.
Proof.
  intro s. unfold until_spec. apply eats_alt_c; [|apply eats_alt_last].
  - apply eats_bind; [apply eats_tag; discriminate|]. intros. apply fine_bind; [apply fine_sp|]. intros. apply fine_bind; [apply fine_exact|]. intros. apply fine_ret.
  - apply eats_bind; [apply eats_integer|]. intros. apply fine_bind; [apply fine_sp|]. intros.
    apply fine_bind; [apply eats_fine, eats_tag; discriminate|]. intros. apply fine_ret.
Qed.
Lemma eats_iterator : forall s, eats (iterator cfg pd pdt) s.
Proof.
  intro s. unfold iterator. apply fine_bind_eats; [apply fine_opt, fine_sp|]. intros. apply fine_bind_eats; [apply fine_date|]. intros.
  apply fine_bind_eats; [apply fine_opt, fine_sp|]. intros. apply eats_bind; [apply eats_step|]. intros.
  apply fine_bind; [apply fine_opt, fine_sp|]. intros. apply fine_bind; [|intros; apply fine_ret].
  apply fine_opt, fine_complete, eats_fine, eats_bound.
Qed.
Lemma fine_do_parse : forall md now1 now2 s, fine (do_parse md cfg pd pdt now1 now2) s.
Proof.
  intros. unfold do_parse. apply fine_alt_c; [|apply fine_alt_last]; (apply fine_bind; [|intros; apply fine_ret]).
  - apply eats_fine, eats_iterator.
  - apply fine_timetype.
Qed.
End Fine.

(** ** Dates *)
Lemma keyword_start : forall t s, begins t s -> forall q, (length q <= length t)%nat -> begins q s -> begins q t.
Proof. intros t s H q L Hq. exact (begins_prefix q t s Hq H L). Qed.
Lemma no_begin : forall t q r, strip q t = None -> (length q <= length t)%nat -> ~ begins q (t ++ r).
Proof.
  intros t q r E L H. assert (B : begins q t) by (apply begins_prefix with (t ++ r); [exact H|exists r; reflexivity|exact L]).
  apply strip_begins in B. congruence.
Qed.
Lemma strip_none_app : forall q t r, strip q t = None -> too_short q t = false -> strip q (t ++ r) = None.
Proof.
  induction q as [|c q IH]; intros t r H1 H2; cbn in *; [discriminate|].
  destruct t as [|c' t]; [discriminate|]. cbn. destruct (Ascii.eqb c c'); [|reflexivity]. cbn in H2. apply IH; assumption.
Qed.
Lemma no_begin2 : forall t q r, strip q t = None -> too_short q t = false -> ~ begins q (t ++ r).
Proof. intros t q r H1 H2 B. apply strip_begins in B. rewrite strip_none_app in B by assumption. congruence. Qed.
Lemma exact_reads_ok : forall x s rest, exact_reads pd pdt x s rest -> exact_date_parser cfg pd pdt s = Done rest x.
Proof.
  intros x s rest [r|r|r|d t s' r K H|d s' r K H1 H2]; unfold exact_date_parser.
  - apply keyword_some.
  - rewrite keyword_none by (apply no_begin2; reflexivity). apply keyword_some.
  - rewrite !keyword_none by (apply no_begin2; reflexivity). apply keyword_some.
  - unfold keyword in K. rewrite !keyword_none by tauto. unfold alt_c, alt, complete, pbind. rewrite H. reflexivity.
  - unfold keyword in K. rewrite !keyword_none by tauto.
    assert (E : alt_last cfg (pdo d0 <- pd;; pret (Iso8601Date d0)) s' = Done r (Iso8601Date d)).
    { unfold alt_last, complete, pbind. destruct (last_complete cfg); rewrite H2; reflexivity. }
    unfold alt_c, alt, complete at 1. unfold pbind at 1. destruct H1 as [-> | ->]; exact E.
Qed.
Lemma date_reads_ok : forall d s rest, date_reads pd pdt d s rest -> date cfg pd pdt s = Done rest d.
Proof.
  intros d s rest [x s' r H Ho|x s' b1 op b2 e es r H Hb1 Hb2 He Hst]; unfold date, pbind at 1; rewrite (exact_reads_ok _ _ _ H).
  - unfold pbind at 1, opt, complete. unfold pbind at 1. rewrite drop_skip in Ho. unfold sp at 1. unfold pbind at 1.
    destruct (op_none _ Ho) as [-> | ->]; reflexivity.
  - unfold pbind at 1, opt, complete. unfold pbind at 1. unfold sp at 1. rewrite skip_app by exact Hb1.
    rewrite skip_stop by apply op_no_blank. unfold pbind at 1. rewrite op_ok. unfold pbind at 1. unfold sp at 1.
    rewrite skip_app by exact Hb2. destruct (expr_text_drop _ _ He) as (b & s2 & E1 & E2 & E3 & E4). subst es.
    rewrite app_assoc, skip_app by exact E2.
    rewrite skip_stop by (rewrite starts_app by (eapply expr_text_nonempty; exact E3); exact E4).
    unfold pbind. rewrite (expr_parses cfg e s2 r E3 Hst). rewrite drop_skip. reflexivity.
Qed.

(** ** Iteration steps and bounds *)
Definition adverb_specs : list (string * iterspec) :=
  [("secondly", ISecondly); ("minutely", IMinutely); ("hourly", IHourly); ("daily", IDaily); ("weekly", IWeekly); ("monthly", IMonthly); ("yearly", IYearly)].
Definition every_spec : parser iterspec :=
  alt_last cfg (pdo _ <- tag "every";; pdo number <- integer cfg;; pdo u <- unit_parser cfg;; pret (IEvery number u)).
Lemma iter_spec_tags : iter_spec cfg = tags adverb_specs every_spec.
Proof. reflexivity. Qed.
Lemma step_ok : forall sp t rest, step_text sp t -> starts letter_char rest = false -> iter_spec cfg (t ++ rest) = Done rest sp.
Proof.
  intros sp t rest [t' a Hin|b1 ds b2 sp' u Hb1 Hds Hv Hb2 Hin] Hr; rewrite iter_spec_tags.
  - unfold adverbs in Hin. cbn [In] in Hin.
    repeat (destruct Hin as [Hin|Hin]; [injection Hin as <- <-; unfold adverb_specs; repeat (rewrite tags_cons; first [rewrite strip_app; reflexivity|rewrite (strip_none_app _ _ rest) by reflexivity])|]).
    contradiction.
  - rewrite !app_assoc. rewrite tags_none.
    + assert (E : (pdo _ <- tag "every";; pdo number <- integer cfg;; pdo u0 <- unit_parser cfg;; pret (IEvery number u0)) ("every" ++ b1 ++ ds ++ b2 ++ sp' ++ rest) = Done rest (IEvery (decimal ds) u)).
      { unfold pbind at 1, tag. rewrite strip_app. unfold pbind at 1.
        assert (St : starts letter_char (sp' ++ rest) = true).
        { rewrite starts_app by (eapply spellings_nonempty; exact Hin). apply all_starts; [eapply spellings_nonempty; exact Hin|eapply spellings_letters; exact Hin]. }
        rewrite (integer_ok cfg b1 ds b2 (sp' ++ rest) Hb1 Hds Hb2).
        - destruct (Z.leb_spec (decimal ds) i64_max); [|lia]. unfold pbind. rewrite (unit_ok cfg sp' u rest Hin Hr). reflexivity.
        - apply (starts_imp letter_char); [exact letter_not_blank|exact St].
        - intros _. apply (starts_imp letter_char); [exact letter_not_digit|exact St]. }
      unfold every_spec, alt_last, complete. destruct (last_complete cfg); rewrite E; reflexivity.
    + intros q a Ht. unfold adverb_specs in Ht. cbn [In] in Ht.
      repeat (destruct Ht as [Ht|Ht]; [injection Ht as <- <-; apply no_begin2; reflexivity|]). contradiction.
Qed.
(** No step at a text that begins with no letter. *)
Lemma step_none : forall s, starts letter_char s = false -> iter_spec cfg s = PError \/ iter_spec cfg s = Incomplete.
Proof.
  intros s Hs. rewrite iter_spec_tags. rewrite tags_none.
  - assert (E : tag "every" s = PError \/ tag "every" s = Incomplete).
    { unfold tag. destruct (strip "every" s) as [r|] eqn:E; [apply strip_some in E; subst s; discriminate Hs|].
      destruct (too_short "every" s); auto. }
    unfold every_spec, alt_last, complete, pbind. destruct (last_complete cfg), E as [-> | ->]; auto.
  - intros t a Ht [r ->]. unfold adverb_specs in Ht. cbn [In] in Ht.
    repeat (destruct Ht as [Ht|Ht]; [injection Ht as <- <-; discriminate Hs|]). contradiction.
Qed.

Lemma bound_parses : forall u s, bound_reads pd pdt u s -> starts blank_char s = false -> exists r, opt (complete (until_spec cfg pd pdt)) s = Done r u.
Proof.
  intros u s [s' Hu Hd|x b s' rest Hb Hs Hx|ds b rest Hds Hv Hb] Hbl.
  - exists s'. unfold opt.
    assert (E : until_spec cfg pd pdt s' = PError \/ until_spec cfg pd pdt s' = Incomplete).
    { assert (T : tag "until" s' = PError \/ tag "until" s' = Incomplete).
      { unfold tag. destruct (strip "until" s') as [r|] eqn:E; [elim Hu; apply strip_begins; congruence|]. destruct (too_short "until" s'); auto. }
      assert (N : alt_last cfg (pdo num <- integer cfg;; pdo _ <- sp;; pdo _ <- tag "times";; pret (UTimes num)) s' = PError \/
                  alt_last cfg (pdo num <- integer cfg;; pdo _ <- sp;; pdo _ <- tag "times";; pret (UTimes num)) s' = Incomplete).
      { pose proof (integer_none cfg "" s' eq_refl Hbl Hd) as I. cbn [append] in I.
        unfold alt_last. destruct (last_complete cfg); unfold complete, pbind; rewrite I; destruct s'; [destruct (digit_incomplete cfg)| |destruct (digit_incomplete cfg)|]; auto. }
      assert (C : complete (pdo _ <- tag "until";; pdo _ <- sp;; pdo exact <- exact_date_parser cfg pd pdt;; pret (UExact exact)) s' = PError).
      { unfold complete, pbind. destruct T as [-> | ->]; reflexivity. }
      unfold until_spec, alt_c, alt. rewrite C. exact N. }
    unfold complete. destruct E as [-> | ->]; reflexivity.
  - exists rest. unfold opt, complete at 1. unfold until_spec, alt_c, alt, complete. unfold pbind at 1, tag. rewrite strip_app.
    unfold pbind at 1, sp. rewrite skip_app by exact Hb. rewrite skip_stop by exact Hs. unfold pbind. rewrite (exact_reads_ok _ _ _ Hx). reflexivity.
  - exists rest.
    assert (T : tag "until" (ds ++ b ++ "times" ++ rest) = PError).
    { destruct Hds as [H1 H2]. unfold tag. destruct ds as [|c ds]; [congruence|]. cbn [all] in H1. apply andb_true_iff in H1. destruct H1 as [H1 _].
      assert (N : Ascii.eqb "u" c = false).
      { destruct (Ascii.eqb_spec "u" c) as [<-|]; [discriminate H1|reflexivity]. }
      cbn [append strip too_short]. rewrite N. reflexivity. }
    assert (E : (pdo num <- integer cfg;; pdo _ <- sp;; pdo _ <- tag "times";; pret (UTimes num)) (ds ++ b ++ "times" ++ rest) = Done rest (UTimes (decimal ds))).
    { unfold pbind at 1. pose proof (integer_ok cfg "" ds b ("times" ++ rest) eq_refl Hds Hb eq_refl (fun _ => eq_refl)) as I. cbn [append] in I.
      change ("times" ++ rest) with (String "t" (String "i" (String "m" (String "e" (String "s" rest))))). rewrite I.
      destruct (Z.leb_spec (decimal ds) i64_max); [|lia]. unfold pbind, sp. rewrite skip_stop by reflexivity. reflexivity. }
    unfold opt, complete at 1. unfold until_spec, alt_c, alt, complete at 1. unfold pbind at 1. rewrite T.
    unfold alt_last, complete. destruct (last_complete cfg); rewrite E; reflexivity.
Qed.

(** ** The top level *)
Section Top.
Variable md : mode.
Variables now1 now2 : datetime.
Lemma parse_date : forall d s rest, date_reads pd pdt d s rest -> starts blank_char s = false ->
  starts letter_char (drop_blanks rest) = false ->
  parse md cfg pd pdt now1 now2 s = do t <- date_into md now1 d; Ok (PTimeType t).
Proof.
  intros d s rest Hd Hs Hr. rewrite drop_skip in Hr. unfold parse, do_parse. unfold alt_c, alt at 1, complete at 1. unfold pbind at 1.
  unfold iterator. unfold pbind at 1. rewrite opt_sp. rewrite skip_stop by exact Hs. unfold pbind at 1. rewrite (date_reads_ok _ _ _ Hd).
  unfold pbind at 1. rewrite opt_sp. unfold pbind at 1.
  assert (T : timetype_parser cfg pd pdt s = Done rest (PTDate d)).
  { unfold timetype_parser, alt. unfold pbind at 1. rewrite (date_reads_ok _ _ _ Hd). reflexivity. }
  assert (L : alt_last cfg (pdo t <- timetype_parser cfg pd pdt;; pret (lower_timetype md now1 t)) s = Done rest (lower_timetype md now1 (PTDate d))).
  { unfold alt_last, complete, pbind. destruct (last_complete cfg); rewrite T; reflexivity. }
  destruct (step_none _ Hr) as [-> | ->]; rewrite L; reflexivity.
Qed.
Lemma parse_iter : forall d b0 s r1 sp t r2 u, blanks b0 -> date_reads pd pdt d s r1 -> starts blank_char s = false ->
  drop_blanks r1 = t ++ r2 -> step_text sp t -> starts letter_char r2 = false ->
  bound_reads pd pdt u (drop_blanks r2) ->
  parse md cfg pd pdt now1 now2 (b0 ++ s) = lower_iterator md now1 now2 (Iterator d sp u).
Proof.
  intros d b0 s r1 sp t r2 u Hb0 Hd Hs E Ht Hl Hu. rewrite drop_skip in E, Hu.
  unfold parse, do_parse. unfold alt_c, alt at 1, complete at 1. unfold pbind at 1.
  unfold iterator. unfold pbind at 1. rewrite opt_sp. rewrite skip_app by exact Hb0. rewrite skip_stop by exact Hs.
  unfold pbind at 1. rewrite (date_reads_ok _ _ _ Hd). unfold pbind at 1. rewrite opt_sp. unfold pbind at 1. rewrite E.
  rewrite (step_ok sp t r2 Ht Hl). unfold pbind at 1. rewrite opt_sp. unfold pbind at 1.
  destruct (bound_parses u _ Hu (skip_starts r2)) as [r ->]. reflexivity.
Qed.
End Top.
End Oracles.
