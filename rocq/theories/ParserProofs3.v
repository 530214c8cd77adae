(** What the parsers accept: soundness with respect to the texts, and parse() never panics. *)
Require Import ZArith Bool List String Ascii Lia ZifyBool.
From Verif Require Import Prelude Spec Chrono TimeType Nom ParserTimetype ParserIterator ParserMod Iter SpecTree SpecMoment SpecIter SpecAdapt
  SpecText NomProofs ParserProofs ParserProofs2 LowerProofs.
Import ListNotations.
Local Open Scope string_scope.
Local Open Scope Z_scope.

Lemma skip_split : forall s, exists b, blanks b /\ s = b ++ skip_spaces s.
Proof.
  unfold blanks. induction s as [|c s (b & H1 & H2)]; [exists ""; split; reflexivity|]. cbn [skip_spaces].
  destruct (is_space c) eqn:E; [|exists ""; split; reflexivity].
  exists (String c b). cbn. rewrite <- is_space_blank, E, H1. split; [reflexivity|]. f_equal. exact H2.
Qed.
Lemma span_all : forall s, let '(ds, _) := span_digits s in all digit_char ds = true.
Proof.
  induction s as [|c s IH]; [reflexivity|]. cbn. destruct (is_digit c) eqn:E; [|reflexivity].
  destruct (span_digits s). cbn. rewrite <- is_digit_char, E. exact IH.
Qed.
Lemma blanks_app : forall a b, blanks a -> blanks b -> blanks (a ++ b).
Proof. unfold blanks. intros a b Ha Hb. rewrite all_app, Ha, Hb. reflexivity. Qed.

Section Sound.
Variable cfg : nom_cfg.
Lemma integer_sound : forall s r n, integer cfg s = Done r n ->
  exists b1 ds b2, s = b1 ++ ds ++ b2 ++ r /\ blanks b1 /\ digits ds /\ blanks b2 /\ decimal ds = n /\ 0 <= n <= i64_max.
Proof.
  intros s r n H. unfold integer, map_res, ws, pbind, sp, pret in H.
  destruct (skip_split s) as (b1 & B1 & S1). unfold digit in H. destruct (skip_spaces s) as [|c s'] eqn:E; [destruct (digit_incomplete cfg); discriminate H|].
  pose proof (span_split (String c s')) as Sp. pose proof (span_all (String c s')) as Sa.
  destruct (span_digits (String c s')) as [[|d ds] r2]; [discriminate H|].
  destruct (skip_split r2) as (b2 & B2 & S2). unfold i64_from_str in H. cbv zeta in H. rewrite digits_value_decimal in H.
  destruct (Z.leb_spec (decimal (String d ds)) i64_max); [|discriminate H]. injection H as <- <-.
  exists b1, (String d ds), b2. rewrite <- S2, <- Sp. split; [exact S1|]. split; [exact B1|]. split; [split; [exact Sa|discriminate]|].
  split; [exact B2|]. split; [reflexivity|]. split; [apply (decimal_range _ Sa)|assumption].
Qed.
Lemma amount_sound : forall s r a, amount_parser cfg s = Done r a -> exists t, s = t ++ r /\ amount_text a t.
Proof.
  intros s r a H. unfold amount_parser, alt in H.
  destruct ((pdo number <- integer cfg;; pdo u <- unit_parser cfg;; pret (Amount number u)) s) as [r1 a1| | |] eqn:E.
  - injection H as -> ->. unfold pbind in E. destruct (integer cfg s) as [r1 n| | |] eqn:E1; try discriminate E.
    destruct (unit_parser cfg r1) as [r2 u| | |] eqn:E2; try discriminate E. injection E as -> <-.
    destruct (integer_sound _ _ _ E1) as (b1 & ds & b2 & S & B1 & D & B2 & V & R). destruct (unit_sound _ _ _ _ E2) as (t & Hin & St & _).
    exists (b1 ++ ds ++ b2 ++ t). subst n. split; [subst s r1; rewrite !app_assoc; reflexivity|]. apply AT_number; try assumption. lia.
  - unfold pbind in H. destruct (unit_alias cfg s) as [r2 u| | |] eqn:E2; try discriminate H. injection H as <- <-.
    destruct (alias_sound _ _ _ _ E2) as (t & Hin & St & _). exists t. split; [exact St|].
    replace (alias_into u) with (adverb_unit u) by (destruct u; reflexivity). apply AT_adverb. exact Hin.
  - discriminate H.
  - discriminate H.
Qed.
Lemma op_sound : forall s r op, operator_parser s = Done r op -> s = op_text op ++ r.
Proof.
  intros s r op H. unfold operator_parser, alt in H. rewrite !tagv_eq in H.
  destruct (strip "+" s) eqn:E1.
  - injection H as <- <-. apply strip_some in E1. exact E1.
  - destruct (too_short "+" s); [discriminate H|]. destruct (strip "-" s) eqn:E2; [|destruct (too_short "-" s); discriminate H].
    injection H as <- <-. apply strip_some in E2. exact E2.
Qed.
Lemma expr_fuel_sound : forall fuel s r e, amount_expr_fuel cfg fuel s = Done r e ->
  exists t b, s = t ++ b ++ r /\ expr_text e t /\ blanks b.
Proof.
  induction fuel as [|fuel IH]; intros s r e H; [discriminate H|]. cbn [amount_expr_fuel] in H. unfold pbind at 1 in H.
  destruct (amount_parser cfg s) as [r1 a| | |] eqn:E1; try discriminate H. unfold pbind at 1 in H. rewrite opt_sp in H.
  destruct (amount_sound _ _ _ E1) as (t & S & At). destruct (skip_split r1) as (b1 & B1 & S1).
  unfold pbind at 1, opt, complete in H. unfold pbind at 1 in H.
  destruct (operator_parser (skip_spaces r1)) as [r2 op| | |] eqn:E2.
  - unfold pbind at 1 in H. change (sp r2) with (Done (skip_spaces r2) tt) in H. cbv beta iota in H. unfold pbind at 1 in H.
    apply op_sound in E2. destruct (skip_split r2) as (b2 & B2 & S2).
    destruct (amount_expr_fuel cfg fuel (skip_spaces r2)) as [r3 e3| | |] eqn:E3; cbn in H; try discriminate H.
    + injection H as <- <-. destruct (IH _ _ _ E3) as (t3 & b3 & S3 & T3 & B3).
      exists (t ++ b1 ++ op_text op ++ b2 ++ t3), b3. split; [|split; [apply ET_next; assumption|exact B3]].
      rewrite !app_assoc, <- S3, <- S2, <- E2, <- S1. exact S.
    + injection H as <- <-. exists t, b1. rewrite <- S1. repeat split; [exact S|apply ET_last; exact At|exact B1].
    + injection H as <- <-. exists t, b1. rewrite <- S1. repeat split; [exact S|apply ET_last; exact At|exact B1].
  - injection H as <- <-. exists t, b1. rewrite <- S1. repeat split; [exact S|apply ET_last; exact At|exact B1].
  - injection H as <- <-. exists t, b1. rewrite <- S1. repeat split; [exact S|apply ET_last; exact At|exact B1].
  - discriminate H.
Qed.
Lemma expr_sound : forall s r e, amount_expr cfg s = Done r e -> exists t b, s = t ++ b ++ r /\ expr_text e t /\ blanks b.
Proof. intros s r e. apply expr_fuel_sound. Qed.

Variable pd : parser isodate.
Variable pdt : parser (isodate * isotime).
Lemma exact_sound : forall s r x, exact_date_parser cfg pd pdt s = Done r x -> exact_reads pd pdt x s r.
Proof.
  intros s r x H. unfold exact_date_parser, alt_c at 1, alt at 1, complete at 1 in H. rewrite tagv_eq in H.
  destruct (strip "today" s) as [r1|] eqn:E1; [injection H as <- <-; apply strip_some in E1; subst s; apply ER_today|].
  assert (N1 : ~ begins "today" s) by (intro B; apply strip_begins in B; congruence).
  assert (H1 : alt_c (tagv "yesterday" Yesterday) (alt_c (tagv "tomorrow" Tomorrow)
    (alt_c (pdo d <- pdt;; pret (Iso8601DateTime (fst d) (snd d))) (alt_last cfg (pdo d <- pd;; pret (Iso8601Date d))))) s = Done r x)
    by (destruct (too_short "today" s); exact H).
  clear H. unfold alt_c at 1, alt at 1, complete at 1 in H1. rewrite tagv_eq in H1.
  destruct (strip "yesterday" s) as [r1|] eqn:E2; [injection H1 as <- <-; apply strip_some in E2; subst s; apply ER_yesterday|].
  assert (N2 : ~ begins "yesterday" s) by (intro B; apply strip_begins in B; congruence).
  assert (H2 : alt_c (tagv "tomorrow" Tomorrow)
    (alt_c (pdo d <- pdt;; pret (Iso8601DateTime (fst d) (snd d))) (alt_last cfg (pdo d <- pd;; pret (Iso8601Date d)))) s = Done r x)
    by (destruct (too_short "yesterday" s); exact H1).
  clear H1. unfold alt_c at 1, alt at 1, complete at 1 in H2. rewrite tagv_eq in H2.
  destruct (strip "tomorrow" s) as [r1|] eqn:E3; [injection H2 as <- <-; apply strip_some in E3; subst s; apply ER_tomorrow|].
  assert (N3 : ~ begins "tomorrow" s) by (intro B; apply strip_begins in B; congruence).
  assert (K : ~ keyword s) by (unfold keyword; tauto).
  assert (H3 : alt_c (pdo d <- pdt;; pret (Iso8601DateTime (fst d) (snd d))) (alt_last cfg (pdo d <- pd;; pret (Iso8601Date d))) s = Done r x)
    by (destruct (too_short "tomorrow" s); exact H2).
  clear H2. unfold alt_c, alt, complete at 1 in H3. unfold pbind at 1 in H3.
  assert (L : (pdt s = PError \/ pdt s = Incomplete) -> alt_last cfg (pdo d <- pd;; pret (Iso8601Date d)) s = Done r x -> exact_reads pd pdt x s r).
  { intros Hp Hl. unfold alt_last, complete, pbind in Hl. destruct (last_complete cfg); destruct (pd s) as [r1 d| | |] eqn:E; try discriminate Hl;
      injection Hl as <- <-; apply ER_date; assumption. }
  destruct (pdt s) as [r1 [d t]| | |] eqn:E; [injection H3 as <- <-; apply ER_datetime; assumption|apply L; auto|apply L; auto|discriminate H3].
Qed.
Lemma date_sound : forall s r x o, date cfg pd pdt s = Done r (Date x o) ->
  match o with
  | None => exact_reads pd pdt x s r
  | Some (op, e) => exists b1 b2 t b3, exact_reads pd pdt x s (b1 ++ op_text op ++ b2 ++ t ++ b3 ++ r) /\ blanks b1 /\ blanks b2 /\ expr_text e t /\ blanks b3
  end.
Proof.
  intros s r x o H. unfold date, pbind at 1 in H. destruct (exact_date_parser cfg pd pdt s) as [r1 x1| | |] eqn:E1; try discriminate H.
  apply exact_sound in E1. unfold pbind at 1, opt, complete in H. unfold pbind at 1 in H. change (sp r1) with (Done (skip_spaces r1) tt) in H. cbv beta iota in H.
  destruct (skip_split r1) as (b1 & B1 & S1). unfold pbind at 1 in H.
  destruct (operator_parser (skip_spaces r1)) as [r2 op| | |] eqn:E2; cbn in H; try (injection H as <- <- <-; exact E1); try discriminate H.
  apply op_sound in E2. unfold pbind in H. change (sp r2) with (Done (skip_spaces r2) tt) in H. cbv beta iota in H. destruct (skip_split r2) as (b2 & B2 & S2).
  destruct (amount_expr cfg (skip_spaces r2)) as [r3 e| | |] eqn:E3; cbn in H; try (injection H as <- <- <-; exact E1); try discriminate H.
  injection H as <- <- <-. destruct (expr_sound _ _ _ E3) as (t & b3 & S3 & T & B3).
  exists b1, b2, t, b3. rewrite <- S3, <- S2, <- E2, <- S1. auto.
Qed.
(** Whatever parse() accepts begins with an amount expression or (blanks aside) a date. *)
Lemma accepted : forall md now1 now2 s r p, do_parse md cfg pd pdt now1 now2 s = Done r p ->
  (exists e t b, s = t ++ b ++ r /\ expr_text e t /\ blanks b) \/
  (exists x rest, exact_reads pd pdt x s rest \/ exact_reads pd pdt x (drop_blanks s) rest).
Proof.
  intros md now1 now2 s r p H. unfold do_parse, alt_c, alt, complete at 1 in H. unfold pbind at 1 in H.
  assert (D : forall s' r' x o, date cfg pd pdt s' = Done r' (Date x o) -> exists rest, exact_reads pd pdt x s' rest).
  { intros s' r' x o E. apply date_sound in E. destruct o as [[op e]|]; [destruct E as (b1 & b2 & t' & b3 & E & _)|]; eexists; exact E. }
  assert (L : alt_last cfg (pdo t <- timetype_parser cfg pd pdt;; pret (lower_timetype md now1 t)) s = Done r p ->
    (exists e t b, s = t ++ b ++ r /\ expr_text e t /\ blanks b) \/
    (exists x rest, exact_reads pd pdt x s rest \/ exact_reads pd pdt x (drop_blanks s) rest)).
  { intro Hl.
    assert (T : exists t, timetype_parser cfg pd pdt s = Done r t).
    { unfold alt_last, complete, pbind in Hl. destruct (last_complete cfg); destruct (timetype_parser cfg pd pdt s) as [r1 t| | |]; try discriminate Hl;
        injection Hl as <- _; exists t; reflexivity. }
    destruct T as [t T]. unfold timetype_parser, alt in T. unfold pbind at 1 in T.
    destruct (date cfg pd pdt s) as [r2 [x o]| | |] eqn:E2; [|clear E2|discriminate T|discriminate T].
    - right. destruct (D _ _ _ _ E2) as [rest Hx]. exists x, rest. left. exact Hx.
    - left. unfold pbind in T. destruct (amount_expr cfg s) as [r2 e| | |] eqn:E2; try discriminate T. injection T as <- <-.
      destruct (expr_sound _ _ _ E2) as (t0 & b & S & Te & B). exists e, t0, b. auto. }
  destruct (iterator cfg pd pdt s) as [r1 it| | |] eqn:E; [|exact (L H)|exact (L H)|discriminate H].
  right. unfold iterator, pbind at 1 in E. rewrite opt_sp in E. unfold pbind at 1 in E. rewrite drop_skip.
  destruct (date cfg pd pdt (skip_spaces s)) as [r2 [x o]| | |] eqn:E2; try discriminate E.
  destruct (D _ _ _ _ E2) as [rest Hx]. exists x, rest. right. exact Hx.
Qed.

(** ** Numbers of parsed trees fit; parse() never panics but by overflow *)
Section Returns.
Hypothesis Fpd : forall s, fine pd s.
Hypothesis Fpdt : forall s, fine pdt s.
Hypothesis Hpd : forall s r d, pd s = Done r d -> isodate_ok d.
Hypothesis Hpdt : forall s r d t, pdt s = Done r (d, t) -> isodate_ok d /\ isotime_ok t.
Lemma exact_reads_okv : forall x s r, exact_reads pd pdt x s r -> exact_ok x.
Proof. intros x s r [ | | |d t s' r' K H|d s' r' K H1 H2]; cbn; try exact I; [eapply Hpdt; exact H|eapply Hpd; exact H2]. Qed.
Lemma date_okv : forall s r d, date cfg pd pdt s = Done r d -> date_ok d.
Proof.
  intros s r [x o] H. apply date_sound in H. destruct o as [[op e]|].
  - destruct H as (b1 & b2 & t & b3 & H & _ & _ & T & _). split; [eapply exact_reads_okv; exact H|eapply expr_text_ok; exact T].
  - split; [eapply exact_reads_okv; exact H|exact I].
Qed.
Lemma step_okv : forall s r sp, iter_spec cfg s = Done r sp -> step_spec_ok sp.
Proof.
  intros s r sp H. rewrite iter_spec_tags in H. destruct (tags_sound _ _ _ _ _ _ H) as [(t & Hin & _)|[_ E]].
  - unfold adverb_specs in Hin. cbn [In] in Hin. repeat (destruct Hin as [Hin|Hin]; [injection Hin as <- <-; exact I|]). contradiction.
  - assert (E' : (pdo _ <- tag "every";; pdo number <- integer cfg;; pdo u <- unit_parser cfg;; pret (IEvery number u)) s = Done r sp).
    { unfold every_spec, alt_last, complete in E. destruct (last_complete cfg); [|exact E].
      destruct ((pdo _ <- tag "every";; pdo number <- integer cfg;; pdo u <- unit_parser cfg;; pret (IEvery number u)) s); try discriminate E; exact E. }
    unfold pbind in E'. destruct (tag "every" s) as [r1 ?| | |]; try discriminate E'. destruct (integer cfg r1) as [r2 n| | |] eqn:Ei; try discriminate E'.
    destruct (unit_parser cfg r2) as [r3 u| | |]; try discriminate E'. injection E' as _ <-. apply integer_sound in Ei.
    destruct Ei as (? & ? & ? & _ & _ & _ & _ & _ & R). exact R.
Qed.
Lemma bound_okv : forall s r u, until_spec cfg pd pdt s = Done r u -> bound_ok (Some u).
Proof.
  intros s r u H. unfold until_spec, alt_c, alt in H.
  set (p1 := pdo _ <- tag "until";; pdo _ <- sp;; pdo exact <- exact_date_parser cfg pd pdt;; pret (UExact exact)) in *.
  set (p2 := pdo num <- integer cfg;; pdo _ <- sp;; pdo _ <- tag "times";; pret (UTimes num)) in *.
  assert (Q1 : forall r1 u1, p1 s = Done r1 u1 -> bound_ok (Some u1)).
  { intros r1 u1 E. unfold p1, pbind in E. destruct (tag "until" s) as [r2 ?| | |]; try discriminate E.
    destruct (sp r2) as [r3 ?| | |]; try discriminate E. destruct (exact_date_parser cfg pd pdt r3) as [r4 x| | |] eqn:Ex; try discriminate E.
    injection E as <- <-. apply exact_sound in Ex. cbn. eapply exact_reads_okv. exact Ex. }
  assert (Q2 : forall r1 u1, p2 s = Done r1 u1 -> bound_ok (Some u1)).
  { intros r1 u1 E. unfold p2, pbind in E. destruct (integer cfg s) as [r2 n| | |] eqn:Ei; try discriminate E.
    destruct (sp r2) as [r3 ?| | |]; try discriminate E. destruct (tag "times" r3) as [r4 ?| | |]; try discriminate E.
    injection E as <- <-. apply integer_sound in Ei. destruct Ei as (? & ? & ? & _ & _ & _ & _ & _ & R). exact R. }
  assert (Q3 : forall r1 u1, alt_last cfg p2 s = Done r1 u1 -> bound_ok (Some u1)).
  { intros r1 u1 E. unfold alt_last, complete in E. destruct (last_complete cfg); [|exact (Q2 _ _ E)].
    destruct (p2 s) eqn:E2; try discriminate E. injection E as <- <-. exact (Q2 _ _ eq_refl). }
  unfold complete in H. destruct (p1 s) as [r1 u1| | |] eqn:E1; try discriminate H.
  - injection H as <- <-. exact (Q1 _ _ eq_refl).
  - exact (Q3 _ _ H).
  - exact (Q3 _ _ H).
Qed.
Lemma iterator_okv : forall s r it, iterator cfg pd pdt s = Done r it -> iterator_ok it.
Proof.
  intros s r it H. unfold iterator, pbind at 1 in H. rewrite opt_sp in H. unfold pbind at 1 in H.
  destruct (date cfg pd pdt (skip_spaces s)) as [r1 d| | |] eqn:E1; try discriminate H. unfold pbind at 1 in H. rewrite opt_sp in H.
  unfold pbind at 1 in H. destruct (iter_spec cfg (skip_spaces r1)) as [r2 sp| | |] eqn:E2; try discriminate H.
  unfold pbind at 1 in H. rewrite opt_sp in H. unfold pbind, opt, complete in H.
  destruct (until_spec cfg pd pdt (skip_spaces r2)) as [r3 u| | |] eqn:E3; try discriminate H; injection H as <- <-;
    (split; [eapply date_okv; exact E1|]); (split; [eapply step_okv; exact E2|]); try exact I. eapply bound_okv. exact E3.
Qed.
Lemma parse_returns : forall md now1 now2 s, dt_valid now1 = true -> dt_valid now2 = true ->
  returns md (parse md cfg pd pdt now1 now2 s).
Proof.
  intros md now1 now2 s H1 H2. unfold parse. pose proof (fine_do_parse cfg pd pdt Fpd Fpdt md now1 now2 s) as F. unfold fine in F.
  destruct (do_parse md cfg pd pdt now1 now2 s) as [r p| | |] eqn:E; try exact I; [|contradiction].
  clear F. unfold do_parse, alt_c, alt, complete at 1 in E. unfold pbind at 1 in E.
  assert (L : alt_last cfg (pdo t <- timetype_parser cfg pd pdt;; pret (lower_timetype md now1 t)) s = Done r p -> returns md p).
  { intro Hl.
    assert (T : exists t, timetype_parser cfg pd pdt s = Done r t /\ p = lower_timetype md now1 t).
    { unfold alt_last, complete, pbind in Hl. destruct (last_complete cfg); destruct (timetype_parser cfg pd pdt s) as [r1 t| | |]; try discriminate Hl;
        injection Hl as <- <-; exists t; split; reflexivity. }
    destruct T as (t & T & ->). unfold lower_timetype. apply returns_bind; [|intros; exact I].
    unfold timetype_parser, alt in T. unfold pbind at 1 in T.
    destruct (date cfg pd pdt s) as [r2 d| | |] eqn:E2; [|clear E2|discriminate T|discriminate T].
    - injection T as <- <-. cbn. apply date_returns; [exact H1|]. eapply date_okv. exact E2.
    - unfold pbind in T. destruct (amount_expr cfg s) as [r2 e| | |] eqn:E2; try discriminate T. injection T as <- <-.
      destruct (expr_sound _ _ _ E2) as (t0 & b & S & Te & B). apply expr_text_ok in Te. cbn.
      pose proof (expr_good md e Te) as G. destruct (amountexpr_into md e); cbn in *; try exact I; try contradiction. exact G. }
  destruct (iterator cfg pd pdt s) as [r1 it| | |] eqn:Ei; [|exact (L E)|exact (L E)|discriminate E].
  apply iterator_okv in Ei. injection E as _ <-. unfold lower_iterator.
  destruct (iterator_returns md now1 now2 it H1 H2 Ei) as (R & _ & _). destruct (into_user_iterator md now1 now2 it); cbn in *; try exact I; exact R.
Qed.
(** Parsed iterators: no item panics but by overflow. *)
Lemma parsed_items_return : forall md now1 now2 s ui k, dt_valid now1 = true -> dt_valid now2 = true ->
  parse md cfg pd pdt now1 now2 s = Ok (PIterator (Ok ui)) -> item_returns md (nth_item (user_next md) k ui).
Proof.
  intros md now1 now2 s ui k H1 H2 H. unfold parse in H.
  destruct (do_parse md cfg pd pdt now1 now2 s) as [r p| | |] eqn:E; try discriminate H. subst p.
  unfold do_parse, alt_c, alt, complete at 1 in E. unfold pbind at 1 in E.
  assert (L : alt_last cfg (pdo t <- timetype_parser cfg pd pdt;; pret (lower_timetype md now1 t)) s = Done r (Ok (PIterator (Ok ui))) -> False).
  { intro Hl. unfold alt_last, complete, pbind in Hl.
    destruct (last_complete cfg); destruct (timetype_parser cfg pd pdt s) as [r1 t| | |]; try discriminate Hl;
      injection Hl as _ Hl; unfold lower_timetype in Hl; destruct (ptimetype_into md now1 t); discriminate Hl. }
  destruct (iterator cfg pd pdt s) as [r1 it| | |] eqn:Ei; [|contradiction (L E)|contradiction (L E)|discriminate E].
  apply iterator_okv in Ei. injection E as _ E. unfold lower_iterator in E.
  destruct (into_user_iterator md now1 now2 it) as [ui'|e|q|] eqn:Eu; try discriminate E. injection E as ->.
  eapply user_returns; [exact H1|exact H2|exact Ei|exact Eu].
Qed.
End Returns.
End Sound.
