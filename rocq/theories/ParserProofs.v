(** The grammar of amounts and amount expressions. *)
Require Import ZArith Bool List String Ascii Lia ZifyBool.
From Verif Require Import Prelude Spec Chrono TimeType Nom ParserTimetype ParserIterator ParserMod Iter SpecText NomProofs.
Import ListNotations.
Local Open Scope string_scope.
Local Open Scope Z_scope.

Lemma drop_skip : forall s, drop_blanks s = skip_spaces s.
Proof. induction s as [|c s IH]; [reflexivity|]. cbn. rewrite is_space_blank, IH. reflexivity. Qed.
Lemma all_app : forall f a b, all f (a ++ b) = all f a && all f b.
Proof. intros f. induction a; intro b; cbn; [reflexivity|]. rewrite IHa. apply andb_assoc. Qed.
Lemma starts_app : forall f a b, a <> "" -> starts f (a ++ b) = starts f a.
Proof. intros f [|c a] b H; [congruence|reflexivity]. Qed.
Lemma all_starts : forall f a, a <> "" -> all f a = true -> starts f a = true.
Proof. intros f [|c a] H1 H2; [congruence|]. cbn in *. apply andb_true_iff in H2. apply H2. Qed.
Lemma starts_imp : forall (f g : ascii -> bool), (forall c, f c = true -> g c = false) -> forall s, starts f s = true -> starts g s = false.
Proof. intros f g H [|c s] E; [reflexivity|]. cbn in *. apply H. exact E. Qed.

(** Keys made of letters are the longest match when no letter follows. *)
Lemma longest_letters : forall A (l : list (string * A)) t rest,
  (forall q a, In (q, a) l -> all letter_char q = true) -> starts letter_char rest = false -> longest l t (t ++ rest).
Proof.
  intros A l t rest Hl Hr. split; [exists rest; reflexivity|]. intros q a Hq Bq. specialize (Hl q a Hq).
  destruct (le_lt_dec (length q) (length t)) as [L|G]; [exact L|exfalso].
  assert (Bt : begins t q).
  { apply begins_prefix with (t ++ rest); [exists rest; reflexivity|exact Bq|lia]. }
  destruct Bt as [x ->]. destruct Bq as [y Hy]. rewrite app_assoc in Hy.
  assert (R : rest = x ++ y).
  { clear - Hy. induction t; cbn in Hy; [exact Hy|]. injection Hy as Hy. apply IHt. exact Hy. }
  subst rest. rewrite all_app in Hl. apply andb_true_iff in Hl. destruct Hl as [_ Hx].
  rewrite length_app in G. destruct x as [|c x]; [cbn in G; lia|]. cbn in *. apply andb_true_iff in Hx. destruct Hx. congruence.
Qed.
Lemma spellings_letters : forall q a, In (q, a) spellings -> all letter_char q = true.
Proof.
  assert (H : forallb (fun '(q, _) => all letter_char q) spellings = true) by (vm_compute; reflexivity).
  rewrite forallb_forall in H. intros q a Hin. exact (H _ Hin).
Qed.
Lemma adverbs_letters : forall q a, In (q, a) adverbs -> all letter_char q = true.
Proof.
  assert (H : forallb (fun '(q, _) => all letter_char q) adverbs = true) by (vm_compute; reflexivity).
  rewrite forallb_forall in H. intros q a Hin. exact (H _ Hin).
Qed.
Lemma spellings_nonempty : forall q a, In (q, a) spellings -> q <> "".
Proof.
  assert (H : forallb (fun '(q, _) => negb (String.eqb q "")) spellings = true) by (vm_compute; reflexivity).
  rewrite forallb_forall in H. intros q a Hin. specialize (H _ Hin). cbn in H. intro E. subst q. discriminate H.
Qed.
Lemma adverbs_nonempty : forall q a, In (q, a) adverbs -> q <> "".
Proof.
  assert (H : forallb (fun '(q, _) => negb (String.eqb q "")) adverbs = true) by (vm_compute; reflexivity).
  rewrite forallb_forall in H. intros q a Hin. specialize (H _ Hin). cbn in H. intro E. subst q. discriminate H.
Qed.
Lemma app_inv : forall t r r' : string, t ++ r = t ++ r' -> r = r'.
Proof. induction t; intros r r' H; [exact H|]. cbn in H. injection H as H. apply IHt. exact H. Qed.

Section Amounts.
Variable cfg : nom_cfg.

Lemma unit_ok : forall t v rest, In (t, v) spellings -> starts letter_char rest = false -> unit_parser cfg (t ++ rest) = Done rest v.
Proof.
  intros t v rest Hin Hr. destruct (unit_complete cfg (t ++ rest) t v Hin) as (r & H1 & H2).
  - apply longest_letters; [exact spellings_letters|exact Hr].
  - apply app_inv in H1. subst r. exact H2.
Qed.
Lemma alias_ok : forall t v rest, In (t, v) adverbs -> starts letter_char rest = false -> unit_alias cfg (t ++ rest) = Done rest v.
Proof.
  intros t v rest Hin Hr. destruct (alias_complete cfg (t ++ rest) t v Hin) as (r & H1 & H2).
  - apply longest_letters; [exact adverbs_letters|exact Hr].
  - apply app_inv in H1. subst r. exact H2.
Qed.

Lemma amount_parses : forall a s rest, amount_text a s -> starts letter_char rest = false -> amount_parser cfg (s ++ rest) = Done rest a.
Proof.
  intros a s rest [b1 ds b2 sp u Hb1 Hds Hv Hb2 Hin|sp al Hin] Hr; unfold amount_parser, alt.
  - assert (St : starts letter_char (sp ++ rest) = true).
    { rewrite starts_app by (eapply spellings_nonempty; exact Hin). apply all_starts; [eapply spellings_nonempty; exact Hin|eapply spellings_letters; exact Hin]. }
    rewrite !app_assoc. unfold pbind.
    rewrite (integer_ok cfg b1 ds b2 (sp ++ rest) Hb1 Hds Hb2).
    + destruct (Z.leb_spec (decimal ds) i64_max); [|lia]. rewrite (unit_ok sp u rest Hin Hr). reflexivity.
    + apply (starts_imp letter_char); [exact letter_not_blank|exact St].
    + intros _. apply (starts_imp letter_char); [exact letter_not_digit|exact St].
  - assert (St : starts letter_char (sp ++ rest) = true).
    { rewrite starts_app by (eapply adverbs_nonempty; exact Hin). apply all_starts; [eapply adverbs_nonempty; exact Hin|eapply adverbs_letters; exact Hin]. }
    unfold pbind. pose proof (integer_none cfg "" (sp ++ rest) eq_refl) as N. cbn [append] in N.
    rewrite N.
    + destruct (sp ++ rest) eqn:E; [discriminate St|]. rewrite <- E.
      rewrite (alias_ok sp al rest Hin Hr). destruct al; reflexivity.
    + apply (starts_imp letter_char); [exact letter_not_blank|exact St].
    + apply (starts_imp letter_char); [exact letter_not_digit|exact St].
Qed.

Lemma op_ok : forall op s, operator_parser (op_text op ++ s) = Done s op.
Proof. intros [] s; reflexivity. Qed.
Lemma op_none : forall s, starts op_char s = false -> operator_parser s = PError \/ operator_parser s = Incomplete.
Proof.
  intros [|c s] H; [right; reflexivity|]. left.
  destruct c as [[] [] [] [] [] [] [] []]; try discriminate H; reflexivity.
Qed.
Lemma amount_text_nonempty : forall a s, amount_text a s -> s <> "".
Proof.
  intros a s [b1 ds b2 sp u Hb1 Hds Hv Hb2 Hin|sp al Hin].
  - apply spellings_nonempty in Hin. destruct b1, ds, b2, sp; cbn; congruence.
  - eapply adverbs_nonempty; exact Hin.
Qed.
Lemma expr_text_nonempty : forall e s, expr_text e s -> s <> "".
Proof.
  intros e s [a s' H|a s' b1 op b2 e' s'' H _ _ _]; [eapply amount_text_nonempty; exact H|].
  apply amount_text_nonempty in H. destruct s'; cbn; congruence.
Qed.
(** Characters that may follow an amount inside an expression. *)
Lemma blanks_op_no_letter : forall b op s, blanks b -> starts letter_char (b ++ op_text op ++ s) = false.
Proof.
  intros [|c b] op s H; [destruct op; reflexivity|]. cbn. unfold blanks in H. cbn [all] in H. apply andb_true_iff in H.
  destruct H as [H _]. destruct (letter_char c) eqn:L; [|reflexivity]. apply letter_not_blank in L. congruence.
Qed.
Lemma op_no_blank : forall op s, starts blank_char (op_text op ++ s) = false.
Proof. intros [] s; reflexivity. Qed.

Lemma opt_sp : forall s, opt sp s = Done (skip_spaces s) (Some tt).
Proof. reflexivity. Qed.

(** Leading blanks of an amount: the parser accepts the text without them, too. *)
Lemma amount_text_drop : forall a s, amount_text a s -> exists b s', s = b ++ s' /\ blanks b /\ amount_text a s' /\ starts blank_char s' = false.
Proof.
  intros a s [b1 ds b2 sp u Hb1 Hds Hv Hb2 Hin|sp al Hin].
  - exists b1, (ds ++ b2 ++ sp). split; [reflexivity|]. split; [exact Hb1|]. split.
    + exact (AT_number "" ds b2 sp u eq_refl Hds Hv Hb2 Hin).
    + destruct Hds as [H1 H2]. rewrite starts_app by exact H2. apply (starts_imp digit_char); [exact digit_not_blank|]. apply all_starts; assumption.
  - exists "", sp. split; [reflexivity|]. split; [reflexivity|]. split; [exact (AT_adverb sp al Hin)|].
    apply (starts_imp letter_char); [exact letter_not_blank|]. apply all_starts; [eapply adverbs_nonempty; exact Hin|eapply adverbs_letters; exact Hin].
Qed.
Lemma expr_text_drop : forall e s, expr_text e s -> exists b s', s = b ++ s' /\ blanks b /\ expr_text e s' /\ starts blank_char s' = false.
Proof.
  intros e s [a s1 H|a s1 b1 op b2 e' s2 H H1 H2 H3]; destruct (amount_text_drop _ _ H) as (b & s' & E1 & E2 & E3 & E4).
  - exists b, s'. split; [exact E1|]. split; [exact E2|]. split; [exact (ET_last a s' E3)|exact E4].
  - exists b, (s' ++ b1 ++ op_text op ++ b2 ++ s2). split; [rewrite E1, app_assoc; reflexivity|]. split; [exact E2|].
    split; [exact (ET_next a s' b1 op b2 e' s2 E3 H1 H2 H3)|].
    rewrite starts_app by (eapply amount_text_nonempty; exact E3). exact E4.
Qed.

Lemma expr_fuel_ok : forall e s, expr_text e s -> forall rest fuel, stop rest -> (length s < fuel)%nat ->
  amount_expr_fuel cfg fuel (s ++ rest) = Done (skip_spaces rest) e.
Proof.
  assert (G : forall n e s, (length s <= n)%nat -> expr_text e s -> forall rest fuel, stop rest -> (length s < fuel)%nat ->
    amount_expr_fuel cfg fuel (s ++ rest) = Done (skip_spaces rest) e).
  { induction n as [|n IH]; intros e s Hn He rest fuel [Hs1 Hs2] Hf.
    { apply expr_text_nonempty in He. destruct s; [congruence|cbn in Hn; lia]. }
    destruct fuel as [|fuel]; [lia|]. cbn [amount_expr_fuel]. unfold pbind at 1.
    destruct He as [a s Ha|a s b1 op b2 e' s' Ha Hb1 Hb2 He].
    - rewrite (amount_parses a s rest Ha Hs1). unfold pbind at 1. rewrite opt_sp. unfold pbind at 1.
      unfold opt, complete. unfold pbind at 1. rewrite drop_skip in Hs2.
      destruct (op_none _ Hs2) as [-> | ->]; reflexivity.
    - rewrite !app_assoc. rewrite (amount_parses a s _ Ha (blanks_op_no_letter b1 op _ Hb1)).
      unfold pbind at 1. rewrite opt_sp. rewrite skip_app by exact Hb1. rewrite skip_stop by apply op_no_blank.
      unfold pbind at 1. unfold opt at 1, complete. unfold pbind at 1. rewrite op_ok.
      unfold pbind at 1. rewrite opt_sp. rewrite skip_app by exact Hb2.
      destruct (expr_text_drop _ _ He) as (b & s2 & E1 & E2 & E3 & E4). subst s'.
      rewrite app_assoc, skip_app by exact E2.
      rewrite skip_stop by (rewrite starts_app by (eapply expr_text_nonempty; exact E3); exact E4).
      unfold pbind at 1.
      assert (Ls : (length s2 + 1 <= length (s ++ b1 ++ op_text op ++ b2 ++ b ++ s2))%nat).
      { rewrite !length_app. destruct op; cbn [op_text length]; lia. }
      rewrite (IH e' s2); [reflexivity|lia|exact E3|split; assumption|lia]. }
  intros e s He. exact (G (length s) e s (le_n _) He).
Qed.
Lemma expr_parses : forall e s rest, expr_text e s -> stop rest -> amount_expr cfg (s ++ rest) = Done (skip_spaces rest) e.
Proof. intros e s rest He Hr. unfold amount_expr. apply expr_fuel_ok; [exact He|exact Hr|]. rewrite length_app. lia. Qed.
End Amounts.

(** ** Dates are tried first *)
Lemma first_char : forall t c s, begins (String c t) s -> starts (fun x => Ascii.eqb x c) s = true.
Proof. intros t c s [r ->]. cbn. apply Ascii.eqb_refl. Qed.
Lemma expr_no_keyword : forall e s rest, expr_text e s -> ~ keyword (s ++ rest).
Proof.
  intros e s rest He.
  assert (G : forall a s rest, amount_text a s -> ~ keyword (s ++ rest)).
  { clear. intros a s rest [b1 ds b2 sp u Hb1 Hds Hv Hb2 Hin|sp al Hin] K.
    - assert (N : starts letter_char ((b1 ++ ds ++ b2 ++ sp) ++ rest) = false).
      { destruct b1 as [|c b1].
        - destruct Hds as [H1 H2]. cbn [append]. rewrite !app_assoc, starts_app by exact H2.
          pose proof (all_starts _ _ H2 H1) as S. destruct ds as [|c ds]; [congruence|]. cbn in *.
          destruct (letter_char c) eqn:L; [|reflexivity]. apply letter_not_digit in L. congruence.
        - unfold blanks in Hb1. cbn in *. apply andb_true_iff in Hb1. destruct Hb1 as [Hc _].
          destruct (letter_char c) eqn:L; [|reflexivity]. apply letter_not_blank in L. congruence. }
      destruct ((b1 ++ ds ++ b2 ++ sp) ++ rest) as [|c x] eqn:E.
      + destruct K as [[r K]|[[r K]|[r K]]]; discriminate K.
      + cbn in N. destruct K as [[r K]|[[r K]|[r K]]]; injection K as -> _; discriminate N.
    - unfold adverbs in Hin. cbn [In] in Hin.
      repeat (destruct Hin as [Hin|Hin]; [injection Hin as <- <-; destruct K as [[r K]|[[r K]|[r K]]]; discriminate K|]).
      exact Hin. }
  destruct He as [a s H|a s b1 op b2 e' s' H _ _ _]; [exact (G a s rest H)|]. rewrite app_assoc. exact (G a s _ H).
Qed.

Section Dates.
Variable cfg : nom_cfg.
Variable pd : parser isodate.
Variable pdt : parser (isodate * isotime).

Lemma keyword_none : forall A t (v : A) q s, ~ begins t s -> alt_c (tagv t v) q s = q s.
Proof.
  intros A t v q s H. unfold alt_c, alt, complete. rewrite tagv_eq. destruct (strip t s) eqn:E.
  - elim H. apply strip_begins. congruence.
  - destruct (too_short t s); reflexivity.
Qed.
Lemma keyword_some : forall A t (v : A) q s, alt_c (tagv t v) q (t ++ s) = Done s v.
Proof. intros. unfold alt_c, alt, complete. rewrite tagv_eq, strip_app. reflexivity. Qed.
Lemma exact_none : forall s, ~ keyword s -> no_iso cfg pd pdt s -> exact_date_parser cfg pd pdt s = PError.
Proof.
  intros s K [H1 H2]. unfold exact_date_parser, keyword in *. rewrite !keyword_none by tauto.
  unfold alt_c, alt, complete at 1. unfold pbind at 1.
  assert (E : alt_last cfg (pdo d <- pd;; pret (Iso8601Date d)) s = PError).
  { unfold alt_last. destruct (last_complete cfg); unfold complete, pbind.
    - destruct H2 as [H2|[H2 L]]; rewrite H2; reflexivity.
    - destruct H2 as [H2|[H2 L]]; [rewrite H2; reflexivity|discriminate L]. }
  destruct H1 as [-> | ->]; exact E.
Qed.
Lemma date_none : forall s, ~ keyword s -> no_iso cfg pd pdt s -> date cfg pd pdt s = PError.
Proof. intros s K H. unfold date, pbind. rewrite (exact_none s K H). reflexivity. Qed.

(** parse() of an amount expression. *)
Lemma parse_expr : forall md now1 now2 e s rest, expr_text e s -> stop rest ->
  no_iso cfg pd pdt (s ++ rest) -> no_iso cfg pd pdt (drop_blanks (s ++ rest)) ->
  parse md cfg pd pdt now1 now2 (s ++ rest) = do t <- amountexpr_into md e; Ok (PTimeType t).
Proof.
  intros md now1 now2 e s rest He Hr N1 N2. rewrite drop_skip in N2.
  assert (K1 : ~ keyword (s ++ rest)) by (apply expr_no_keyword with e; exact He).
  assert (K2 : ~ keyword (skip_spaces (s ++ rest))).
  { destruct (expr_text_drop _ _ He) as (b & s2 & E1 & E2 & E3 & E4). subst s. rewrite app_assoc, skip_app by exact E2.
    rewrite skip_stop by (rewrite starts_app by (eapply expr_text_nonempty; exact E3); exact E4).
    apply expr_no_keyword with e. exact E3. }
  unfold parse, do_parse. unfold alt_c, alt at 1, complete at 1. unfold pbind at 1.
  unfold iterator. unfold pbind at 1. rewrite opt_sp. unfold pbind at 1. rewrite (date_none _ K2 N2).
  assert (T : timetype_parser cfg pd pdt (s ++ rest) = Done (skip_spaces rest) (PTAmountExpr e)).
  { unfold timetype_parser, alt. unfold pbind at 1. rewrite (date_none _ K1 N1). unfold pbind. rewrite (expr_parses cfg e s rest He Hr). reflexivity. }
  unfold alt_last, complete. unfold pbind. destruct (last_complete cfg); rewrite T; reflexivity.
Qed.
End Dates.
