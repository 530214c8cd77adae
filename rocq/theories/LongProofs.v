(** parse() takes as much of the text as possible. *)
Require Import ZArith Bool List String Ascii Lia ZifyBool.
From Verif Require Import Prelude Spec Chrono TimeType Iter SpecTree Nom ParserTimetype ParserIterator ParserMod SpecText SpecDoc SpecLong
  NomProofs ParserProofs ParserProofs2 ParserProofs3 DocProofs.
Import ListNotations.
Local Open Scope string_scope.
Local Open Scope Z_scope.

(** ** Strings *)
Lemma skip_le : forall s, (length (skip_spaces s) <= length s)%nat.
Proof. intro s. apply suffix_length. apply suffix_skip. Qed.
Lemma skip_suffix : forall r s, suffix r s -> (length (skip_spaces r) <= length (skip_spaces s))%nat.
Proof.
  intros r s [p ->]. induction p as [|c p IH]; [apply le_n|]. cbn [append skip_spaces]. destruct (is_space c); [exact IH|].
  pose proof (skip_le r). cbn [length]. rewrite length_app. lia.
Qed.
Lemma suffix_le : forall r r' s, suffix r s -> suffix r' s -> (length r <= length r')%nat -> suffix r r'.
Proof.
  intros r r' s [p Hp] [p' Hp'] L. subst s. revert p' Hp'. induction p as [|c p IH]; intros p' H.
  - cbn in H. subst r. rewrite length_app in L. destruct p'; [exists ""; reflexivity|cbn in L; lia].
  - destruct p' as [|c' p']; [exists (String c p); symmetry; exact H|]. cbn in H. injection H as _ H. exact (IH p' H).
Qed.
Lemma suffix_same : forall r r' s, suffix r s -> suffix r' s -> length r = length r' -> r = r'.
Proof.
  intros r r' s H1 H2 L. destruct (suffix_le r r' s H1 H2 ltac:(lia)) as [p ->]. rewrite length_app in L. destruct p; [reflexivity|cbn in L; lia].
Qed.
Lemma prefix_same : forall a a' r : string, a ++ r = a' ++ r -> a = a'.
Proof.
  induction a as [|c a IH]; intros a' r H.
  - destruct a' as [|c' a']; [reflexivity|]. apply (f_equal length) in H. cbn [append length] in H. rewrite length_app in H. lia.
  - destruct a' as [|c' a'].
    + apply (f_equal length) in H. cbn [append length] in H. rewrite length_app in H. lia.
    + cbn in H. injection H as -> H. f_equal. exact (IH a' r H).
Qed.
Lemma suffix_app : forall a r, suffix r (a ++ r).
Proof. intros a r. exists a. reflexivity. Qed.

Lemma longest_exists : forall A (l : list (string * A)) s q a, In (q, a) l -> begins q s -> exists t v, In (t, v) l /\ longest l t s.
Proof.
  intros A l s. assert (G : forall l' : list (string * A), (forall q a, In (q, a) l' -> ~ begins q s) \/
    exists t v, In (t, v) l' /\ begins t s /\ forall q a, In (q, a) l' -> begins q s -> (length q <= length t)%nat).
  { induction l' as [|[t1 v1] l' IH]; [left; intros q a []|].
    assert (D : begins t1 s \/ ~ begins t1 s).
    { destruct (strip t1 s) eqn:E; [left; apply strip_begins; congruence|right; intro B; apply strip_begins in B; congruence]. }
    destruct IH as [IH|(t & v & H1 & H2 & H3)].
    - destruct D as [D|D]; [right; exists t1, v1|left].
      + split; [left; reflexivity|]. split; [exact D|]. intros q a [Heq|Hq] B; [injection Heq as <- <-; lia|elim (IH q a Hq B)].
      + intros q a [Heq|Hq]; [injection Heq as <- <-; exact D|exact (IH q a Hq)].
    - right. destruct D as [D|D].
      + destruct (Nat.leb_spec (length t1) (length t)) as [L|L].
        * exists t, v. split; [right; exact H1|]. split; [exact H2|]. intros q a [Heq|Hq] B; [injection Heq as <- <-; exact L|exact (H3 q a Hq B)].
        * exists t1, v1. split; [left; reflexivity|]. split; [exact D|]. intros q a [Heq|Hq] B; [injection Heq as <- <-; lia|]. specialize (H3 q a Hq B). lia.
      + exists t, v. split; [right; exact H1|]. split; [exact H2|]. intros q a [Heq|Hq] B; [injection Heq as <- <-; elim (D B)|exact (H3 q a Hq B)]. }
  intros q a Hin B. destruct (G l) as [N|(t & v & H1 & H2 & H3)]; [elim (N q a Hin B)|]. exists t, v. split; [exact H1|split; [exact H2|exact H3]].
Qed.

Section Long.
Variable cfg : nom_cfg.

(** ** Amount expressions *)
Lemma unit_long : forall t v rest, In (t, v) spellings -> exists r v', unit_parser cfg (t ++ rest) = Done r v' /\ suffix r rest.
Proof.
  intros t v rest Hin. destruct (longest_exists _ spellings (t ++ rest) t v Hin ltac:(exists rest; reflexivity)) as (t' & v' & H1 & H2).
  destruct (unit_complete cfg (t ++ rest) t' v' H1 H2) as (r & E & D). exists r, v'. split; [exact D|].
  apply suffix_le with (t ++ rest); [rewrite E; apply suffix_app|apply suffix_app|]. destruct H2 as [_ H2].
  specialize (H2 t v Hin ltac:(exists rest; reflexivity)). apply (f_equal length) in E. rewrite !length_app in E. lia.
Qed.
Lemma alias_long : forall t v rest, In (t, v) adverbs -> exists r v', unit_alias cfg (t ++ rest) = Done r v' /\ suffix r rest.
Proof.
  intros t v rest Hin. destruct (longest_exists _ adverbs (t ++ rest) t v Hin ltac:(exists rest; reflexivity)) as (t' & v' & H1 & H2).
  destruct (alias_complete cfg (t ++ rest) t' v' H1 H2) as (r & E & D). exists r, v'. split; [exact D|].
  apply suffix_le with (t ++ rest); [rewrite E; apply suffix_app|apply suffix_app|]. destruct H2 as [_ H2].
  specialize (H2 t v Hin ltac:(exists rest; reflexivity)). apply (f_equal length) in E. rewrite !length_app in E. lia.
Qed.
Lemma amount_long : forall a s rest, amount_text a s -> exists r a', amount_parser cfg (s ++ rest) = Done r a' /\ suffix r rest.
Proof.
  intros a s rest [b1 ds b2 sp u Hb1 Hds Hv Hb2 Hin|sp al Hin]; unfold amount_parser, alt.
  - assert (St : starts letter_char (sp ++ rest) = true).
    { rewrite starts_app by (eapply spellings_nonempty; exact Hin). apply all_starts; [eapply spellings_nonempty; exact Hin|eapply spellings_letters; exact Hin]. }
    rewrite !app_assoc. unfold pbind.
    rewrite (integer_ok cfg b1 ds b2 (sp ++ rest) Hb1 Hds Hb2).
    + destruct (Z.leb_spec (decimal ds) i64_max); [|lia]. destruct (unit_long sp u rest Hin) as (r & v' & -> & Hs). exists r, (Amount (decimal ds) v'). split; [reflexivity|exact Hs].
    + apply (starts_imp letter_char); [exact letter_not_blank|exact St].
    + intros _. apply (starts_imp letter_char); [exact letter_not_digit|exact St].
  - assert (St : starts letter_char (sp ++ rest) = true).
    { rewrite starts_app by (eapply adverbs_nonempty; exact Hin). apply all_starts; [eapply adverbs_nonempty; exact Hin|eapply adverbs_letters; exact Hin]. }
    unfold pbind. pose proof (integer_none cfg "" (sp ++ rest) eq_refl) as N. cbn [append] in N.
    rewrite N.
    + destruct (sp ++ rest) eqn:E; [discriminate St|]. rewrite <- E.
      destruct (alias_long sp al rest Hin) as (r & v' & -> & Hs). exists r, (Amount 1 (alias_into v')). split; [reflexivity|exact Hs].
    + apply (starts_imp letter_char); [exact letter_not_blank|exact St].
    + apply (starts_imp letter_char); [exact letter_not_digit|exact St].
Qed.

Lemma expr_fuel_long : forall n e s, (length s <= n)%nat -> expr_text e s -> forall rest fuel, (length (s ++ rest) < fuel)%nat ->
  exists r e', amount_expr_fuel cfg fuel (s ++ rest) = Done r e' /\ (length r <= length (skip_spaces rest))%nat.
Proof.
  induction n as [|n IH]; intros e s Hn He rest fuel Hf.
  { apply expr_text_nonempty in He. destruct s; [congruence|cbn in Hn; lia]. }
  destruct fuel as [|fuel]; [lia|]. cbn [amount_expr_fuel]. unfold pbind at 1.
  destruct He as [a s Ha|a s b1 op b2 e' s' Ha Hb1 Hb2 He].
  - destruct (amount_long a s rest Ha) as (r & a' & -> & Hs). unfold pbind at 1. rewrite opt_sp. unfold pbind at 1.
    pose proof (skip_suffix _ _ Hs) as L. unfold opt at 1, complete at 1.
    set (p := pdo op <- operator_parser;; pdo _ <- opt sp;; pdo amexp <- amount_expr_fuel cfg fuel;; pret (op, amexp)).
    assert (E : eats p (skip_spaces r)).
    { unfold p. apply eats_bind; [apply eats_operator|]. intros r1 op S1 L1.
      apply fine_bind; [unfold fine; rewrite opt_sp; apply suffix_skip|]. intros r2 x S2.
      apply fine_bind; [|intros; apply fine_ret]. apply eats_fine. apply eats_expr_fuel. apply suffix_length in S2. pose proof (skip_le r).
      apply suffix_length in Hs. pose proof (amount_text_nonempty _ _ Ha). destruct s; [congruence|]. rewrite length_app in Hf. cbn [length] in Hf. lia. }
    unfold eats in E. destruct (p (skip_spaces r)) as [r1 [op am]| | |] eqn:Ep; [| | |contradiction].
    + destruct E as [_ E]. exists r1, (AENext a' op am). split; [reflexivity|lia].
    + exists (skip_spaces r), (AELast a'). split; [reflexivity|lia].
    + exists (skip_spaces r), (AELast a'). split; [reflexivity|lia].
  - rewrite !app_assoc in *. rewrite (amount_parses cfg a s _ Ha (blanks_op_no_letter b1 op _ Hb1)).
    unfold pbind at 1. rewrite opt_sp. rewrite skip_app by exact Hb1. rewrite skip_stop by apply op_no_blank.
    unfold pbind at 1. unfold opt at 1, complete. unfold pbind at 1. rewrite op_ok.
    unfold pbind at 1. rewrite opt_sp. rewrite skip_app by exact Hb2.
    destruct (expr_text_drop _ _ He) as (b & s2 & E1 & E2 & E3 & E4). subst s'.
    rewrite app_assoc, skip_app by exact E2.
    rewrite skip_stop by (rewrite starts_app by (eapply expr_text_nonempty; exact E3); exact E4).
    unfold pbind at 1.
    assert (Ls : (length s2 + 1 <= length (s ++ b1 ++ op_text op ++ b2 ++ b ++ s2))%nat).
    { rewrite !length_app. destruct op; cbn [op_text length]; lia. }
    destruct (IH e' s2 ltac:(lia) E3 rest fuel) as (r & e2 & -> & L).
    + rewrite !length_app in *. destruct op; cbn [op_text length] in Hf; lia.
    + exists r, (AENext a op e2). split; [reflexivity|exact L].
Qed.
Lemma expr_long : forall e s rest, expr_text e s -> exists r e', amount_expr cfg (s ++ rest) = Done r e' /\ (length r <= length (skip_spaces rest))%nat.
Proof. intros e s rest H. unfold amount_expr. apply (expr_fuel_long (length s) e s (le_n _) H). lia. Qed.
Lemma expr_begins_long : forall e s r, expr_begins e s r -> exists r' e', amount_expr cfg s = Done r' e' /\ (length r' <= length r)%nat.
Proof.
  intros e s r (t & b & -> & T & B). destruct (expr_long e t (b ++ r) T) as (r' & e' & D & L). exists r', e'. split; [exact D|].
  rewrite skip_app in L by exact B. pose proof (skip_le r). lia.
Qed.
Lemma expr_whole : forall e t b, expr_text e t -> blanks b -> amount_expr cfg (t ++ b) = Done "" e.
Proof.
  intros e t b T B. assert (Sb : skip_spaces b = "") by (rewrite <- (app_nil b), skip_app by exact B; reflexivity).
  rewrite (expr_parses cfg e t b T), Sb; [reflexivity|]. split; [|rewrite drop_skip, Sb; reflexivity].
  destruct b as [|c b]; [reflexivity|]. cbn. unfold blanks in B. cbn in B. apply andb_true_iff in B. destruct B as [B _].
  destruct (letter_char c) eqn:Lc; [|reflexivity]. apply letter_not_blank in Lc. congruence.
Qed.
Lemma expr_most : forall s r e, amount_expr cfg s = Done r e <-> most expr_begins e s r.
Proof.
  intros s r e. split.
  - intro H. split; [exact (expr_sound _ _ _ _ H)|]. intros e' r' B. destruct (expr_begins_long _ _ _ B) as (r2 & e2 & D & L). congruence.
  - intros [B M]. destruct (expr_begins_long _ _ _ B) as (r' & e' & D & L). destruct (expr_sound _ _ _ _ D) as (t' & b' & S' & T' & B').
    destruct B as (t & b & S & T & B). specialize (M e' r' (ex_intro _ t' (ex_intro _ b' (conj S' (conj T' B'))))).
    assert (R : r = r') by (apply (suffix_same r r' s); [rewrite S, <- app_assoc; apply suffix_app|rewrite S', <- app_assoc; apply suffix_app|lia]). subst r'.
    rewrite S, <- !app_assoc in S'. apply prefix_same in S'. pose proof (expr_whole e t b T B) as W. rewrite S', (expr_whole e' t' b' T' B') in W. congruence.
Qed.
End Long.
