(** What blanks in front of a text change. *)
Require Import ZArith Bool List String Ascii Lia ZifyBool.
From Verif Require Import Prelude Spec Chrono TimeType Iter SpecTree Nom ParserTimetype ParserIterator ParserMod SpecText SpecDoc SpecLong
  NomProofs ParserProofs ParserProofs2 ParserProofs3 DocProofs LongProofs LongProofs2.
Import ListNotations.
Local Open Scope string_scope.
Local Open Scope Z_scope.

Lemma expr_first : forall e t, expr_text e t -> starts digit_char (skip_spaces t) = true \/ starts letter_char t = true.
Proof.
  assert (G : forall a t, amount_text a t -> starts digit_char (skip_spaces t) = true \/ starts letter_char t = true).
  { intros a t [b1 ds b2 sp u Hb1 [Hd1 Hd2] Hv Hb2 Hin|sp al Hin].
    - left. rewrite skip_app by exact Hb1. pose proof (all_starts _ _ Hd2 Hd1) as S.
      rewrite skip_stop by (rewrite starts_app by exact Hd2; apply (starts_imp digit_char); [exact digit_not_blank|exact S]).
      rewrite starts_app by exact Hd2. exact S.
    - right. apply all_starts; [eapply adverbs_nonempty; exact Hin|eapply adverbs_letters; exact Hin]. }
  intros e t [a s H|a s b1 op b2 e' s' H _ _ _]; [exact (G a s H)|]. pose proof (amount_text_nonempty _ _ H) as N.
  destruct (G a s H) as [D|D].
  - left. destruct (skip_split s) as (b & B & E). rewrite E at 1. rewrite app_assoc, skip_app by exact B.
    destruct (skip_spaces s) as [|c s1] eqn:Es; [discriminate D|].
    rewrite skip_stop; [exact D|]. pose proof (skip_starts s) as K. rewrite Es in K. exact K.
  - right. rewrite starts_app by exact N. exact D.
Qed.
Lemma expr_begins_blank : forall b e s r, blanks b -> b <> "" -> starts blank_char s = false ->
  (expr_begins e (b ++ s) r <-> starts digit_char s = true /\ expr_begins e s r).
Proof.
  intros b e s r B Nb Hs. split.
  - intros (t & b' & E & T & B'). destruct (expr_text_drop _ _ T) as (b0 & t' & E1 & B0 & T' & S').
    assert (Es : s = t' ++ b' ++ r).
    { apply (f_equal skip_spaces) in E. rewrite skip_app in E by exact B. rewrite skip_stop in E by exact Hs. rewrite E, E1, app_assoc, skip_app by exact B0.
      apply skip_stop. rewrite starts_app by (eapply expr_text_nonempty; exact T'). exact S'. }
    split; [|exists t', b'; auto].
    destruct (expr_first _ _ T) as [D|D].
    + rewrite E1, skip_app, skip_stop in D by assumption. rewrite Es, starts_app by (eapply expr_text_nonempty; exact T'). exact D.
    + exfalso. assert (S1 : starts letter_char (t ++ b' ++ r) = true) by (rewrite starts_app by (eapply expr_text_nonempty; exact T); exact D).
      rewrite <- E in S1. destruct b as [|c b]; [congruence|]. unfold blanks in B. cbn in B, S1. apply letter_not_blank in S1. rewrite S1 in B. discriminate B.
  - intros [D (t & b' & E & T & B')]. exists (b ++ t), b'. split; [rewrite E, !app_assoc; reflexivity|]. split; [|exact B'].
    apply expr_blank; [exact T| |exact B]. rewrite drop_skip. pose proof (expr_text_nonempty _ _ T) as N.
    assert (Dt : starts digit_char t = true) by (rewrite E, starts_app in D by exact N; exact D).
    rewrite skip_stop; [exact Dt|]. apply (starts_imp digit_char); [exact digit_not_blank|exact Dt].
Qed.

Section Blank.
Variable cfg : nom_cfg.
Variable pd : parser isodate.
Variable pdt : parser (isodate * isotime).

Lemma iterator_blank : forall it b s r, blanks b -> (iterator_read pd pdt it (b ++ s) r <-> iterator_read pd pdt it s r).
Proof. intros [d sp u] b s r B. unfold iterator_read. rewrite !drop_skip, skip_app by exact B. reflexivity. Qed.
Lemma reads_blank : forall x b s r, blanks b -> b <> "" -> starts blank_char s = false -> no_iso cfg pd pdt (b ++ s) ->
  (reads cfg pd pdt x (b ++ s) r <->
   (exists it, x = AsIterator it /\ iterator_read pd pdt it s r) \/
   ((forall it r', ~ iterator_read pd pdt it s r') /\ starts digit_char s = true /\ exists e, x = AsTimeType (PTAmountExpr e) /\ most expr_begins e s r)).
Proof.
  intros x b s r B Nb Hs NI.
  assert (K : ~ keyword (b ++ s)).
  { apply blank_no_keyword. rewrite starts_app by exact Nb. apply all_starts; assumption. }
  assert (D : forall d r', ~ date_begins pd pdt d (b ++ s) r').
  { assert (X : forall y r', ~ exact_reads pd pdt y (b ++ s) r').
    { intros y r' H. apply (exact_reads_ok cfg) in H. rewrite (exact_none cfg pd pdt _ K NI) in H. discriminate H. }
    intros d r' H. inversion H; subst; eapply X; eassumption. }
  assert (M : forall e, most expr_begins e (b ++ s) r <-> starts digit_char s = true /\ most expr_begins e s r).
  { intro e. unfold most. rewrite (expr_begins_blank b e s r B Nb Hs). split.
    - intros [[H1 H2] H3]. split; [exact H1|]. split; [exact H2|]. intros e' r' H. apply (H3 e'). apply expr_begins_blank; auto.
    - intros (H1 & H2 & H3). split; [split; assumption|]. intros e' r' H. apply (H3 e'). apply expr_begins_blank in H; tauto. }
  assert (N : (forall it r', ~ iterator_read pd pdt it (b ++ s) r') <-> forall it r', ~ iterator_read pd pdt it s r').
  { split; intros H it r' I; apply (H it r'); apply (iterator_blank it b s r' B); exact I. }
  split.
  - intro R. inversion R as [it s1 r1 I E1 E2 E3|d s1 r1 N1 M1 E1 E2 E3|e s1 r1 N1 K1 I1 M1 E1 E2 E3]; subst.
    + left. exists it. split; [reflexivity|]. apply (iterator_blank it b s r B). exact I.
    + destruct M1 as [M1 _]. elim (D d r M1).
    + right. split; [apply N; exact N1|]. apply M in M1. destruct M1 as [M1 M2]. split; [exact M1|]. exists e. split; [reflexivity|exact M2].
  - intros [(it & -> & I)|(N1 & Dg & e & -> & M1)].
    + apply R_iterator. apply (iterator_blank it b s r B). exact I.
    + apply R_amount; [apply N; exact N1|exact K|exact NI|]. apply M. split; assumption.
Qed.
End Blank.
