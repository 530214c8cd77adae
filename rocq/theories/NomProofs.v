(** Facts about the combinators and the lexical parsers. *)
Require Import ZArith Bool List String Ascii Lia ZifyBool.
From Verif Require Import Prelude Spec Nom ParserTimetype ParserIterator SpecText.
Import ListNotations.
Local Open Scope string_scope.
Local Open Scope Z_scope.

(** ** Strings *)
Lemma app_assoc : forall a b c : string, (a ++ b) ++ c = a ++ b ++ c.
Proof. induction a; intros; cbn; [reflexivity|]. f_equal. apply IHa. Qed.
Lemma app_nil : forall a : string, a ++ "" = a.
Proof. induction a; cbn; [reflexivity|]. f_equal. assumption. Qed.
Lemma length_app : forall a b : string, length (a ++ b) = (length a + length b)%nat.
Proof. induction a; intros; cbn; [reflexivity|]. f_equal. apply IHa. Qed.

Lemma strip_app : forall t r, strip t (t ++ r) = Some r.
Proof. induction t; intro r; cbn; [reflexivity|]. rewrite Ascii.eqb_refl. apply IHt. Qed.
Lemma strip_some : forall t s r, strip t s = Some r -> s = t ++ r.
Proof.
  induction t as [|a t IH]; intros s r H; cbn in *; [congruence|].
  destruct s as [|b s]; [discriminate|]. destruct (Ascii.eqb_spec a b) as [->|]; [|discriminate].
  f_equal. apply IH. exact H.
Qed.
Lemma strip_begins : forall t s, strip t s <> None <-> begins t s.
Proof.
  intros t s. split.
  - destruct (strip t s) as [r|] eqn:E; [intros _|congruence]. exists r. apply strip_some. exact E.
  - intros [r ->]. rewrite strip_app. discriminate.
Qed.
Lemma begins_prefix : forall p q s, begins p s -> begins q s -> (length p <= length q)%nat -> begins p q.
Proof.
  induction p as [|a p IH]; intros q s [r1 H1] [r2 H2] L; [exists q; reflexivity|].
  destruct q as [|b q]; [cbn in L; lia|]. subst s. cbn in H2. injection H2 as <- H2.
  destruct (IH q (p ++ r1)) as [r ->]; [exists r1; reflexivity|exists r2; exact H2|cbn in L; lia|].
  exists r. reflexivity.
Qed.

(** ** Chains of tags *)
Fixpoint tags {A} (l : list (string * A)) (last : parser A) : parser A :=
  match l with
  | [] => last
  | (t, v) :: l' => alt_c (tagv t v) (tags l' last)
  end.
Lemma tagv_eq : forall A t (v : A) s, tagv t v s = match strip t s with Some r => Done r v | None => if too_short t s then Incomplete else PError end.
Proof. intros. unfold tagv, pmap, tag. destruct (strip t s); [reflexivity|]. destruct (too_short t s); reflexivity. Qed.
Lemma tags_cons : forall A t (v : A) l last s, tags ((t, v) :: l) last s =
  match strip t s with Some r => Done r v | None => tags l last s end.
Proof.
  intros. cbn [tags]. unfold alt_c, alt, complete. rewrite tagv_eq.
  destruct (strip t s); [reflexivity|]. destruct (too_short t s); reflexivity.
Qed.

(** Every earlier entry that begins a later one is as long. *)
Fixpoint ordered {A} (l : list (string * A)) : bool :=
  match l with
  | [] => true
  | (t, _) :: l' => forallb (fun '(q, _) => match strip t q with None => true | Some r => false end) l' && ordered l'
  end.

Lemma tags_sound : forall A (l : list (string * A)) last s r v, tags l last s = Done r v ->
  (exists t, In (t, v) l /\ s = t ++ r) \/ ((forall t a, In (t, a) l -> ~ begins t s) /\ last s = Done r v).
Proof.
  induction l as [|[t v0] l IH]; intros last s r v H; [right; split; [intros t a []|exact H]|].
  rewrite tags_cons in H. destruct (strip t s) as [r'|] eqn:E.
  - injection H as <- <-. left. exists t. split; [left; reflexivity|]. apply strip_some. exact E.
  - destruct (IH _ _ _ _ H) as [(t' & H1 & H2)|[H1 H2]].
    + left. exists t'. split; [right; exact H1|exact H2].
    + right. split; [|exact H2]. intros t' a [Heq|Hin]; [|eapply H1; eassumption].
      injection Heq as <- <-. rewrite <- strip_begins. congruence.
Qed.
Lemma tags_longest : forall A (l : list (string * A)) last s t v, ordered l = true -> In (t, v) l ->
  longest l t s -> exists r v', tags l last s = Done r v' /\ s = t ++ r /\ In (t, v') l.
Proof.
  induction l as [|[t0 v0] l IH]; intros last s t v Ho Hin [[r Hb] Hl]; [destruct Hin|].
  cbn [ordered] in Ho. apply andb_true_iff in Ho. destruct Ho as [Ho1 Ho2].
  rewrite tags_cons. destruct (strip t0 s) as [r'|] eqn:E.
  - destruct Hin as [Heq|Hin].
    + injection Heq as -> ->. exists r', v. split; [reflexivity|]. split; [apply strip_some; exact E|left; reflexivity].
    + exfalso. rewrite forallb_forall in Ho1. specialize (Ho1 _ Hin). cbn in Ho1.
      assert (Bg : begins t0 t).
      { apply begins_prefix with s; [apply strip_begins; congruence|exists r; exact Hb|].
        apply Hl with v0; [left; reflexivity|]. apply strip_begins. congruence. }
      apply strip_begins in Bg. destruct (strip t0 t); [discriminate|congruence].
  - destruct Hin as [Heq|Hin].
    + exfalso. injection Heq as -> ->. subst s. rewrite strip_app in E. discriminate.
    + destruct (IH last s t v Ho2 Hin) as (r' & v' & H1 & H2 & H3).
      * split; [exists r; exact Hb|]. intros q a Hq. apply (Hl q a). right. exact Hq.
      * exists r', v'. split; [exact H1|]. split; [exact H2|right; exact H3].
Qed.
Lemma tags_none : forall A (l : list (string * A)) last s, (forall t a, In (t, a) l -> ~ begins t s) -> tags l last s = last s.
Proof.
  induction l as [|[t v0] l IH]; intros last s H; [reflexivity|]. rewrite tags_cons.
  destruct (strip t s) eqn:E; [|apply IH; intros t' a Hin; apply (H t' a); right; exact Hin].
  elim (H t v0); [left; reflexivity|]. apply strip_begins. congruence.
Qed.

(** ** Blanks and digits *)
Lemma is_space_blank : forall c, is_space c = blank_char c.
Proof. intros [[] [] [] [] [] [] [] []]; reflexivity. Qed.
Lemma is_digit_char : forall c, is_digit c = digit_char c.
Proof. intros [[] [] [] [] [] [] [] []]; reflexivity. Qed.
Lemma skip_app : forall b s, blanks b -> skip_spaces (b ++ s) = skip_spaces s.
Proof.
  unfold blanks. induction b as [|c b IH]; intros s H; [reflexivity|]. cbn [all] in H. apply andb_true_iff in H.
  cbn. rewrite is_space_blank. destruct H as [-> H]. apply IH. exact H.
Qed.
Lemma skip_stop : forall s, starts blank_char s = false -> skip_spaces s = s.
Proof. intros [|c s] H; [reflexivity|]. cbn in *. rewrite is_space_blank, H. reflexivity. Qed.
Lemma skip_idem : forall s, skip_spaces (skip_spaces s) = skip_spaces s.
Proof. induction s as [|c s IH]; [reflexivity|]. cbn. destruct (is_space c) eqn:E; [exact IH|]. cbn. rewrite E. reflexivity. Qed.
Lemma skip_starts : forall s, starts blank_char (skip_spaces s) = false.
Proof. induction s as [|c s IH]; [reflexivity|]. cbn. destruct (is_space c) eqn:E; [exact IH|]. cbn. rewrite <- is_space_blank. exact E. Qed.
Lemma span_app : forall ds s, all digit_char ds = true -> starts digit_char s = false -> span_digits (ds ++ s) = (ds, s).
Proof.
  induction ds as [|c ds IH]; intros s H Hs.
  - destruct s as [|c s]; [reflexivity|]. cbn in *. rewrite is_digit_char, Hs. reflexivity.
  - cbn [all] in H. apply andb_true_iff in H. destruct H as [H1 H2]. cbn. rewrite is_digit_char, H1, (IH s H2 Hs). reflexivity.
Qed.
Lemma digit_not_blank : forall c, digit_char c = true -> blank_char c = false.
Proof. intros [[] [] [] [] [] [] [] []]; vm_compute; congruence. Qed.
Lemma letter_not_blank : forall c, letter_char c = true -> blank_char c = false.
Proof. intros [[] [] [] [] [] [] [] []]; vm_compute; congruence. Qed.
Lemma letter_not_digit : forall c, letter_char c = true -> digit_char c = false.
Proof. intros [[] [] [] [] [] [] [] []]; vm_compute; congruence. Qed.

Lemma digits_value_app : forall s acc, digits_value acc s = acc * 10 ^ Z.of_nat (length s) + decimal s.
Proof.
  induction s as [|c s IH]; intro acc; [cbn; lia|].
  cbn [digits_value decimal length]. rewrite IH. unfold digit_val. rewrite Nat2Z.inj_succ, Z.pow_succ_r by lia. ring.
Qed.
Lemma digits_value_decimal : forall s, digits_value 0 s = decimal s.
Proof. intro s. rewrite digits_value_app. lia. Qed.
Lemma digit_val_range : forall c, digit_char c = true -> 0 <= digit_val c <= 9.
Proof. intros [[] [] [] [] [] [] [] []]; cbn; intro H; try discriminate H; unfold digit_val; cbn; lia. Qed.
Lemma decimal_range : forall s, all digit_char s = true -> 0 <= decimal s < 10 ^ Z.of_nat (length s).
Proof.
  induction s as [|c s IH]; intro H; [cbn; lia|]. cbn [all] in H. apply andb_true_iff in H. destruct H as [H1 H2].
  specialize (IH H2). pose proof (digit_val_range c H1). cbn [decimal length]. rewrite Nat2Z.inj_succ, Z.pow_succ_r by lia. nia.
Qed.

Lemma digit_ok : forall cfg ds s, digits ds -> starts digit_char s = false -> digit cfg (ds ++ s) = Done s ds.
Proof.
  intros cfg ds s [H1 H2] Hs. unfold digit. rewrite (span_app ds s H1 Hs). destruct ds as [|c ds]; [congruence|]. reflexivity.
Qed.

(** Numbers, with blanks on both sides. *)
Lemma integer_ok : forall cfg b1 ds b2 rest, blanks b1 -> digits ds -> blanks b2 -> starts blank_char rest = false ->
  (b2 = "" -> starts digit_char rest = false) ->
  integer cfg (b1 ++ ds ++ b2 ++ rest) = if decimal ds <=? i64_max then Done rest (decimal ds) else PError.
Proof.
  intros cfg b1 ds b2 rest Hb1 Hds Hb2 Hr Hrd. unfold integer, map_res, ws, pbind, sp, pret.
  rewrite skip_app by exact Hb1.
  assert (Sd : starts blank_char (ds ++ b2 ++ rest) = false).
  { destruct Hds as [H1 H2]. destruct ds as [|c ds]; [congruence|]. cbn in *. apply andb_true_iff in H1. apply digit_not_blank. apply H1. }
  rewrite skip_stop by exact Sd.
  rewrite digit_ok; [|exact Hds|].
  - rewrite skip_app by exact Hb2. rewrite skip_stop by exact Hr. unfold i64_from_str. rewrite digits_value_decimal.
    destruct (decimal ds <=? i64_max); reflexivity.
  - destruct b2 as [|c b2]; [cbn; apply Hrd; reflexivity|]. cbn. unfold blanks in Hb2. cbn [all] in Hb2. apply andb_true_iff in Hb2. destruct Hb2 as [Hc _].
    destruct (digit_char c) eqn:D; [|reflexivity]. apply digit_not_blank in D. congruence.
Qed.
(** Anything else is not a number. *)
Lemma integer_none : forall cfg b1 rest, blanks b1 -> starts blank_char rest = false -> starts digit_char rest = false ->
  integer cfg (b1 ++ rest) = if (match rest with "" => digit_incomplete cfg | _ => false end) then Incomplete else PError.
Proof.
  intros cfg b1 rest Hb Hs Hd. unfold integer, map_res, ws, pbind, sp, pret. rewrite skip_app by exact Hb. rewrite skip_stop by exact Hs.
  unfold digit. destruct rest as [|c rest]; [destruct (digit_incomplete cfg); reflexivity|].
  pose proof (span_app "" (String c rest) eq_refl Hd) as E. cbn [append] in E. rewrite E. reflexivity.
Qed.

(** ** Unit spellings *)
Definition spellings_order : list (string * punit) :=
  [("seconds", PSecond); ("second", PSecond); ("secs", PSecond); ("sec", PSecond); ("s", PSecond);
   ("minutes", PMinute); ("minute", PMinute); ("mins", PMinute); ("min", PMinute);
   ("hours", PHour); ("hour", PHour); ("hrs", PHour); ("hr", PHour);
   ("days", PDay); ("day", PDay); ("d", PDay);
   ("weeks", PWeek); ("week", PWeek); ("w", PWeek);
   ("months", PMonth); ("month", PMonth); ("years", PYear); ("year", PYear)].
Lemma unit_parser_tags : forall cfg, unit_parser cfg = tags spellings_order (alt_last cfg (tagv "yrs" PYear)).
Proof. reflexivity. Qed.
Lemma alt_last_tagv : forall A cfg t (v : A) s, alt_last cfg (tagv t v) s =
  match strip t s with Some r => Done r v | None => if too_short t s && negb (last_complete cfg) then Incomplete else PError end.
Proof.
  intros. unfold alt_last, complete. destruct (last_complete cfg); rewrite tagv_eq; destruct (strip t s); try reflexivity;
  destruct (too_short t s); reflexivity.
Qed.
Lemma tags_last : forall A cfg l t (v : A) s, ~ begins t s \/ True ->
  tags l (alt_last cfg (tagv t v)) s =
  match tags (l ++ [(t, v)])%list (fun _ => if too_short t s && negb (last_complete cfg) then Incomplete else PError) s with r => r end.
Proof.
  intros A cfg l t v s _. induction l as [|[t0 v0] l IH].
  - cbn [List.app]. rewrite tags_cons. cbn [tags]. apply alt_last_tagv.
  - cbn [List.app]. rewrite !tags_cons. destruct (strip t0 s); [reflexivity|]. exact IH.
Qed.
(** The value of a key is unique. *)
Definition keys_unique {A} (eqb : A -> A -> bool) (l : list (string * A)) : bool :=
  forallb (fun '(t, v) => forallb (fun '(t', v') => negb (String.eqb t t') || eqb v v') l) l.
Definition punit_eqb (a b : punit) : bool :=
  match a, b with
  | PSecond, PSecond | PMinute, PMinute | PHour, PHour | PDay, PDay | PWeek, PWeek | PMonth, PMonth | PYear, PYear => true
  | _, _ => false
  end.
Definition alias_eqb (a b : unitalias) : bool := punit_eqb (alias_into a) (alias_into b).
Lemma punit_eqb_eq : forall a b, punit_eqb a b = true -> a = b.
Proof. intros [] []; cbn; congruence. Qed.
Lemma alias_eqb_eq : forall a b, alias_eqb a b = true -> a = b.
Proof. intros [] []; cbn; congruence. Qed.
Lemma unique_eq : forall A (eqb : A -> A -> bool) l, (forall a b, eqb a b = true -> a = b) -> keys_unique eqb l = true ->
  forall t v v', In (t, v) l -> In (t, v') l -> v = v'.
Proof.
  intros A eqb l He Hu t v v' H1 H2. unfold keys_unique in Hu. rewrite forallb_forall in Hu.
  specialize (Hu _ H1). cbn in Hu. rewrite forallb_forall in Hu. specialize (Hu _ H2). cbn in Hu.
  rewrite String.eqb_refl in Hu. apply He. exact Hu.
Qed.
(** Same entries in another order. *)
Definition same_entries {A} (eqb : A -> A -> bool) (l l' : list (string * A)) : bool :=
  forallb (fun '(t, v) => existsb (fun '(t', v') => String.eqb t t' && eqb v v') l') l &&
  forallb (fun '(t, v) => existsb (fun '(t', v') => String.eqb t t' && eqb v v') l) l'.
Lemma same_in : forall A (eqb : A -> A -> bool) l l', (forall a b, eqb a b = true -> a = b) -> same_entries eqb l l' = true ->
  forall x, In x l <-> In x l'.
Proof.
  intros A eqb l l' He H x. unfold same_entries in H. apply andb_true_iff in H. rewrite !forallb_forall in H. destruct H as [H1 H2].
  assert (G : forall a b (P : forall y, In y a -> (let '(t, v) := y in existsb (fun '(t', v') => String.eqb t t' && eqb v v') b) = true), In x a -> In x b).
  { intros a b P Hin. specialize (P x Hin). destruct x as [t v]. apply existsb_exists in P. destruct P as ([t' v'] & P1 & P2).
    apply andb_true_iff in P2. destruct P2 as [P2 P3]. apply String.eqb_eq in P2. apply He in P3. subst. exact P1. }
  split; [apply (G l l' H1)|apply (G l' l H2)].
Qed.

Section TagLists.
Context {A : Type}.
Variable eqb : A -> A -> bool.
Hypothesis eqb_ok : forall a b, eqb a b = true -> a = b.
(** A parser that tries the tags of [l] in order, [spec] being the same entries. *)
Variables (l spec : list (string * A)) (tl : string) (vl : A).
Hypothesis Ord : ordered (l ++ [(tl, vl)])%list = true.
Hypothesis Uniq : keys_unique eqb spec = true.
Hypothesis Same : same_entries eqb (l ++ [(tl, vl)])%list spec = true.
Variable cfg : nom_cfg.
Let p : parser A := tags l (alt_last cfg (tagv tl vl)).
Let same := same_in _ eqb _ _ eqb_ok Same.

Lemma tagl_complete : forall s t v, In (t, v) spec -> longest spec t s -> exists r, s = t ++ r /\ p s = Done r v.
Proof.
  intros s t v Hin [Hb Hl]. unfold p. rewrite tags_last by auto.
  destruct (tags_longest A (l ++ [(tl, vl)])%list (fun _ => if too_short tl s && negb (last_complete cfg) then Incomplete else PError) s t v Ord) as (r & v' & H1 & H2 & H3).
  - apply same. exact Hin.
  - split; [exact Hb|]. intros q a Hq. apply Hl with a. apply same. exact Hq.
  - exists r. split; [exact H2|]. rewrite H1. f_equal. apply (unique_eq _ eqb spec eqb_ok Uniq t); [apply same; exact H3|exact Hin].
Qed.
Lemma tagl_sound : forall s r v, p s = Done r v -> exists t, In (t, v) spec /\ s = t ++ r /\ longest spec t s.
Proof.
  intros s r v H.
  assert (Ex : exists t0 v0, In (t0, v0) spec /\ begins t0 s).
  { unfold p in H. rewrite tags_last in H by auto. destruct (tags_sound _ _ _ _ _ _ H) as [(t & H1 & H2)|[_ H2]].
    - exists t, v. split; [apply same; exact H1|exists r; exact H2].
    - destruct (too_short tl s && negb (last_complete cfg)); discriminate H2. }
  (* take the longest *)
  assert (Lg : exists t v', In (t, v') spec /\ longest spec t s).
  { assert (G : forall sub : list (string * A), (exists t0 v0, In (t0, v0) sub /\ begins t0 s) ->
      exists t v', In (t, v') sub /\ begins t s /\ forall q a, In (q, a) sub -> begins q s -> (length q <= length t)%nat).
    { induction sub as [|[t1 v1] sub IH]; intros (t0 & v0 & Hin & Hb); [destruct Hin|].
      assert (D : (exists t0 v0, In (t0, v0) sub /\ begins t0 s) \/ forall q a, In (q, a) sub -> ~ begins q s).
      { clear - sub. induction sub as [|[t2 v2] sub IH]; [right; intros q a []|].
        destruct (strip t2 s) eqn:E.
        - left. exists t2, v2. split; [left; reflexivity|]. apply strip_begins. congruence.
        - destruct IH as [(t0 & v0 & H1 & H2)|IH]; [left; exists t0, v0; split; [right; exact H1|exact H2]|].
          right. intros q a [Heq|Hq]; [injection Heq as <- <-; rewrite <- strip_begins; congruence|eapply IH; exact Hq]. }
      destruct D as [D|D].
      - destruct (IH D) as (t & v' & H1 & H2 & H3).
        destruct (strip t1 s) as [r1|] eqn:E.
        + assert (B1 : begins t1 s) by (apply strip_begins; congruence).
          destruct (le_lt_dec (length t1) (length t)) as [L|L].
          * exists t, v'. split; [right; exact H1|]. split; [exact H2|]. intros q a [Heq|Hq] Bq; [injection Heq as <- <-; exact L|eapply H3; eassumption].
          * exists t1, v1. split; [left; reflexivity|]. split; [exact B1|]. intros q a [Heq|Hq] Bq; [injection Heq as <- <-; lia|]. specialize (H3 q a Hq Bq). lia.
        + exists t, v'. split; [right; exact H1|]. split; [exact H2|]. intros q a [Heq|Hq] Bq; [|eapply H3; eassumption].
          injection Heq as <- <-. apply strip_begins in Bq. congruence.
      - destruct Hin as [Heq|Hin]; [|elim (D t0 v0 Hin Hb)]. injection Heq as -> ->.
        exists t0, v0. split; [left; reflexivity|]. split; [exact Hb|]. intros q a [Heq|Hq] Bq; [injection Heq as <- <-; lia|elim (D q a Hq Bq)]. }
    destruct (G spec Ex) as (t & v' & H1 & H2 & H3). exists t, v'. split; [exact H1|split; [exact H2|exact H3]]. }
  destruct Lg as (t & v' & H1 & H2). destruct (tagl_complete s t v' H1 H2) as (r' & H3 & H4).
  rewrite H4 in H. injection H as <- <-. exists t. split; [exact H1|]. split; [exact H3|exact H2].
Qed.
Lemma tagl_none : forall s, (forall t a, In (t, a) spec -> ~ begins t s) -> p s = PError \/ p s = Incomplete /\ last_complete cfg = false /\ too_short tl s = true.
Proof.
  intros s H. unfold p. rewrite tags_last by auto. rewrite tags_none.
  - destruct (too_short tl s), (last_complete cfg); auto.
  - intros t a Hin. apply (H t a). apply same. exact Hin.
Qed.
End TagLists.

Lemma unit_complete : forall cfg s t v, In (t, v) spellings -> longest spellings t s -> exists r, s = t ++ r /\ unit_parser cfg s = Done r v.
Proof. intro cfg. rewrite unit_parser_tags. apply (tagl_complete punit_eqb punit_eqb_eq); reflexivity. Qed.
Lemma unit_sound : forall cfg s r v, unit_parser cfg s = Done r v -> exists t, In (t, v) spellings /\ s = t ++ r /\ longest spellings t s.
Proof. intro cfg. rewrite unit_parser_tags. apply (tagl_sound punit_eqb punit_eqb_eq); reflexivity. Qed.
Lemma unit_none : forall cfg s, (forall t a, In (t, a) spellings -> ~ begins t s) ->
  unit_parser cfg s = PError \/ unit_parser cfg s = Incomplete /\ last_complete cfg = false /\ too_short "yrs" s = true.
Proof. intro cfg. rewrite unit_parser_tags. apply (tagl_none punit_eqb punit_eqb_eq); reflexivity. Qed.

Definition adverbs_order : list (string * unitalias) :=
  [("secondly", ASecondly); ("minutely", AMinutely); ("hourly", AHourly); ("daily", ADaily); ("weekly", AWeekly); ("monthly", AMonthly)].
Lemma unit_alias_tags : forall cfg, unit_alias cfg = tags adverbs_order (alt_last cfg (tagv "yearly" AYearly)).
Proof. reflexivity. Qed.
Lemma alias_complete : forall cfg s t v, In (t, v) adverbs -> longest adverbs t s -> exists r, s = t ++ r /\ unit_alias cfg s = Done r v.
Proof. intro cfg. rewrite unit_alias_tags. apply (tagl_complete alias_eqb alias_eqb_eq); reflexivity. Qed.
Lemma alias_sound : forall cfg s r v, unit_alias cfg s = Done r v -> exists t, In (t, v) adverbs /\ s = t ++ r /\ longest adverbs t s.
Proof. intro cfg. rewrite unit_alias_tags. apply (tagl_sound alias_eqb alias_eqb_eq); reflexivity. Qed.
