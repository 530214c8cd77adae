(** Proofs about the work of the parsers (C102). *)
Require Import ZArith Bool List String Ascii Lia.
From Verif Require Import Prelude Chrono TimeType Nom ParserTimetype ParserIterator ParserMod SpecText NomProofs ParserProofs2 SpecWork Grammar.
Import ListNotations.
Local Open Scope string_scope.
Local Open Scope nat_scope.

(** ** The trees read what the parsers read *)
Lemma bind_ext : forall A B (p p' : parser A) (f f' : A -> parser B) s,
  p s = p' s -> (forall a r, f a r = f' a r) -> pbind p f s = pbind p' f' s.
Proof. intros A B p p' f f' s E F. unfold pbind. rewrite E. destruct (p' s); auto. Qed.
Lemma complete_ext : forall A (p p' : parser A) s, p s = p' s -> complete p s = complete p' s.
Proof. intros A p p' s E. unfold complete. now rewrite E. Qed.
Lemma opt_ext : forall A (p p' : parser A) s, p s = p' s -> opt p s = opt p' s.
Proof. intros A p p' s E. unfold opt. now rewrite E. Qed.
Lemma alt_ext : forall A (p p' q q' : parser A) s, p s = p' s -> q s = q' s -> alt p q s = alt p' q' s.
Proof. intros A p p' q q' s E F. unfold alt. rewrite E, F. reflexivity. Qed.

Section Reads.
Variable cfg : nom_cfg.
Variable pd : parser isodate.
Variable pdt : parser (isodate * isotime).
Lemma reads_last : forall A (g : G A), reads cfg (g_last cfg g) = alt_last cfg (reads cfg g).
Proof. intros. unfold g_last, alt_last. destruct (last_complete cfg); reflexivity. Qed.
Lemma reads_amount : reads cfg (g_amount_parser cfg) = amount_parser cfg.
Proof. destruct cfg as [[] d]; reflexivity. Qed.
Lemma reads_fuel : forall n s, reads cfg (g_amount_expr_fuel cfg n) s = amount_expr_fuel cfg n s.
Proof.
  induction n as [|n IH]; intro s; [reflexivity|].
  cbn [g_amount_expr_fuel amount_expr_fuel reads]. rewrite reads_amount.
  apply bind_ext; [reflexivity|]. intros a r. apply bind_ext; [reflexivity|]. intros _ r'.
  apply bind_ext; [|reflexivity]. apply opt_ext, complete_ext, bind_ext; [reflexivity|]. intros op r1.
  apply bind_ext; [reflexivity|]. intros _ r2. apply bind_ext; [apply IH|reflexivity].
Qed.
Lemma reads_expr : forall s, reads cfg (g_amount_expr cfg) s = amount_expr cfg s.
Proof. intro s. exact (reads_fuel (S (length s)) s). Qed.
Lemma reads_exact : reads cfg (g_exact_date_parser cfg pd pdt) = exact_date_parser cfg pd pdt.
Proof. destruct cfg as [[] d]; reflexivity. Qed.
Lemma reads_date : forall s, reads cfg (g_date cfg pd pdt) s = date cfg pd pdt s.
Proof.
  intro s. unfold g_date, date. cbn [reads]. rewrite reads_exact. apply bind_ext; [reflexivity|]. intros e r.
  apply bind_ext; [|reflexivity]. apply opt_ext, complete_ext, bind_ext; [reflexivity|]. intros _ r1.
  apply bind_ext; [reflexivity|]. intros op r2. apply bind_ext; [reflexivity|]. intros _ r3.
  apply bind_ext; [apply reads_expr|reflexivity].
Qed.
Lemma reads_timetype : forall s, reads cfg (g_timetype cfg pd pdt) s = timetype_parser cfg pd pdt s.
Proof.
  intro s. unfold g_timetype, timetype_parser. cbn [reads]. apply alt_ext; (apply bind_ext; [|reflexivity]); [apply reads_date|apply reads_expr].
Qed.
Lemma reads_iter_spec : reads cfg (g_iter_spec cfg) = iter_spec cfg.
Proof. destruct cfg as [[] d]; reflexivity. Qed.
Lemma reads_until_spec : reads cfg (g_until_spec cfg pd pdt) = until_spec cfg pd pdt.
Proof. destruct cfg as [[] d]; reflexivity. Qed.
Lemma reads_iterator : forall s, reads cfg (g_iterator cfg pd pdt) s = iterator cfg pd pdt s.
Proof.
  intro s. unfold g_iterator, iterator. cbn [reads]. rewrite reads_iter_spec, reads_until_spec.
  apply bind_ext; [reflexivity|]. intros _ r. apply bind_ext; [apply reads_date|]. reflexivity.
Qed.
Lemma reads_parse : forall md now1 now2 s, reads cfg (g_do_parse cfg pd pdt md now1 now2) s = do_parse md cfg pd pdt now1 now2 s.
Proof.
  intros. unfold g_do_parse, do_parse, g_alt_c, alt_c. cbn [reads]. rewrite reads_last.
  apply alt_ext; [apply complete_ext, bind_ext; [apply reads_iterator|reflexivity]|].
  unfold alt_last. cbn [reads]. destruct (last_complete cfg); [apply complete_ext|]; (apply bind_ext; [apply reads_timetype|reflexivity]).
Qed.
End Reads.

(** ** Parsers leave no more than they get *)
Fixpoint isos {A} (P : forall B, parser B -> Prop) (g : G A) : Prop :=
  match g with
  | GIso p => P _ p
  | GRet _ | GFuel | GTag _ | GSp | GDigit => True
  | GBind p f => isos P p /\ forall a, isos P (f a)
  | GAlt p q => isos P p /\ isos P q
  | GComplete p | GOpt p | GMap _ p => isos P p
  | GMapRes p _ _ => isos P p
  | GOfInput g' => forall s, isos P (g' s)
  end.
Lemma skip_len : forall s, length (skip_spaces s) <= length s.
Proof. induction s as [|c s IH]; cbn; [lia|]. destruct (is_space c); cbn; lia. Qed.
Lemma span_len : forall s, length (fst (span_digits s)) + length (snd (span_digits s)) = length s.
Proof. induction s as [|c s IH]; cbn; [reflexivity|]. destruct (is_digit c); [|reflexivity]. destruct (span_digits s). cbn in *. lia. Qed.
Lemma strip_len : forall t s r, strip t s = Some r -> length s = length t + length r.
Proof. intros t s r E. apply strip_some in E. subst. apply length_app. Qed.
Lemma digit_done : forall cfg s r a, digit cfg s = Done r a -> span_digits s = (a, r) /\ 1 <= length a.
Proof.
  intros cfg s r a. unfold digit. destruct s as [|c s]; [destruct (digit_incomplete cfg); discriminate|].
  destruct (span_digits (String c s)) as [ds q]. destruct ds; [discriminate|]. intro E; injection E as <- <-. cbn. split; [reflexivity|lia].
Qed.
Lemma reads_consumes : forall cfg A (g : G A), isos (fun _ p => consumes p) g -> consumes (reads cfg g).
Proof.
  intros cfg A g. unfold consumes.
  induction g as [A a|t| | |A p|A B p IHp f IHf|A p IHp|A p IHp|A p IHp q IHq|A B f p IHp|A B p IHp f w|A|A g' IH]; cbn [isos reads]; intros I s r x E.
  - injection E as <- _. lia.
  - unfold tag in E. destruct (strip t s) as [r'|] eqn:T; [|destruct (too_short t s); discriminate].
    injection E as <- _. apply strip_len in T. lia.
  - injection E as <- _. apply skip_len.
  - apply digit_done in E. destruct E as [E _]. pose proof (span_len s). rewrite E in H. cbn in H. lia.
  - exact (I s r x E).
  - destruct I as [I1 I2]. unfold pbind in E. destruct (reads cfg p s) as [r1 a| | |] eqn:P; try discriminate.
    apply IHp in P; [|exact I1]. apply IHf in E; [|apply I2]. lia.
  - unfold complete in E. destruct (reads cfg p s) as [r1 a| | |] eqn:P; try discriminate. apply IHp in P; [|exact I]. injection E as <- _. lia.
  - unfold opt in E. destruct (reads cfg p s) as [r1 a| | |] eqn:P; try discriminate; injection E as <- _; [|lia]. apply IHp in P; [|exact I]. lia.
  - destruct I as [I1 I2]. unfold alt in E. destruct (reads cfg p s) as [r1 a| | |] eqn:P; try discriminate.
    + apply IHp in P; [|exact I1]. injection E as <- _. lia.
    + apply IHq in E; [|exact I2]. lia.
  - unfold pmap in E. destruct (reads cfg p s) as [r1 a| | |] eqn:P; try discriminate. apply IHp in P; [|exact I]. injection E as <- _. lia.
  - unfold map_res in E. destruct (reads cfg p s) as [r1 a| | |] eqn:P; try discriminate. destruct (f a); try discriminate.
    apply IHp in P; [|exact I]. injection E as <- _. lia.
  - discriminate.
  - exact (IH s (I s) s r x E).
Qed.

(** ** Bounds *)
Lemma compared_le : forall t s, compared t s <= length t.
Proof. induction t as [|a t IH]; intros [|b s]; cbn; try lia. destruct (Ascii.eqb a b); [specialize (IH s)|]; lia. Qed.

(** Alternatives of tags take a bounded number of steps. *)
Fixpoint capped {A} (g : G A) : bool :=
  match g with
  | GRet _ | GTag _ => true
  | GAlt p q => capped p && capped q
  | GComplete p | GOpt p | GMap _ p => capped p
  | _ => false
  end.
Fixpoint cap {A} (g : G A) : nat :=
  match g with
  | GTag t => S (length t)
  | GAlt p q => S (cap p + cap q)
  | GComplete p | GOpt p | GMap _ p => S (cap p)
  | _ => 1
  end.
Lemma capped_isos : forall P A (g : G A), capped g = true -> isos P g.
Proof.
  intros P A g. induction g; cbn [capped isos]; intro C; try discriminate; auto.
  apply andb_prop in C. destruct C. auto.
Qed.
Lemma steps_cap : forall cfg A (g : G A), capped g = true -> forall s, steps cfg g s <= cap g.
Proof.
  intros cfg A g. induction g as [A a|t| | |A p|A B p IHp f IHf|A p IHp|A p IHp|A p IHp q IHq|A B f p IHp|A B p IHp f w|A|A g' IH];
    cbn [capped cap steps]; intros C s; try discriminate; try lia.
  - pose proof (compared_le t s). lia.
  - specialize (IHp C s). lia.
  - specialize (IHp C s). lia.
  - apply andb_prop in C. destruct C as [C D]. specialize (IHp C s). specialize (IHq D s). destruct (reads cfg p s); lia.
  - specialize (IHp C s). lia.
Qed.

Section Bounds.
Variable cfg : nom_cfg.
(** At most [K] steps for each byte that is read when the parser succeeds, of the text when it fails, and [B] more. *)
Definition lin {A} (K B : nat) (g : G A) : Prop := forall s,
  steps cfg g s <= K * length s + B /\ (forall r a, reads cfg g s = Done r a -> steps cfg g s + K * length r <= K * length s + B).
(** At most [K] steps for each byte of the text and [B] more. *)
Definition bound {A} (K B : nat) (g : G A) : Prop := forall s, steps cfg g s <= K * length s + B.
Lemma lin_bound : forall A K B (g : G A), lin K B g -> bound K B g.
Proof. intros A K B g L s. exact (proj1 (L s)). Qed.
Lemma lin_ret : forall A K (a : A), lin K 1 (GRet a).
Proof. intros A K a s. cbn. split; [lia|]. intros r b E. injection E as <- _. lia. Qed.
Lemma lin_cap : forall A K B (g : G A), capped g = true -> cap g <= B -> lin K B g.
Proof.
  intros A K B g C L s. pose proof (steps_cap cfg A g C s). split; [lia|]. intros r a E.
  pose proof (reads_consumes cfg A g (capped_isos _ A g C) s r a E). nia.
Qed.
Lemma lin_sp : forall K, 1 <= K -> lin K 1 GSp.
Proof. intros K L s. pose proof (skip_len s). cbn [steps reads]. split; [nia|]. intros r a E. injection E as <- _. nia. Qed.
Lemma lin_opt : forall A K B (g : G A), (forall s, exists r a, reads cfg g s = Done r a) -> lin K B g -> lin K (S B) (GOpt g).
Proof.
  intros A K B g T L s. specialize (L s). destruct L as [L1 L2]. destruct (T s) as [r [a E]]. cbn [steps reads]. unfold opt. rewrite E.
  split; [lia|]. intros r' a' E'. injection E' as <- _. specialize (L2 r a E). lia.
Qed.
Lemma lin_opt_sp : forall K, 1 <= K -> lin K 2 (GOpt GSp).
Proof. intros K L. apply lin_opt; [|now apply lin_sp]. intro s. eexists _, _. reflexivity. Qed.
Lemma lin_bind : forall A B K C D (p : G A) (f : A -> G B), lin K C p -> (forall a, lin K D (f a)) -> lin K (S (C + D)) (GBind p f).
Proof.
  intros A B K C D p f P F s. destruct (P s) as [P1 P2]. cbn [steps reads]. unfold pbind.
  destruct (reads cfg p s) as [r a| | |] eqn:E; (split; [|try (intros ? ? ?; discriminate)]); try lia.
  - specialize (P2 r a eq_refl). destruct (F a r) as [F1 _]. lia.
  - intros r' b E'. specialize (P2 r a eq_refl). destruct (F a r) as [_ F2]. specialize (F2 r' b E'). lia.
Qed.
Lemma lin_weak : forall A K B C (g : G A), lin K B g -> B <= C -> lin K C g.
Proof. intros A K B C g L H s. destruct (L s) as [L1 L2]. split; [lia|]. intros r a E. specialize (L2 r a E). lia. Qed.
Lemma bound_weak : forall A K B L C (g : G A), bound K B g -> K <= L -> B <= C -> bound L C g.
Proof. intros A K B L C g H I J s. specialize (H s). nia. Qed.
Lemma bound_bind : forall A B K C D (p : G A) (f : A -> G B), lin K C p -> (forall a, bound K D (f a)) -> bound K (S (C + D)) (GBind p f).
Proof.
  intros A B K C D p f P F s. destruct (P s) as [P1 P2]. cbn [steps].
  destruct (reads cfg p s) as [r a| | |] eqn:E; try lia. specialize (P2 r a eq_refl). specialize (F a r). lia.
Qed.
Lemma bound_bind2 : forall A B K L C D (p : G A) (f : A -> G B), consumes (reads cfg p) -> bound K C p -> (forall a, bound L D (f a)) ->
  bound (K + L) (S (C + D)) (GBind p f).
Proof.
  intros A B K L C D p f Q P F s. specialize (P s). cbn [steps].
  destruct (reads cfg p s) as [r a| | |] eqn:E; try nia. specialize (Q s r a E). specialize (F a r). nia.
Qed.
Lemma bound_alt : forall A K L C D (p q : G A), bound K C p -> bound L D q -> bound (K + L) (S (C + D)) (GAlt p q).
Proof. intros A K L C D p q P Q s. specialize (P s). specialize (Q s). cbn [steps]. destruct (reads cfg p s); nia. Qed.
Lemma bound_complete : forall A K B (g : G A), bound K B g -> bound K (S B) (GComplete g).
Proof. intros A K B g H s. specialize (H s). cbn [steps]. lia. Qed.
Lemma bound_opt : forall A K B (g : G A), bound K B g -> bound K (S B) (GOpt g).
Proof. intros A K B g H s. specialize (H s). cbn [steps]. lia. Qed.
Lemma bound_last : forall A K B (g : G A), bound K B g -> bound K (S B) (g_last cfg g).
Proof. intros A K B g H. unfold g_last. destruct (last_complete cfg); [now apply bound_complete|]. eapply bound_weak; [exact H|lia|lia]. Qed.
Lemma bound_iso : forall A (p : parser A) K, bound K 1 (GIso p).
Proof. intros A p K s. cbn. lia. Qed.

Lemma lin_integer : lin 2 8 g_integer.
Proof.
  intro s. unfold g_integer, g_ws. cbn [steps reads]. unfold map_res, pbind, sp.
  pose proof (skip_len s). pose proof (span_len (skip_spaces s)) as SL.
  destruct (digit cfg (skip_spaces s)) as [r a| | |] eqn:D; cbn [length fst]; try (split; [nia|discriminate]).
  destruct (digit_done cfg _ _ _ D) as [E _]. rewrite E in *. cbn [fst snd] in *. unfold pret. pose proof (skip_len r).
  split; [nia|]. destruct (i64_from_str a); [|discriminate]. intros r' b F. injection F as <- _. nia.
Qed.
Lemma lin_unit : forall K, lin K 191 (g_unit_parser cfg).
Proof. intro K. destruct cfg as [[] d]; apply lin_cap; try reflexivity; vm_compute; lia. Qed.
Lemma lin_alias : forall K, lin K 73 (g_unit_alias cfg).
Proof. intro K. destruct cfg as [[] d]; apply lin_cap; try reflexivity; vm_compute; lia. Qed.
Lemma lin_operator : forall K, lin K 7 g_operator_parser.
Proof. intro K. apply lin_cap; [reflexivity|vm_compute; lia]. Qed.
End Bounds.

Section Bounds2.
Variable cfg : nom_cfg.
Variable pd : parser isodate.
Variable pdt : parser (isodate * isotime).
Hypothesis PD : consumes pd.
Hypothesis PDT : consumes pdt.

(** A text that begins with an adverb is no number, which is found at once. *)
Lemma letter_integer : forall s, starts letter_char s = true -> steps cfg g_integer s <= 6 /\ reads cfg g_integer s = PError.
Proof.
  intros [|c s] L; [discriminate|]. cbn [starts] in L. unfold g_integer, g_ws. cbn [steps reads]. unfold map_res, pbind, sp.
  cbn [skip_spaces]. rewrite is_space_blank, (letter_not_blank c L). unfold digit. cbn [span_digits].
  rewrite is_digit_char, (letter_not_digit c L). cbn [fst length]. split; [lia|reflexivity].
Qed.
Lemma alias_starts : forall s r a, reads cfg (g_unit_alias cfg) s = Done r a -> starts letter_char s = true.
Proof.
  intros s r a E. replace (reads cfg (g_unit_alias cfg)) with (unit_alias cfg) in E by (destruct cfg as [[] d]; reflexivity).
  apply alias_sound in E. destruct E as [t [I [-> _]]]. cbn in I.
  repeat (destruct I as [I|I]; [injection I as <- _; reflexivity|]). destruct I.
Qed.
Lemma lin_number : lin cfg 2 202 (gdo number <- g_integer;; gdo u <- g_unit_parser cfg;; GRet (Amount number u)).
Proof. apply lin_weak with (B := S (8 + S (191 + 1))); [|lia]. apply lin_bind; [apply lin_integer|]. intro n. apply lin_bind; [apply lin_unit|]. intro u. apply lin_ret. Qed.
Lemma lin_adverb : forall K, lin cfg K 75 (gdo a <- g_unit_alias cfg;; GRet (Amount 1 (alias_into a))).
Proof. intro K. apply lin_weak with (B := S (73 + 1)); [|lia]. apply lin_bind; [apply lin_alias|]. intro a. apply lin_ret. Qed.
Lemma lin_amount : lin cfg 2 278 (g_amount_parser cfg).
Proof.
  intro s. destruct (lin_number s) as [N1 N2]. destruct (lin_adverb 2 s) as [A1 A2]. unfold g_amount_parser.
  set (p := GBind g_integer _) in *. set (q := GBind (g_unit_alias cfg) _) in *.
  change (steps cfg (GAlt p q) s) with (S (steps cfg p s + match reads cfg p s with PError => steps cfg q s | _ => 0 end)).
  change (reads cfg (GAlt p q) s) with (alt (reads cfg p) (reads cfg q) s). unfold alt.
  destruct (lin_adverb 0 s) as [A0 _].
  change (steps cfg (GBind (g_unit_alias cfg) _) s) with (steps cfg q s) in A0.
  destruct (reads cfg p s) as [r a| | |] eqn:P; (split; [lia|]); intros r' b E; try discriminate.
  - injection E as <- <-. specialize (N2 r a eq_refl). lia.
  - pose proof (A2 r' b E) as A2'. assert (S1 : starts letter_char s = true).
    { unfold q in E. cbn [reads] in E. unfold pbind in E. destruct (reads cfg (g_unit_alias cfg) s) as [r0 a0| | |] eqn:U; try discriminate.
      exact (alias_starts s r0 a0 U). }
    destruct (letter_integer s S1) as [I1 I2]. unfold p in *. cbn [steps] in *. rewrite I2 in *. lia.
Qed.

(** Each operand of an expression is read once. *)
Lemma bound_fuel : forall n, bound cfg 304 281 (g_amount_expr_fuel cfg n).
Proof.
  induction n as [|n IH]; intro s; [cbn; lia|].
  cbn [g_amount_expr_fuel]. change (steps cfg (GBind (g_amount_parser cfg) ?f) s) with
    (S (steps cfg (g_amount_parser cfg) s + match reads cfg (g_amount_parser cfg) s with Done r a => steps cfg (f a) r | _ => 0 end)).
  destruct (lin_amount s) as [L1 L2]. pose proof (eats_amount cfg s) as EA. unfold eats in EA. rewrite reads_amount in *.
  destruct (amount_parser cfg s) as [r a| | |]; try nia.
  specialize (L2 r a eq_refl). destruct EA as [_ EA].
  assert (X : forall a0, bound cfg 304 (S (2 + S (S (S (S (7 + S (2 + S (281 + 1))))) + 1)))
    (gdo _ <- GOpt GSp;; gdo o <- GOpt (GComplete (gdo op <- g_operator_parser;; gdo _ <- GOpt GSp;;
       gdo amexp <- g_amount_expr_fuel cfg n;; GRet (op, amexp)));;
      GRet (match o with Some (op, next) => AENext a0 op next | None => AELast a0 end))).
  { intro a0. apply bound_bind; [apply lin_opt_sp; lia|]. intros _.
    intro s1. change (steps cfg (GBind ?p ?f) s1) with (S (steps cfg p s1 + match reads cfg p s1 with Done r a => steps cfg (f a) r | _ => 0 end)).
    set (h := GOpt _). assert (H : bound cfg 304 (S (S (S (7 + S (2 + S (281 + 1)))))) h).
    { apply bound_opt, bound_complete. apply bound_bind; [apply lin_operator|]. intro op. apply bound_bind; [apply lin_opt_sp; lia|]. intros _.
      intro s2. change (steps cfg (GBind ?p ?f) s2) with (S (steps cfg p s2 + match reads cfg p s2 with Done r a => steps cfg (f a) r | _ => 0 end)).
      specialize (IH s2). destruct (reads cfg (g_amount_expr_fuel cfg n) s2); cbn [steps]; lia. }
    specialize (H s1). destruct (reads cfg h s1); cbn [steps]; lia. }
  specialize (X a r). set (y := steps cfg _ r) in *.
  assert (length r + 1 <= length s) by lia.
  assert (304 * length r + 304 <= 304 * length s) by lia. lia.
Qed.
Lemma bound_expr : bound cfg 304 281 (g_amount_expr cfg).
Proof. intro s. exact (bound_fuel (S (length s)) s). Qed.
Lemma isos_operator : forall P, isos P g_operator_parser.
Proof. intro P. apply capped_isos. reflexivity. Qed.
Lemma isos_unit : forall P, isos P (g_unit_parser cfg).
Proof. intro P. apply capped_isos. destruct cfg as [[] d]; reflexivity. Qed.
Lemma isos_alias : forall P, isos P (g_unit_alias cfg).
Proof. intro P. apply capped_isos. destruct cfg as [[] d]; reflexivity. Qed.
Lemma isos_integer : forall P, isos P g_integer.
Proof. intro P. cbn. repeat split. Qed.
Lemma isos_fuel : forall P n, isos P (g_amount_expr_fuel cfg n).
Proof.
  intros P n. induction n as [|n IH]; [exact I|]. cbn [g_amount_expr_fuel isos]. split.
  - split; [split; [apply isos_integer|intro; split; [apply isos_unit|intro; exact I]]|split; [apply isos_alias|intro; exact I]].
  - intro a. split; [exact I|]. intros _. split; [|intro; exact I]. split; [apply isos_operator|]. intro op. split; [exact I|]. intros _. split; [exact IH|intro; exact I].
Qed.
Lemma isos_last : forall P A (g : G A), isos P g -> isos P (g_last cfg g).
Proof. intros P A g H. unfold g_last. destruct (last_complete cfg); exact H. Qed.
Notation short := (fun _ p => consumes p).
Lemma isos_exact : isos short (g_exact_date_parser cfg pd pdt).
Proof.
  unfold g_exact_date_parser. cbn [g_alt_c g_tagv isos]. repeat (split; [exact I|]). split; [split; [exact PDT|intro; exact I]|].
  apply isos_last. cbn [isos]. split; [exact PD|intro; exact I].
Qed.
Lemma isos_date : isos short (g_date cfg pd pdt).
Proof.
  unfold g_date. cbn [isos]. split; [apply isos_exact|]. intro e. split; [|intro; exact I]. split; [exact I|]. intros _.
  split; [apply isos_operator|]. intro op. split; [exact I|]. intros _. split; [|intro; exact I].
  unfold g_amount_expr. cbn [isos]. intro s. apply isos_fuel.
Qed.
Lemma isos_iter_spec : forall P, isos P (g_iter_spec cfg).
Proof.
  intro P. unfold g_iter_spec. cbn [g_alt_c g_tagv isos]. repeat (split; [exact I|]). apply isos_last. cbn [isos]. split; [exact I|]. intros _.
  split; [apply isos_integer|]. intro n. split; [apply isos_unit|intro; exact I].
Qed.

Lemma bound_exact : bound cfg 0 49 (g_exact_date_parser cfg pd pdt).
Proof.
  apply bound_weak with (K := 0 + (0 + (0 + (0 + 0)))) (B := S (9 + S (13 + S (12 + S (S (S (1 + 1)) + S (S (1 + 1))))))); [|lia|lia].
  unfold g_exact_date_parser, g_alt_c.
  repeat (apply bound_alt; [first [apply lin_bound, lin_cap; [reflexivity|vm_compute; lia] |
    apply bound_complete, (bound_bind2 cfg _ _ 0 0); [exact PDT|apply bound_iso|intro; apply lin_bound, lin_ret]]|]).
  apply bound_last, (bound_bind2 cfg _ _ 0 0); [exact PD|apply bound_iso|intro; apply lin_bound, lin_ret].
Qed.
Lemma bound_date : bound cfg 304 350 (g_date cfg pd pdt).
Proof.
  apply bound_weak with (K := 0 + (304 + 0)) (B := S (49 + S (S (S (S (1 + S (7 + S (1 + S (281 + 1)))))) + 1))); [|lia|lia].
  unfold g_date. apply bound_bind2; [apply reads_consumes, isos_exact|apply bound_exact|]. intro e.
  apply bound_bind2; [|apply bound_opt, bound_complete|intro; apply lin_bound, lin_ret].
  - apply (reads_consumes cfg _ (GOpt (GComplete _))). cbn [isos]. split; [exact I|]. intros _. split; [apply isos_operator|]. intro. split; [exact I|]. intros _.
    split; [intro; apply isos_fuel|intro; exact I].
  - apply bound_bind; [apply lin_sp; lia|]. intros _. apply bound_bind; [apply lin_operator|]. intro op. apply bound_bind; [apply lin_sp; lia|]. intros _.
    intro s. specialize (bound_expr s) as B. change (steps cfg (GBind ?p ?f) s) with (S (steps cfg p s + match reads cfg p s with Done r a => steps cfg (f a) r | _ => 0 end)).
    destruct (reads cfg (g_amount_expr cfg) s); cbn [steps]; lia.
Qed.
Lemma bound_timetype : bound cfg 608 640 (g_timetype cfg pd pdt).
Proof.
  apply bound_weak with (K := (304 + 0) + (304 + 0)) (B := S (S (350 + 1) + S (281 + 1))); [|lia|lia].
  unfold g_timetype. apply bound_alt; (apply bound_bind2; [|first [apply bound_date|apply bound_expr]|intro; apply lin_bound, lin_ret]).
  - apply reads_consumes, isos_date.
  - apply (reads_consumes cfg _ (g_amount_expr cfg)). intro s. apply isos_fuel.
Qed.
Lemma bound_iter_spec : bound cfg 2 290 (g_iter_spec cfg).
Proof.
  apply bound_weak with (K := 0 + (0 + (0 + (0 + (0 + (0 + (0 + 2)))))))
    (B := S (11 + S (11 + S (9 + S (8 + S (9 + S (10 + S (9 + S (S (6 + S (8 + S (191 + 1)))))))))))); [|lia|lia].
  unfold g_iter_spec, g_alt_c. repeat (apply bound_alt; [apply lin_bound, lin_cap; [reflexivity|vm_compute; lia]|]).
  apply bound_last, bound_bind; [apply lin_cap; [reflexivity|vm_compute; lia]|]. intros _.
  apply bound_bind; [apply lin_integer|]. intro n. apply bound_bind; [apply lin_unit|]. intro u. apply lin_bound, lin_ret.
Qed.
Lemma bound_until_spec : bound cfg 4 90 (g_until_spec cfg pd pdt).
Proof.
  apply bound_weak with (K := 2 + 2) (B := S (S (S (6 + S (1 + S (49 + 1)))) + S (S (8 + S (1 + S (6 + 1)))))); [|lia|lia].
  unfold g_until_spec, g_alt_c. apply bound_alt.
  - apply bound_complete, bound_bind; [apply lin_cap; [reflexivity|vm_compute; lia]|]. intros _. apply bound_bind; [apply lin_sp; lia|]. intros _.
    intro s. pose proof (bound_exact s) as B. change (steps cfg (GBind ?p ?f) s) with (S (steps cfg p s + match reads cfg p s with Done r a => steps cfg (f a) r | _ => 0 end)).
    destruct (reads cfg (g_exact_date_parser cfg pd pdt) s); cbn [steps]; lia.
  - apply bound_last, bound_bind; [apply lin_integer|]. intro n. apply bound_bind; [apply lin_sp; lia|]. intros _.
    apply bound_bind; [apply lin_cap; [reflexivity|vm_compute; lia]|]. intros _. apply lin_bound, lin_ret.
Qed.
Lemma bound_iterator : bound cfg 320 750 (g_iterator cfg pd pdt).
Proof.
  apply bound_weak with (K := 1 + (304 + (1 + (2 + (1 + (4 + 0)))))) (B := S (2 + S (350 + S (2 + S (290 + S (2 + S (S (S 90) + 1))))))); [|lia|lia].
  assert (SP : bound cfg 1 2 (GOpt GSp)) by (apply lin_bound, lin_opt_sp; lia).
  assert (CS : consumes (reads cfg (GOpt GSp))) by (apply (reads_consumes cfg _ (GOpt GSp)); exact I).
  unfold g_iterator.
  apply bound_bind2; [exact CS|exact SP|]. intros _.
  apply bound_bind2; [apply reads_consumes, isos_date|apply bound_date|]. intro d.
  apply bound_bind2; [exact CS|exact SP|]. intros _.
  apply bound_bind2; [apply reads_consumes, isos_iter_spec|apply bound_iter_spec|]. intro sp.
  apply bound_bind2; [exact CS|exact SP|]. intros _.
  intro s. pose proof (bound_until_spec s) as B. change (steps cfg (GBind ?p ?f) s) with (S (steps cfg p s + match reads cfg p s with Done r a => steps cfg (f a) r | _ => 0 end)).
  change (steps cfg (GOpt (GComplete (g_until_spec cfg pd pdt))) s) with (S (S (steps cfg (g_until_spec cfg pd pdt) s))).
  destruct (reads cfg (GOpt (GComplete (g_until_spec cfg pd pdt))) s); cbn [steps]; lia.
Qed.
Lemma bound_parse : forall md now1 now2 s, steps cfg (g_do_parse cfg pd pdt md now1 now2) s <= 1000 * length s + 1500.
Proof.
  intros md now1 now2.
  enough (bound cfg 1000 1500 (g_do_parse cfg pd pdt md now1 now2)) by assumption.
  apply bound_weak with (K := 320 + 608) (B := S (S (S (750 + 1)) + S (S (640 + 1)))); [|lia|lia].
  unfold g_do_parse, g_alt_c. apply bound_alt.
  - apply bound_complete. intro s. pose proof (bound_iterator s) as B.
    change (steps cfg (GBind ?p ?f) s) with (S (steps cfg p s + match reads cfg p s with Done r a => steps cfg (f a) r | _ => 0 end)).
    destruct (reads cfg (g_iterator cfg pd pdt) s); cbn [steps]; lia.
  - apply bound_last. intro s. pose proof (bound_timetype s) as B.
    change (steps cfg (GBind ?p ?f) s) with (S (steps cfg p s + match reads cfg p s with Done r a => steps cfg (f a) r | _ => 0 end)).
    destruct (reads cfg (g_timetype cfg pd pdt) s); cbn [steps]; lia.
Qed.

(** ** Calls of the iso8601 parsers *)
Lemma no_isos : forall A (g : G A), isos (fun _ _ => False) g -> forall s, iso_calls cfg g s = 0.
Proof.
  intros A g. induction g as [A a|t| | |A p|A B p IHp f IHf|A p IHp|A p IHp|A p IHp q IHq|A B f p IHp|A B p IHp f w|A|A g' IH];
    cbn [isos iso_calls]; intros H s; auto; try contradiction.
  - destruct H as [H1 H2]. rewrite (IHp H1). destruct (reads cfg p s); auto. now rewrite (IHf a (H2 a)).
  - destruct H as [H1 H2]. rewrite (IHp H1). destruct (reads cfg p s); auto. now rewrite (IHq H2).
Qed.
Lemma calls_exact : forall s, iso_calls cfg (g_exact_date_parser cfg pd pdt) s <= 2.
Proof.
  intro s. unfold g_exact_date_parser, g_alt_c, g_last. cbn [iso_calls g_tagv reads].
  assert (L : iso_calls cfg (if last_complete cfg then GComplete (gdo d <- GIso pd;; GRet (Iso8601Date d)) else gdo d <- GIso pd;; GRet (Iso8601Date d)) s = 1).
  { destruct (last_complete cfg); cbn [iso_calls reads]; destruct (pd s); reflexivity. }
  rewrite L. repeat (match goal with |- context [match ?x with _ => _ end] => destruct x end; try lia).
Qed.
Lemma calls_bind0 : forall A B (p : G A) (f : A -> G B) s, (forall a, isos (fun _ _ => False) (f a)) -> iso_calls cfg (GBind p f) s = iso_calls cfg p s.
Proof. intros A B p f s H. cbn [iso_calls]. destruct (reads cfg p s); try lia. rewrite (no_isos _ (f a) (H a)). lia. Qed.
Lemma calls_date : forall s, iso_calls cfg (g_date cfg pd pdt) s <= 2.
Proof.
  intro s. unfold g_date. rewrite calls_bind0; [apply calls_exact|]. intro e. cbn [isos]. split; [|intro; exact I]. split; [exact I|]. intros _.
  split; [apply isos_operator|]. intro op. split; [exact I|]. intros _. split; [|intro; exact I]. intro; apply isos_fuel.
Qed.
Lemma calls_timetype : forall s, iso_calls cfg (g_timetype cfg pd pdt) s <= 2.
Proof.
  intro s. unfold g_timetype.
  change (iso_calls cfg (GAlt ?p ?q) s) with (iso_calls cfg p s + match reads cfg p s with PError => iso_calls cfg q s | _ => 0 end).
  rewrite !calls_bind0 by (intro; exact I). rewrite (no_isos _ (g_amount_expr cfg)) by (intro; apply isos_fuel).
  pose proof (calls_date s). destruct (reads _ _ s); lia.
Qed.
Lemma calls_until : forall s, iso_calls cfg (g_until_spec cfg pd pdt) s <= 2.
Proof.
  intro s. unfold g_until_spec, g_alt_c.
  change (iso_calls cfg (GAlt ?p ?q) s) with (iso_calls cfg p s + match reads cfg p s with PError => iso_calls cfg q s | _ => 0 end).
  set (q := g_last cfg _). assert (Q : iso_calls cfg q s = 0).
  { apply no_isos, isos_last. cbn [isos]. split; [apply isos_integer|]. intro. repeat split. }
  rewrite Q. match goal with |- ?x + ?y <= 2 => assert (x <= 2); [|destruct (reads _ _ s); lia] end.
  change (iso_calls cfg (GComplete ?g) s) with (iso_calls cfg g s).
  change (iso_calls cfg (GBind ?p ?f) s) with (iso_calls cfg p s + match reads cfg p s with Done r a => iso_calls cfg (f a) r | _ => 0 end).
  change (iso_calls cfg (GTag "until") s) with 0. destruct (reads cfg (GTag "until") s) as [r a| | |]; try lia.
  change (iso_calls cfg (GBind ?p ?f) r) with (iso_calls cfg p r + match reads cfg p r with Done r a => iso_calls cfg (f a) r | _ => 0 end).
  change (iso_calls cfg GSp r) with 0. destruct (reads cfg GSp r) as [r2 a2| | |]; try lia.
  rewrite calls_bind0 by (intro; exact I). pose proof (calls_exact r2). lia.
Qed.
(** The end of an iteration is looked for only when the iteration has been read; after that there is no going back. *)
Lemma calls_iterator : forall s, iso_calls cfg (g_iterator cfg pd pdt) s <= 4 /\
  (match reads cfg (g_iterator cfg pd pdt) s with PError | Incomplete => iso_calls cfg (g_iterator cfg pd pdt) s <= 2 | _ => True end).
Proof.
  intro s. unfold g_iterator.
  set (f := fun d : pdate => _). change (iso_calls cfg (GBind ?p ?h) s) with (iso_calls cfg p s + match reads cfg p s with Done r a => iso_calls cfg (h a) r | _ => 0 end).
  change (reads cfg (GBind ?p ?h) s) with (pbind (reads cfg p) (fun a => reads cfg (h a)) s). unfold pbind at 1.
  change (reads cfg (GOpt GSp) s) with (Done (skip_spaces s) (Some tt)). change (iso_calls cfg (GOpt GSp) s) with 0. cbv iota beta. cbn [plus].
  set (s1 := skip_spaces s). clearbody s1. clear s.
  assert (F : forall d r, iso_calls cfg (f d) r <= 2 /\ (match reads cfg (f d) r with PError | Incomplete => iso_calls cfg (f d) r = 0 | _ => True end)).
  { intros d r. unfold f. clear f.
    change (iso_calls cfg (GBind ?p ?h) r) with (iso_calls cfg p r + match reads cfg p r with Done r a => iso_calls cfg (h a) r | _ => 0 end).
    change (reads cfg (GBind ?p ?h) r) with (pbind (reads cfg p) (fun a => reads cfg (h a)) r). unfold pbind at 1.
    change (reads cfg (GOpt GSp) r) with (Done (skip_spaces r) (Some tt)). change (iso_calls cfg (GOpt GSp) r) with 0. cbv iota beta. cbn [plus].
    set (r1 := skip_spaces r). clearbody r1. clear r.
    change (iso_calls cfg (GBind ?p ?h) r1) with (iso_calls cfg p r1 + match reads cfg p r1 with Done r a => iso_calls cfg (h a) r | _ => 0 end).
    change (reads cfg (GBind ?p ?h) r1) with (pbind (reads cfg p) (fun a => reads cfg (h a)) r1). unfold pbind at 1.
    rewrite (no_isos _ (g_iter_spec cfg)) by apply isos_iter_spec. cbn [plus].
    destruct (reads cfg (g_iter_spec cfg) r1) as [r2 sp2| | |]; try (split; [lia|]; try exact I; reflexivity).
    change (iso_calls cfg (GBind ?p ?h) r2) with (iso_calls cfg p r2 + match reads cfg p r2 with Done r a => iso_calls cfg (h a) r | _ => 0 end).
    change (reads cfg (GBind ?p ?h) r2) with (pbind (reads cfg p) (fun a => reads cfg (h a)) r2). unfold pbind at 1.
    change (reads cfg (GOpt GSp) r2) with (Done (skip_spaces r2) (Some tt)). change (iso_calls cfg (GOpt GSp) r2) with 0. cbv iota beta. cbn [plus].
    set (r3 := skip_spaces r2). clearbody r3. clear r2.
    rewrite calls_bind0 by (intro; exact I). change (iso_calls cfg (GOpt (GComplete ?g)) r3) with (iso_calls cfg g r3).
    split; [apply calls_until|]. cbn [reads]. unfold pbind, opt, complete.
    destruct (reads cfg (g_until_spec cfg pd pdt) r3); exact I. }
  clearbody f.
  change (iso_calls cfg (GBind ?p ?h) s1) with (iso_calls cfg p s1 + match reads cfg p s1 with Done r a => iso_calls cfg (h a) r | _ => 0 end).
  change (reads cfg (GBind ?p ?h) s1) with (pbind (reads cfg p) (fun a => reads cfg (h a)) s1). unfold pbind at 1.
  pose proof (calls_date s1) as D. destruct (reads cfg (g_date cfg pd pdt) s1) as [r d| | |]; try (split; [lia|]; try exact I; lia).
  destruct (F d r) as [F1 F2]. split; [lia|]. destruct (reads cfg (f d) r); try exact I; lia.
Qed.
Lemma calls_parse : forall md now1 now2 s, iso_calls cfg (g_do_parse cfg pd pdt md now1 now2) s <= 4.
Proof.
  intros md now1 now2 s. unfold g_do_parse, g_alt_c.
  change (iso_calls cfg (GAlt ?p ?q) s) with (iso_calls cfg p s + match reads cfg p s with PError => iso_calls cfg q s | _ => 0 end).
  set (q := g_last cfg _). assert (Q : iso_calls cfg q s <= 2).
  { unfold q, g_last. clear q. destruct (last_complete cfg); [match goal with |- iso_calls cfg (GComplete ?g) s <= 2 => change (iso_calls cfg g s <= 2) end|];
      (rewrite calls_bind0 by (intro; exact I); apply calls_timetype). }
  change (iso_calls cfg (GComplete ?g) s) with (iso_calls cfg g s).
  rewrite calls_bind0 by (intro; exact I). destruct (calls_iterator s) as [C1 C2].
  match goal with |- context [reads cfg (GComplete (GBind ?p ?h)) s] =>
    change (reads cfg (GComplete (GBind p h)) s) with (complete (pbind (reads cfg p) (fun a => reads cfg (h a))) s) end.
  unfold complete, pbind. destruct (reads cfg (g_iterator cfg pd pdt) s); cbn [reads pret]; try lia.
Qed.
End Bounds2.
