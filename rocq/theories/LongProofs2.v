(** parse() takes as much of the text as possible: dates, steps, bounds, iterators, whole texts. *)
Require Import ZArith Bool List String Ascii Lia ZifyBool.
From Verif Require Import Prelude Spec Chrono TimeType Iter SpecTree Nom ParserTimetype ParserIterator ParserMod SpecText SpecDoc SpecLong
  NomProofs ParserProofs ParserProofs2 ParserProofs3 DocProofs LongProofs.
Import ListNotations.
Local Open Scope string_scope.
Local Open Scope Z_scope.

Section Long.
Variable cfg : nom_cfg.
Variable pd : parser isodate.
Variable pdt : parser (isodate * isotime).
Hypothesis Fpd : forall s, fine pd s.
Hypothesis Fpdt : forall s, fine pdt s.

(** ** Dates *)
Definition op_part : parser (operator * amountexpr) :=
  pdo _ <- sp;; pdo op <- operator_parser;; pdo _ <- sp;; pdo a <- amount_expr cfg;; pret (op, a).
Lemma op_part_begin : forall b1 op b2 e t rest, blanks b1 -> blanks b2 -> expr_text e t ->
  op_part (b1 ++ op_text op ++ b2 ++ t ++ rest) = pbind (amount_expr cfg) (fun a => pret (op, a)) (skip_spaces t ++ rest) /\
  exists t', t' = skip_spaces t /\ expr_text e t'.
Proof.
  intros b1 op b2 e t rest B1 B2 T. unfold op_part. unfold pbind at 1, sp at 1. rewrite skip_app by exact B1. rewrite skip_stop by apply op_no_blank.
  unfold pbind at 1. rewrite op_ok. unfold pbind at 1, sp at 1. rewrite skip_app by exact B2.
  destruct (expr_text_drop _ _ T) as (b & s2 & E1 & E2 & E3 & E4). subst t. rewrite app_assoc. rewrite (skip_app b (s2 ++ rest)) by exact E2. rewrite (skip_app b s2) by exact E2.
  rewrite (skip_stop s2) by exact E4. rewrite skip_stop by (rewrite starts_app by (eapply expr_text_nonempty; exact E3); exact E4).
  split; [reflexivity|]. exists s2. split; [reflexivity|exact E3].
Qed.
Lemma fine_op_part : forall s, fine op_part s.
Proof.
  intro s. unfold op_part. apply fine_bind; [apply fine_sp|]. intros r1 a1 S1. apply fine_bind; [apply eats_fine; apply eats_operator|]. intros r2 a2 S2.
  apply fine_bind; [apply fine_sp|]. intros r3 a3 S3. apply fine_bind; [apply eats_fine; apply eats_expr|]. intros. apply fine_ret.
Qed.
Lemma date_eq : forall s, date cfg pd pdt s = (pdo x <- exact_date_parser cfg pd pdt;; pdo o <- opt (complete op_part);; pret (Date x o)) s.
Proof. reflexivity. Qed.
Lemma date_long : forall d s r, date_begins pd pdt d s r -> exists r' d', date cfg pd pdt s = Done r' d' /\ (length r' <= length r)%nat.
Proof.
  intros d s r [x s0 r0 X|x s0 b1 op b2 e t b3 r0 X B1 B2 T B3]; rewrite date_eq; unfold pbind at 1; rewrite (exact_reads_ok cfg _ _ _ _ _ X).
  - pose proof (fine_op_part r0) as F. unfold pbind, opt, complete, fine in *. destruct (op_part r0) as [r1 o| | |]; [| | |contradiction].
    + exists r1, (Date x (Some o)). split; [reflexivity|apply suffix_length; exact F].
    + exists r0, (Date x None). split; [reflexivity|apply le_n].
    + exists r0, (Date x None). split; [reflexivity|apply le_n].
  - destruct (op_part_begin b1 op b2 e t (b3 ++ r0) B1 B2 T) as (E & t' & Et & T'). rewrite <- Et in E. unfold pbind, opt, complete. rewrite E. unfold pbind.
    destruct (expr_long cfg e t' (b3 ++ r0) T') as (r' & e' & D & L). rewrite D. exists r', (Date x (Some (op, e'))). split; [reflexivity|].
    rewrite skip_app in L by exact B3. pose proof (skip_le r0). lia.
Qed.
Lemma exact_fun : forall x x' s r r', exact_reads pd pdt x s r -> exact_reads pd pdt x' s r' -> x = x' /\ r = r'.
Proof. intros x x' s r r' H H'. apply (exact_reads_ok cfg) in H, H'. rewrite H in H'. injection H' as <- <-. split; reflexivity. Qed.
Lemma op_part_whole : forall b1 op b2 e t b3, blanks b1 -> blanks b2 -> expr_text e t -> blanks b3 -> op_part (b1 ++ op_text op ++ b2 ++ t ++ b3) = Done "" (op, e).
Proof.
  intros b1 op b2 e t b3 B1 B2 T B3. destruct (op_part_begin b1 op b2 e t b3 B1 B2 T) as (E & t' & Et & T'). rewrite E, <- Et. unfold pbind.
  rewrite (expr_whole cfg e t' b3 T' B3). reflexivity.
Qed.
Lemma date_begins_fun : forall d d' s r r', date_begins pd pdt d s r -> date_begins pd pdt d' s r' -> length r = length r' -> d = d' /\ r = r'.
Proof.
  assert (LT : forall b1 op b2 e t b3 (r : string), expr_text e t -> (length r < length (b1 ++ op_text op ++ b2 ++ t ++ b3 ++ r))%nat).
  { intros b1 op b2 e t b3 r T. rewrite !length_app. destruct op; cbn [op_text length]; lia. }
  intros d d' s r r' [x s0 r0 X|x s0 b1 op b2 e t b3 r0 X B1 B2 T B3] D' L.
  - inversion D' as [x' s1 r1 X' E1 E2 E3|x' s1 b1 op b2 e t b3 r1 X' B1 B2 T B3 E1 E2 E3]; subst.
    + destruct (exact_fun _ _ _ _ _ X X') as [-> ->]. split; reflexivity.
    + destruct (exact_fun _ _ _ _ _ X X') as [-> ->]. pose proof (LT b1 op b2 e t b3 r' T). lia.
  - inversion D' as [x' s1 r1 X' E1 E2 E3|x' s1 b1' op' b2' e' t' b3' r1 X' B1' B2' T' B3' E1 E2 E3]; subst.
    + destruct (exact_fun _ _ _ _ _ X X') as [_ E]. pose proof (LT b1 op b2 e t b3 r0 T) as LL. rewrite E in LL. lia.
    + destruct (exact_fun _ _ _ _ _ X X') as [<- E].
      assert (R : r0 = r').
      { apply (suffix_same r0 r' (b1 ++ op_text op ++ b2 ++ t ++ b3 ++ r0)); [|rewrite E|exact L]; rewrite <- !app_assoc; apply suffix_app. }
      subst r'. split; [|reflexivity]. rewrite <- !app_assoc in E. apply prefix_same in E. rewrite !app_assoc in E.
      pose proof (op_part_whole b1 op b2 e t b3 B1 B2 T B3) as W. rewrite E, (op_part_whole b1' op' b2' e' t' b3') in W by assumption. congruence.
Qed.
Lemma date_most : forall s r d, date cfg pd pdt s = Done r d <-> most (date_begins pd pdt) d s r.
Proof.
  intros s r d. split.
  - intro H. split; [exact (date_begins_sound _ _ _ _ _ _ H)|]. intros d' r' B. destruct (date_long _ _ _ B) as (r2 & d2 & D & L). congruence.
  - intros [B M]. destruct (date_long _ _ _ B) as (r' & d' & D & L). pose proof (date_begins_sound _ _ _ _ _ _ D) as B'. specialize (M d' r' B').
    destruct (date_begins_fun _ _ _ _ _ B B' ltac:(lia)) as [-> ->]. exact D.
Qed.

(** ** Steps *)
Lemma step_long : forall sp s r, step_begins sp s r -> exists r' sp', iter_spec cfg s = Done r' sp' /\ (length r' <= length r)%nat.
Proof.
  intros sp s rest (t0 & [t a Hin|b1 ds b2 sp' u Hb1 Hds Hv Hb2 Hin] & ->); rewrite iter_spec_tags.
  - exists rest, (adverb_spec a). split; [|apply le_n]. unfold adverbs in Hin. cbn [In] in Hin.
    repeat (destruct Hin as [Hin|Hin]; [injection Hin as <- <-; unfold adverb_specs; repeat (rewrite tags_cons; first [rewrite strip_app; reflexivity|rewrite (strip_none_app _ _ rest) by reflexivity])|]).
    contradiction.
  - rewrite !app_assoc. rewrite tags_none.
    + destruct (unit_long cfg sp' u rest Hin) as (r' & u' & U & Hs).
      assert (E : (pdo _ <- tag "every";; pdo number <- integer cfg;; pdo u0 <- unit_parser cfg;; pret (IEvery number u0)) ("every" ++ b1 ++ ds ++ b2 ++ sp' ++ rest) = Done r' (IEvery (decimal ds) u')).
      { unfold pbind at 1, tag. rewrite strip_app. unfold pbind at 1.
        assert (St : starts letter_char (sp' ++ rest) = true).
        { rewrite starts_app by (eapply spellings_nonempty; exact Hin). apply all_starts; [eapply spellings_nonempty; exact Hin|eapply spellings_letters; exact Hin]. }
        rewrite (integer_ok cfg b1 ds b2 (sp' ++ rest) Hb1 Hds Hb2).
        - destruct (Z.leb_spec (decimal ds) i64_max); [|lia]. unfold pbind. rewrite U. reflexivity.
        - apply (starts_imp letter_char); [exact letter_not_blank|exact St].
        - intros _. apply (starts_imp letter_char); [exact letter_not_digit|exact St]. }
      exists r', (IEvery (decimal ds) u'). split; [|apply suffix_length; exact Hs].
      unfold every_spec, alt_last, complete. destruct (last_complete cfg); rewrite E; reflexivity.
    + intros q a Ht. unfold adverb_specs in Ht. cbn [In] in Ht.
      repeat (destruct Ht as [Ht|Ht]; [injection Ht as <- <-; apply no_begin2; reflexivity|]). contradiction.
Qed.
Lemma step_most : forall s r sp, iter_spec cfg s = Done r sp <-> most step_begins sp s r.
Proof.
  intros s r sp. split.
  - intro H. split; [exact (step_sound _ _ _ _ H)|]. intros sp' r' B. destruct (step_long _ _ _ B) as (r2 & d2 & D & L). congruence.
  - intros [B M]. destruct (step_long _ _ _ B) as (r' & sp' & D & L). pose proof (step_sound _ _ _ _ D) as B'. specialize (M sp' r' B').
    destruct B as (t & T & S), B' as (t' & T' & S').
    assert (R : r = r') by (apply (suffix_same r r' s); [rewrite S; apply suffix_app|rewrite S'; apply suffix_app|lia]). subst r'.
    rewrite S in S'. apply prefix_same in S'. subst t'. pose proof (step_ok cfg sp t "" T eq_refl) as W. rewrite (step_ok cfg sp' t "" T' eq_refl) in W.
    injection W as ->. exact D.
Qed.

(** ** Bounds *)
Lemma bound_takes_ok : forall u s r, bound_takes pd pdt u s r -> until_spec cfg pd pdt s = Done r u.
Proof.
  intros u s r [x s0 r0 X|b1 ds b2 r0 B1 Hds Hv B2]; unfold until_spec, alt_c, alt, complete at 1.
  - unfold pbind at 1, tag at 1. rewrite strip_app. unfold pbind at 1, sp at 1. rewrite drop_skip in X. unfold pbind at 1. rewrite (exact_reads_ok cfg _ _ _ _ _ X). reflexivity.
  - assert (T : tag "until" (b1 ++ ds ++ b2 ++ "times" ++ r0) = PError).
    { assert (N : forall c, blank_char c = true \/ digit_char c = true -> Ascii.eqb "u" c = false).
      { intros c H. destruct (Ascii.eqb_spec "u" c) as [<-|]; [destruct H as [H|H]; discriminate H|reflexivity]. }
      destruct b1 as [|c b1].
      - destruct Hds as [H1 H2]. destruct ds as [|c ds]; [congruence|]. cbn [all] in H1. apply andb_true_iff in H1. destruct H1 as [H1 _].
        unfold tag. cbn [append strip too_short]. rewrite N by (right; exact H1). reflexivity.
      - unfold blanks in B1. cbn [all] in B1. apply andb_true_iff in B1. destruct B1 as [H1 _].
        unfold tag. cbn [append strip too_short]. rewrite N by (left; exact H1). reflexivity. }
    assert (E : (pdo num <- integer cfg;; pdo _ <- sp;; pdo _ <- tag "times";; pret (UTimes num)) (b1 ++ ds ++ b2 ++ "times" ++ r0) = Done r0 (UTimes (decimal ds))).
    { unfold pbind at 1. rewrite (integer_ok cfg b1 ds b2 ("times" ++ r0) B1 Hds B2 eq_refl (fun _ => eq_refl)).
      destruct (Z.leb_spec (decimal ds) i64_max); [|lia]. unfold pbind, sp. rewrite skip_stop by reflexivity. unfold tag. rewrite strip_app. reflexivity. }
    unfold pbind at 1. rewrite T. unfold alt_last, complete. destruct (last_complete cfg); rewrite E; reflexivity.
Qed.
Lemma bound_takes_sound : forall s r u, until_spec cfg pd pdt s = Done r u -> bound_takes pd pdt u s r.
Proof.
  intros s r u H. unfold until_spec, alt_c, alt in H.
  set (p1 := pdo _ <- tag "until";; pdo _ <- sp;; pdo exact <- exact_date_parser cfg pd pdt;; pret (UExact exact)) in *.
  set (p2 := pdo num <- integer cfg;; pdo _ <- sp;; pdo _ <- tag "times";; pret (UTimes num)) in *.
  assert (Q1 : forall r1 u1, p1 s = Done r1 u1 -> bound_takes pd pdt u1 s r1).
  { intros r1 u1 E. unfold p1, pbind, tag in E. destruct (strip "until" s) as [r2|] eqn:Es; [|destruct (too_short "until" s); discriminate E].
    apply strip_some in Es. unfold sp in E. destruct (exact_date_parser cfg pd pdt (skip_spaces r2)) as [r4 x| | |] eqn:Ex; try discriminate E.
    injection E as <- <-. apply exact_sound in Ex. rewrite Es. apply BT_until. rewrite drop_skip. exact Ex. }
  assert (Q2 : forall r1 u1, p2 s = Done r1 u1 -> bound_takes pd pdt u1 s r1).
  { intros r1 u1 E. unfold p2, pbind in E. destruct (integer cfg s) as [r2 n| | |] eqn:Ei; try discriminate E. unfold sp in E. destruct (skip_split r2) as (b & B & S).
    unfold tag in E. destruct (strip "times" (skip_spaces r2)) as [r4|] eqn:Es; [|destruct (too_short "times" (skip_spaces r2)); discriminate E].
    injection E as <- <-. apply strip_some in Es. apply integer_sound in Ei. destruct Ei as (b1 & ds & b2 & S1 & B1 & Hd & B2 & V & R).
    rewrite S1, S, Es. subst n. replace (b1 ++ ds ++ b2 ++ b ++ "times" ++ r4) with (b1 ++ ds ++ (b2 ++ b) ++ "times" ++ r4) by (rewrite !app_assoc; reflexivity).
    apply BT_times; try assumption; [lia|apply blanks_app; assumption]. }
  assert (Q3 : forall r1 u1, alt_last cfg p2 s = Done r1 u1 -> bound_takes pd pdt u1 s r1).
  { intros r1 u1 E. unfold alt_last, complete in E. destruct (last_complete cfg); [|exact (Q2 _ _ E)].
    destruct (p2 s) eqn:E2; try discriminate E. injection E as <- <-. exact (Q2 _ _ eq_refl). }
  unfold complete in H. destruct (p1 s) as [r1 u1| | |] eqn:E1; try discriminate H.
  - injection H as <- <-. exact (Q1 _ _ eq_refl).
  - exact (Q3 _ _ H).
  - exact (Q3 _ _ H).
Qed.
Lemma bound_most : forall s r u, opt (complete (until_spec cfg pd pdt)) s = Done r u <-> bound_read pd pdt u s r.
Proof.
  intros s r u. pose proof (eats_bound cfg pd pdt Fpd Fpdt s) as F. unfold opt, complete. split.
  - intro H. destruct (until_spec cfg pd pdt s) as [r1 b| | |] eqn:E; try discriminate H; injection H as <- <-.
    + apply bound_takes_sound. exact E.
    + split; [reflexivity|]. intros b r' B. apply bound_takes_ok in B. congruence.
    + split; [reflexivity|]. intros b r' B. apply bound_takes_ok in B. congruence.
  - destruct u as [b|]; cbn [bound_read].
    + intro B. rewrite (bound_takes_ok _ _ _ B). reflexivity.
    + intros [-> N]. unfold eats in F. destruct (until_spec cfg pd pdt s) as [r1 b| | |] eqn:E; try reflexivity; [|contradiction].
      elim (N b r1). apply bound_takes_sound. exact E.
Qed.

(** ** Iterators *)
Lemma iterator_most : forall s r it, iterator cfg pd pdt s = Done r it <-> iterator_read pd pdt it s r.
Proof.
  intros s r [d sp0 u]. unfold iterator_read. unfold iterator, pbind at 1. rewrite opt_sp. rewrite drop_skip. unfold pbind at 1. split.
  - intro H. destruct (date cfg pd pdt (skip_spaces s)) as [r1 d1| | |] eqn:E1; try discriminate H. unfold pbind at 1 in H. rewrite opt_sp in H.
    unfold pbind at 1 in H. destruct (iter_spec cfg (skip_spaces r1)) as [r2 sp| | |] eqn:E2; try discriminate H.
    unfold pbind at 1 in H. rewrite opt_sp in H. unfold pbind at 1 in H.
    destruct (opt (complete (until_spec cfg pd pdt)) (skip_spaces r2)) as [r3 u1| | |] eqn:E3; try discriminate H. injection H as <- <- <- <-.
    exists r1, r2. rewrite !drop_skip. split; [apply date_most; exact E1|]. split; [apply step_most; exact E2|apply bound_most; exact E3].
  - intros (r1 & r2 & E1 & E2 & E3). rewrite drop_skip in E2, E3. apply date_most in E1. apply step_most in E2. apply bound_most in E3.
    rewrite E1. unfold pbind at 1. rewrite opt_sp. unfold pbind at 1. rewrite E2. unfold pbind at 1. rewrite opt_sp. unfold pbind at 1. rewrite E3. reflexivity.
Qed.

(** ** Whole texts *)
Lemma date_perror : forall s, date cfg pd pdt s = PError <-> ~ keyword s /\ no_iso cfg pd pdt s.
Proof.
  intro s. split; [|intros [K N]; apply date_none; assumption].
  intro H. rewrite date_eq in H. unfold pbind at 1 in H.
  assert (X : exact_date_parser cfg pd pdt s = PError).
  { destruct (exact_date_parser cfg pd pdt s) as [r x| | |]; try discriminate H; [|reflexivity].
    pose proof (fine_op_part r) as F. unfold pbind, opt, complete, fine in *. destruct (op_part r); discriminate H || contradiction. }
  clear H. assert (K : ~ keyword s).
  { intros [[r ->]|[[r ->]|[r ->]]]; [rewrite (exact_reads_ok cfg pd pdt _ _ _ (ER_today pd pdt r)) in X|rewrite (exact_reads_ok cfg pd pdt _ _ _ (ER_yesterday pd pdt r)) in X
      |rewrite (exact_reads_ok cfg pd pdt _ _ _ (ER_tomorrow pd pdt r)) in X]; discriminate X. }
  split; [exact K|]. unfold exact_date_parser, keyword in *. rewrite !keyword_none in X by tauto.
  unfold alt_c, alt, complete, pbind in X. pose proof (Fpdt s) as F. unfold fine in F. unfold no_iso.
  destruct (pdt s) as [r [d t]| | |]; try discriminate X; try contradiction; (split; [tauto|]); unfold alt_last, complete in X;
    destruct (last_complete cfg); destruct (pd s); try discriminate X; tauto.
Qed.
Lemma timetype_most : forall s r t, timetype_parser cfg pd pdt s = Done r t <->
  match t with PTDate d => most (date_begins pd pdt) d s r | PTAmountExpr e => ~ keyword s /\ no_iso cfg pd pdt s /\ most expr_begins e s r end.
Proof.
  intros s r t. unfold timetype_parser, alt. unfold pbind at 1. split.
  - intro H. destruct (date cfg pd pdt s) as [r1 d| | |] eqn:E; try discriminate H.
    + injection H as <- <-. apply date_most. exact E.
    + unfold pbind in H. destruct (amount_expr cfg s) as [r1 e| | |] eqn:Ee; try discriminate H. injection H as <- <-. apply date_perror in E. destruct E as [K N].
      split; [exact K|]. split; [exact N|]. apply expr_most with cfg. exact Ee.
  - destruct t as [d|e].
    + intro M. apply date_most in M. rewrite M. reflexivity.
    + intros (K & N & M). rewrite (proj2 (date_perror s) (conj K N)). apply (expr_most cfg) in M. unfold pbind. rewrite M. reflexivity.
Qed.
Lemma last_done : forall A (p : parser A) s r a, alt_last cfg p s = Done r a <-> p s = Done r a.
Proof. intros A p s r a. unfold alt_last, complete. destruct (last_complete cfg); [|reflexivity]. destruct (p s); split; congruence. Qed.
Lemma no_iterator : forall s, (iterator cfg pd pdt s = PError \/ iterator cfg pd pdt s = Incomplete) <-> forall it r, ~ iterator_read pd pdt it s r.
Proof.
  intro s. split.
  - intros H it r R. apply iterator_most in R. destruct H; congruence.
  - intro N. pose proof (eats_iterator cfg pd pdt Fpd Fpdt s) as E. unfold eats in E. destruct (iterator cfg pd pdt s) as [r it| | |] eqn:I; auto; [|contradiction].
    elim (N it r). apply iterator_most. exact I.
Qed.
Lemma do_parse_reads : forall md now1 now2 s r p, do_parse md cfg pd pdt now1 now2 s = Done r p <->
  exists x, reads cfg pd pdt x s r /\ p = made md now1 now2 x.
Proof.
  intros md now1 now2 s r p. unfold do_parse, alt_c, alt, complete at 1. unfold pbind at 1.
  assert (L : (forall it r', ~ iterator_read pd pdt it s r') ->
    (alt_last cfg (pdo t <- timetype_parser cfg pd pdt;; pret (lower_timetype md now1 t)) s = Done r p <->
     exists x, reads cfg pd pdt x s r /\ p = made md now1 now2 x)).
  { intro N. rewrite last_done. unfold pbind. split.
    - intro H. destruct (timetype_parser cfg pd pdt s) as [r1 t| | |] eqn:E; try discriminate H. injection H as <- <-. apply timetype_most in E.
      exists (AsTimeType t). split; [|reflexivity]. destruct t as [d|e]; [apply R_date; assumption|]. destruct E as (K & I & M). apply R_amount; assumption.
    - intros (x & R & ->). destruct R as [it s r I|d s r _ M|e s r _ K I M]; [elim (N it r I)| |].
      + rewrite (proj2 (timetype_most s r (PTDate d)) M). reflexivity.
      + rewrite (proj2 (timetype_most s r (PTAmountExpr e)) (conj K (conj I M))). reflexivity. }
  pose proof (eats_iterator cfg pd pdt Fpd Fpdt s) as F. unfold eats in F.
  destruct (iterator cfg pd pdt s) as [r1 it| | |] eqn:E.
  - split.
    + intro H. injection H as <- <-. exists (AsIterator it). split; [apply R_iterator; apply iterator_most; exact E|reflexivity].
    + intros (x & R & ->). destruct R as [it' s r I|d s r N M|e s r N K I M].
      * apply iterator_most in I. rewrite E in I. injection I as <- <-. reflexivity.
      * elim (N it r1). apply iterator_most. exact E.
      * elim (N it r1). apply iterator_most. exact E.
  - apply L. apply no_iterator. auto.
  - apply L. apply no_iterator. auto.
  - contradiction.
Qed.
Lemma reads_fun : forall x x' s r r', reads cfg pd pdt x s r -> reads cfg pd pdt x' s r' -> x = x' /\ r = r'.
Proof.
  intros x x' s r r' [it s0 r0 I|d s0 r0 N M|e s0 r0 N K I M] H'; inversion H' as [it' s1 r1 I'|d' s1 r1 N' M'|e' s1 r1 N' K' I' M']; subst.
  - apply iterator_most in I, I'. rewrite I in I'. injection I' as <- <-. split; reflexivity.
  - elim (N' it _ I).
  - elim (N' it _ I).
  - elim (N it' _ I').
  - apply date_most in M, M'. rewrite M in M'. injection M' as <- <-. split; reflexivity.
  - apply date_most in M. rewrite (proj2 (date_perror s0) (conj K' I')) in M. discriminate M.
  - elim (N it' _ I').
  - apply date_most in M'. rewrite (proj2 (date_perror s0) (conj K I)) in M'. discriminate M'.
  - apply (expr_most cfg) in M, M'. rewrite M in M'. injection M' as <- <-. split; reflexivity.
Qed.
Lemma parse_reads : forall md now1 now2 s,
  (exists x r, reads cfg pd pdt x s r /\ parse md cfg pd pdt now1 now2 s = made md now1 now2 x) \/
  ((forall x r, ~ reads cfg pd pdt x s r) /\
   (parse md cfg pd pdt now1 now2 s = Err NomError \/ parse md cfg pd pdt now1 now2 s = Err UnknownParserError /\ last_complete cfg = false)).
Proof.
  intros md now1 now2 s. unfold parse. pose proof (fine_do_parse cfg pd pdt Fpd Fpdt md now1 now2 s) as F. unfold fine in F.
  destruct (do_parse md cfg pd pdt now1 now2 s) as [r p| | |] eqn:E; [| | |contradiction].
  - left. apply do_parse_reads in E. destruct E as (x & R & ->). exists x, r. split; [exact R|reflexivity].
  - right. split; [|left; reflexivity]. intros x r R. pose proof (proj2 (do_parse_reads md now1 now2 s r (made md now1 now2 x)) (ex_intro _ x (conj R eq_refl))). congruence.
  - right. split; [intros x r R; pose proof (proj2 (do_parse_reads md now1 now2 s r (made md now1 now2 x)) (ex_intro _ x (conj R eq_refl))); congruence|].
    right. split; [reflexivity|]. destruct (last_complete cfg) eqn:L; [|reflexivity]. exfalso. unfold do_parse, alt_c, alt, alt_last in E. rewrite L in E. unfold complete in E.
    destruct ((pdo it <- iterator cfg pd pdt;; pret (lower_iterator md now1 now2 it)) s); try discriminate E;
      destruct ((pdo t <- timetype_parser cfg pd pdt;; pret (lower_timetype md now1 t)) s); discriminate E.
Qed.
End Long.
