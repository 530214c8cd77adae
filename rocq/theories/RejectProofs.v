(** Which error a rejected text gives. *)
Require Import ZArith Bool List String Ascii Lia ZifyBool.
From Verif Require Import Prelude Spec Chrono TimeType Iter SpecTree Nom ParserTimetype ParserIterator ParserMod SpecText SpecDoc SpecLong SpecReject
  Show Cli SpecCli SpecProgram SpecAnswer SpecAnswer2 NomProofs ParserProofs ParserProofs2 ParserProofs3 DocProofs LongProofs LongProofs2 CliProofs CliProofs3 AnswerProofs3.
Import ListNotations.
Local Open Scope string_scope.
Local Open Scope Z_scope.

Lemma tags_waits : forall A (l : list (string * A)) last s, tags l last s = Incomplete -> last s = Incomplete.
Proof. induction l as [|[t v] l IH]; intros last s H; [exact H|]. rewrite tags_cons in H. destruct (strip t s); [discriminate H|]. apply IH. exact H. Qed.
Lemma short_yrs : forall s, too_short "yrs" s = true -> In s [""; "y"; "yr"].
Proof.
  intros [|a [|b [|c s]]]; cbn [too_short]; intro H; [cbn; tauto| | |];
    repeat match goal with H : (_ && _) = true |- _ => apply andb_true_iff in H; destruct H as [?E H]; apply Ascii.eqb_eq in E; subst end;
    [cbn; tauto|cbn; tauto|discriminate H].
Qed.
Lemma short_yearly : forall s, too_short "yearly" s = true -> In s [""; "y"; "ye"; "yea"; "year"; "yearl"].
Proof.
  intros [|a [|b [|c [|d [|e [|f s]]]]]]; cbn [too_short]; intro H; [cbn; tauto| | | | | |];
    repeat match goal with H : (_ && _) = true |- _ => apply andb_true_iff in H; destruct H as [?E H]; apply Ascii.eqb_eq in E; subst end;
    [cbn; tauto|cbn; tauto|cbn; tauto|cbn; tauto|cbn; tauto|discriminate H].
Qed.
Lemma skip_nothing : forall s, skip_spaces s = "" <-> blanks s.
Proof.
  intro s. split.
  - intro H. destruct (skip_split s) as (b & B & E). rewrite H, app_nil in E. subst s. exact B.
  - intro B. rewrite <- (app_nil s). rewrite skip_app by exact B. reflexivity.
Qed.

Section Reject.
Variable cfg : nom_cfg.
Hypothesis L : last_complete cfg = false.

Lemma unit_waits : forall s, unit_parser cfg s = Incomplete <-> In s [""; "y"; "yr"].
Proof.
  intro s. rewrite unit_parser_tags. split.
  - intro H. apply tags_waits in H. unfold alt_last in H. rewrite L, tagv_eq in H. destruct (strip "yrs" s); [discriminate H|].
    destruct (too_short "yrs" s) eqn:E; [|discriminate H]. apply short_yrs. exact E.
  - unfold alt_last. rewrite L. intro H. cbn [In] in H. destruct H as [<-|[<-|[<-|[]]]]; reflexivity.
Qed.
Lemma alias_waits : forall s, unit_alias cfg s = Incomplete <-> In s [""; "y"; "ye"; "yea"; "year"; "yearl"].
Proof.
  intro s. rewrite unit_alias_tags. split.
  - intro H. apply tags_waits in H. unfold alt_last in H. rewrite L, tagv_eq in H. destruct (strip "yearly" s); [discriminate H|].
    destruct (too_short "yearly" s) eqn:E; [|discriminate H]. apply short_yearly. exact E.
  - unfold alt_last. rewrite L. intro H. cbn [In] in H. repeat (destruct H as [<-|H]; [reflexivity|]). contradiction.
Qed.
Lemma integer_waits : forall s, integer cfg s = Incomplete <-> digit_incomplete cfg = true /\ blanks s.
Proof.
  intro s. rewrite <- skip_nothing. unfold integer, map_res, ws, pbind, sp, pret, digit. split.
  - intro H. destruct (skip_spaces s) as [|c r].
    + destruct (digit_incomplete cfg); [split; reflexivity|discriminate H].
    + destruct (span_digits (String c r)) as [[|d ds] q]; [discriminate H|]. destruct (i64_from_str (String d ds)); discriminate H.
  - intros [D ->]. rewrite D. reflexivity.
Qed.
Lemma amount_waits : forall s, amount_parser cfg s = Incomplete <-> unfinished cfg s.
Proof.
  intro s. unfold amount_parser, alt. unfold pbind at 1. split.
  - intro H. assert (A : (pdo a <- unit_alias cfg;; pret (Amount 1 (alias_into a))) s = Incomplete -> unfinished cfg s).
    { intro A. unfold pbind in A. destruct (unit_alias cfg s) as [r a| | |] eqn:E; try discriminate A. apply alias_waits in E. destruct E as [<-|E]; [apply UF_empty|].
      apply UF_adverb. exact E. }
    destruct (integer cfg s) as [r n| | |] eqn:E; [|exact (A H)| |discriminate H].
    + unfold pbind at 1 in H. destruct (unit_parser cfg r) as [r' u| | |] eqn:U; [discriminate H|exact (A H)| |discriminate H].
      apply unit_waits in U. apply integer_sound in E. destruct E as (b1 & ds & b2 & -> & B1 & D & B2 & V & R). apply UF_number; try assumption. lia.
    + apply integer_waits in E. destruct E as [D B]. apply UF_blank; assumption.
  - intro U. destruct U as [|b D B|b1 ds b2 u B1 D V B2 U|u U].
    + destruct (integer cfg "") as [r n| | |] eqn:E; try reflexivity.
      * unfold integer, map_res, ws, pbind, sp, pret, digit in E. cbn [skip_spaces] in E. destruct (digit_incomplete cfg); discriminate E.
      * unfold pbind. rewrite (proj2 (alias_waits "")) by (cbn; tauto). reflexivity.
      * unfold integer, map_res, ws, pbind, sp, pret, digit in E. cbn [skip_spaces] in E. destruct (digit_incomplete cfg); discriminate E.
    + rewrite (proj2 (integer_waits b) (conj D B)). reflexivity.
    + rewrite integer_ok; try assumption.
      * destruct (Z.leb_spec (decimal ds) i64_max) as [_|W]; [|lia]. unfold pbind at 1. rewrite (proj2 (unit_waits u) U). reflexivity.
      * cbn [In] in U. destruct U as [<-|[<-|[<-|[]]]]; reflexivity.
      * intros _. cbn [In] in U. destruct U as [<-|[<-|[<-|[]]]]; reflexivity.
    + assert (I : integer cfg u = PError).
      { pose proof (integer_none cfg "" u eq_refl) as N. cbn [append] in N. cbn [In] in U. repeat (destruct U as [<-|U]; [exact (N eq_refl eq_refl)|]). contradiction. }
      rewrite I. unfold pbind. rewrite (proj2 (alias_waits u)) by (right; exact U). reflexivity.
Qed.
Lemma expr_waits : forall s, amount_expr cfg s = Incomplete <-> unfinished cfg s.
Proof.
  intro s. rewrite <- amount_waits. unfold amount_expr. cbn [amount_expr_fuel]. generalize (length s) as f. intro f. unfold pbind at 1.
  destruct (amount_parser cfg s) as [r a| | |]; [|split; discriminate|split; reflexivity|split; discriminate].
  split; [|discriminate]. intro H. exfalso. unfold pbind, opt, complete, sp, pret in H.
  destruct (operator_parser (skip_spaces r)) as [r1 o| | |]; try discriminate H.
  destruct (amount_expr_fuel cfg f (skip_spaces r1)); discriminate H.
Qed.

Variable pd : parser isodate.
Variable pdt : parser (isodate * isotime).
Hypothesis Fpd : forall s, fine pd s.
Hypothesis Fpdt : forall s, fine pdt s.

Lemma date_waits : forall s, date cfg pd pdt s = Incomplete <-> waits pd pdt s.
Proof.
  intro s. rewrite date_eq. unfold pbind at 1. split.
  - intro H. assert (X : exact_date_parser cfg pd pdt s = Incomplete).
    { destruct (exact_date_parser cfg pd pdt s) as [r x| | |]; try discriminate H; [|reflexivity].
      unfold pbind, opt, complete, pret in H. destruct (op_part cfg r); discriminate H. }
    clear H. assert (K : ~ keyword s).
    { intros [[r ->]|[[r ->]|[r ->]]]; [rewrite (exact_reads_ok cfg pd pdt _ _ _ (ER_today pd pdt r)) in X|rewrite (exact_reads_ok cfg pd pdt _ _ _ (ER_yesterday pd pdt r)) in X
        |rewrite (exact_reads_ok cfg pd pdt _ _ _ (ER_tomorrow pd pdt r)) in X]; discriminate X. }
    split; [exact K|]. unfold exact_date_parser, keyword in *. rewrite !keyword_none in X by tauto.
    unfold alt_c, alt, complete, pbind, alt_last in X. rewrite L in X.
    destruct (pdt s) as [r [d t]| | |]; try discriminate X; (split; [tauto|]); destruct (pd s); try discriminate X; reflexivity.
  - intros (K & T & D). assert (X : exact_date_parser cfg pd pdt s = Incomplete).
    { unfold exact_date_parser, keyword in *. rewrite !keyword_none by tauto. unfold alt_c, alt, complete, pbind, alt_last. rewrite L, D. destruct T as [-> | ->]; reflexivity. }
    rewrite X. reflexivity.
Qed.
Lemma timetype_waits : forall s, timetype_parser cfg pd pdt s = Incomplete <-> waits pd pdt s \/ ~ keyword s /\ no_iso cfg pd pdt s /\ unfinished cfg s.
Proof.
  intro s. rewrite <- date_waits, <- expr_waits. unfold timetype_parser, alt. unfold pbind at 1.
  pose proof (date_perror cfg pd pdt Fpdt s) as P.
  destruct (date cfg pd pdt s) as [r d| | |] eqn:E.
  - split; [discriminate|]. intros [H|(H & N & _)]; [discriminate H|]. pose proof (proj2 P (conj H N)) as Q. discriminate Q.
  - destruct (proj1 P eq_refl) as [K N]. unfold pbind. destruct (amount_expr cfg s); split; try discriminate; try (intros [H|(_ & _ & H)]; discriminate H); auto.
  - split; [left; reflexivity|reflexivity].
  - split; [discriminate|]. intros [H|(H & N & _)]; [discriminate H|]. pose proof (proj2 P (conj H N)) as Q. discriminate Q.
Qed.
End Reject.

Section Whole.
Variable cfg : nom_cfg.
Variable pd : parser isodate.
Variable pdt : parser (isodate * isotime).
Hypothesis Fpd : forall s, fine pd s.
Hypothesis Fpdt : forall s, fine pdt s.

Lemma do_parse_waits : forall md now1 now2 s, do_parse md cfg pd pdt now1 now2 s = Incomplete <-> starved cfg pd pdt s.
Proof.
  intros md now1 now2 s. unfold starved. rewrite <- (no_iterator cfg pd pdt Fpd Fpdt s). unfold do_parse, alt_c, alt, alt_last.
  pose proof (eats_iterator cfg pd pdt Fpd Fpdt s) as E. unfold eats in E. destruct (last_complete cfg) eqn:L; cbn iota.
  - split; [|intros [H _]; discriminate H]. intro H. exfalso. unfold complete in H.
    destruct ((pdo it <- iterator cfg pd pdt;; pret (lower_iterator md now1 now2 it)) s); try discriminate H;
      destruct ((pdo t <- timetype_parser cfg pd pdt;; pret (lower_timetype md now1 t)) s); discriminate H.
  - rewrite <- (timetype_waits cfg L pd pdt Fpdt s). unfold complete, pbind.
    destruct (iterator cfg pd pdt s) as [r it| | |]; [| | |contradiction].
    + split; [discriminate|]. intros (_ & [H|H] & _); discriminate H.
    + destruct (timetype_parser cfg pd pdt s); split; try discriminate; try (intros (_ & _ & H); discriminate H); auto.
    + destruct (timetype_parser cfg pd pdt s); split; try discriminate; try (intros (_ & _ & H); discriminate H); auto.
Qed.
Lemma starved_rejected : forall md now1 now2 s, starved cfg pd pdt s ->
  (forall x r, ~ reads cfg pd pdt x s r) /\ parse md cfg pd pdt now1 now2 s = Err UnknownParserError.
Proof.
  intros md now1 now2 s H. apply (do_parse_waits md now1 now2) in H. split; [|unfold parse; rewrite H; reflexivity].
  intros x r R. pose proof (proj2 (do_parse_reads cfg pd pdt Fpd Fpdt md now1 now2 s r (made md now1 now2 x)) (ex_intro _ x (conj R eq_refl))). congruence.
Qed.
Lemma others_rejected : forall md now1 now2 s, (forall x r, ~ reads cfg pd pdt x s r) -> ~ starved cfg pd pdt s -> parse md cfg pd pdt now1 now2 s = Err NomError.
Proof.
  intros md now1 now2 s N S. rewrite <- (do_parse_waits md now1 now2) in S. unfold parse. pose proof (fine_do_parse cfg pd pdt Fpd Fpdt md now1 now2 s) as F. unfold fine in F.
  destruct (do_parse md cfg pd pdt now1 now2 s) as [r p| | |] eqn:E; [|reflexivity|elim S; reflexivity|contradiction].
  apply (do_parse_reads cfg pd pdt Fpd Fpdt) in E. destruct E as (x & R & _). elim (N _ _ R).
Qed.
Lemma parse_cases : forall md now1 now2 s,
  (exists x r, reads cfg pd pdt x s r /\ parse md cfg pd pdt now1 now2 s = made md now1 now2 x) \/
  (starved cfg pd pdt s /\ parse md cfg pd pdt now1 now2 s = Err UnknownParserError) \/
  ((forall x r, ~ reads cfg pd pdt x s r) /\ ~ starved cfg pd pdt s /\ parse md cfg pd pdt now1 now2 s = Err NomError).
Proof.
  intros md now1 now2 s. destruct (parse_reads cfg pd pdt Fpd Fpdt md now1 now2 s) as [H|[N P]]; [left; exact H|right].
  pose proof (do_parse_waits md now1 now2 s) as W. destruct (do_parse md cfg pd pdt now1 now2 s) as [r p| | |] eqn:E.
  - apply (do_parse_reads cfg pd pdt Fpd Fpdt) in E. destruct E as (x & R & _). elim (N _ _ R).
  - right. assert (S : ~ starved cfg pd pdt s) by (intro S; apply W in S; discriminate S). split; [exact N|]. split; [exact S|]. apply others_rejected; assumption.
  - left. pose proof (proj1 W eq_refl) as S. split; [exact S|]. apply starved_rejected. exact S.
  - right. assert (S : ~ starved cfg pd pdt s) by (intro S; apply W in S; discriminate S). split; [exact N|]. split; [exact S|]. apply others_rejected; assumption.
Qed.
End Whole.

Section Output.
Variable cfg : nom_cfg.
Variable pd : parser isodate.
Variable pdt : parser (isodate * isotime).
Hypothesis Fpd : forall s, fine pd s.
Hypothesis Fpdt : forall s, fine pdt s.
Hypothesis Hpd : forall s r d, pd s = Done r d -> isodate_ok d.
Hypothesis Hpdt : forall s r d t, pdt s = Done r (d, t) -> isodate_ok d /\ isotime_ok t.

Lemma program_cases : forall md now1 now2 n args w1 s w2, dt_valid now1 = true -> dt_valid now2 = true ->
  concat " " args = w1 ++ s ++ w2 -> spaces w1 -> spaces w2 -> solid s ->
  (exists x r, reads cfg pd pdt x s r /\ main md cfg pd pdt now1 now2 n args = exact_program md now1 now2 n x) \/
  (starved cfg pd pdt s /\ main md cfg pd pdt now1 now2 n args = ([ParseError UnknownParserError], Exits 0)) \/
  ((forall x r, ~ reads cfg pd pdt x s r) /\ ~ starved cfg pd pdt s /\ main md cfg pd pdt now1 now2 n args = ([ParseError NomError], Exits 0)).
Proof.
  intros md now1 now2 n args w1 s w2 H1 H2 E S1 S2 So.
  destruct (parse_cases cfg pd pdt Fpd Fpdt md now1 now2 s) as [(x & r & R & _)|[[S P]|(N & S & P)]].
  - left. exists x, r. split; [exact R|]. eapply exact_program_correct; eassumption.
  - right. left. split; [exact S|]. unfold main. rewrite (main_trimmed args w1 s w2 E S1 S2 So), P. reflexivity.
  - right. right. split; [exact N|]. split; [exact S|]. unfold main. rewrite (main_trimmed args w1 s w2 E S1 S2 So), P. reflexivity.
Qed.
(** Every command line. *)
Lemma program_total : forall md now1 now2 n args, dt_valid now1 = true -> dt_valid now2 = true ->
  exists w1 s w2, concat " " args = w1 ++ s ++ w2 /\ spaces w1 /\ spaces w2 /\ solid s /\
  ((exists x r, reads cfg pd pdt x s r /\ main md cfg pd pdt now1 now2 n args = exact_program md now1 now2 n x) \/
   (starved cfg pd pdt s /\ main md cfg pd pdt now1 now2 n args = ([ParseError UnknownParserError], Exits 0)) \/
   ((forall x r, ~ reads cfg pd pdt x s r) /\ ~ starved cfg pd pdt s /\ main md cfg pd pdt now1 now2 n args = ([ParseError NomError], Exits 0))).
Proof.
  intros md now1 now2 n args H1 H2. destruct (trim_spec (concat " " args)) as (w1 & w2 & S1 & S2 & E & So).
  exists w1, (trim (concat " " args)), w2. split; [exact E|]. split; [exact S1|]. split; [exact S2|]. split; [exact So|].
  apply program_cases with w1 w2; assumption.
Qed.
End Output.
