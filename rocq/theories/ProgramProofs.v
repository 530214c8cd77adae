(** The command line program agrees with the reference evaluator. *)
Require Import ZArith Bool List String Lia.
From Verif Require Import Prelude Spec Chrono TimeType Iter SpecTree SpecMoment SpecIter SpecAdapt SpecValue Nom ParserTimetype ParserIterator ParserMod SpecText SpecDoc SpecLong SpecValue2 Show Cli SpecCli SpecProgram
  IterProofs LowerProofs DocProofs LongProofs LongProofs2 LongProofs3 ValueProofs ValueProofs2 ValueProofs3 CliProofs CliProofs3.
Import ListNotations.
Local Open Scope string_scope.
Local Open Scope Z_scope.

Lemma sooner_iff : forall a b, sooner a b = true <-> before a b.
Proof. intros a b. unfold sooner, before. rewrite orb_true_iff, andb_true_iff, !Z.ltb_lt, Z.eqb_eq. reflexivity. Qed.
(** What an item is worth, if there is one. *)
Definition agrees (md : mode) (x : option result) (w : option worth) : Prop :=
  match w with None => x = None | Some w => item_is md x w end.
Lemma printed_mk : forall u n, pretty_print (mk u n) = Value (show_int n ++ " " ++ word u).
Proof. destruct u; reflexivity. Qed.
Lemma print_shown : forall md ui w, (forall k, agrees md (nth_item (user_next md) k ui) (w k)) -> forall n k,
  md = Checked \/ snd (items_shown n k w) <> Panics PArith -> blurred (print_items md n (after (user_next md) k ui)) = items_shown n k w.
Proof.
  intros md ui w A. induction n as [|n IH]; intros k Hok; [reflexivity|]. cbn [print_items items_shown] in *. specialize (A k) as Ak. unfold nth_item in Ak.
  specialize (IH (S k)). rewrite after_S in IH.
  destruct (user_next md (after (user_next md) k ui)) as [x ui']. cbn [fst snd] in *.
  destruct (w k) as [v|]; cbn [agrees option_map] in *; [|subst x; reflexivity].
  assert (Go : forall s r, pretty_print r = Value s -> (md = Checked \/ snd (items_shown n (S k) w) <> Panics PArith) ->
    blurred (let '(l, e) := print_items md n ui' in (pretty_print r :: l, e)) = (Value s :: fst (items_shown n (S k) w), snd (items_shown n (S k) w))).
  { intros s r E O. rewrite <- (IH O), E. destruct (print_items md n ui'). reflexivity. }
  destruct Ak as [[-> ->]|(r & -> & R)].
  - cbn [show_worth] in Hok. destruct Hok as [C|C]; [discriminate C|elim C; reflexivity].
  - destruct v as [u c|m| | |a b]; cbn [worth_result show_worth] in *.
    + subst r. apply Go; [apply printed_mk|exact Hok].
    + subst r. apply Go; [reflexivity|exact Hok].
    + destruct R as (y & mo & d & h & mi & s & ->). reflexivity.
    + subst r. reflexivity.
    + subst r. reflexivity.
Qed.

Section Program.
Variable cfg : nom_cfg.
Variable pd : parser isodate.
Variable pdt : parser (isodate * isotime).
Hypothesis F1 : forall s, fine pd s.
Hypothesis F2 : forall s, fine pdt s.
Hypothesis Hpd : forall s r d, pd s = Done r d -> isodate_ok d.
Hypothesis Hpdt : forall s r d t, pdt s = Done r (d, t) -> isodate_ok d /\ isotime_ok t.

Definition outputs (md : mode) (n : nat) (o : outcome kek parsed) : list line * ending :=
  match o with
  | Err e => ([ParseError e], Exits 0)
  | Ok (PTimeType t) =>
      match calculate md t with Ok r => ([pretty_print r], Exits 0) | Err e => ([CalcError e], Exits 0) | Panic p => ([], Panics p) | OutOfFuel => ([], Stuck) end
  | Ok (PIterator (Ok ui)) => print_items md n ui
  | Ok (PIterator (Err e)) => ([BuildError e], Exits 0)
  | Ok (PIterator (Panic p)) | Panic p => ([], Panics p)
  | Ok (PIterator OutOfFuel) | OutOfFuel => ([], Stuck)
  end.
Lemma text_outputs : forall md now p n, dt_valid now = true -> reading_ok p -> (md = Checked \/ snd (text_shown now p) <> Panics PArith) ->
  blurred (outputs md n (lower_timetype md now p)) = text_shown now p.
Proof.
  intros md now p n Hn Hp Hok. pose proof (text_mode md now p Hn Hp) as T. unfold lower_timetype.
  assert (S0 : match p with
    | PTDate (Date x _) => match exactdate_into md now x with Ok _ => starts_in x = true | Err (OutOfBounds _ _ _ _ _ _) => starts_in x = false | _ => False end
    | _ => True end).
  { destruct p as [[x o]|e]; [|exact I]. pose proof (starts_lowered md now x (proj1 Hp)) as Q. destruct (exactdate_into md now x); try exact Q. apply Q. }
  assert (St : (match p with PTDate (Date x _) => negb (starts_in x) | _ => false end = true /\ exists y mo d h mi s, ptimetype_into md now p = Err (OutOfBounds y mo d h mi s)) \/
    (match p with PTDate (Date x _) => negb (starts_in x) | _ => false end = false /\ ((exists t, ptimetype_into md now p = Ok t) \/ ptimetype_into md now p = Panic PArith))).
  { destruct p as [[x o]|e].
    - cbn [ptimetype_into date_into]. destruct (exactdate_into md now x) as [b|er| |]; try contradiction; cbn [bind].
      + right. rewrite S0. split; [reflexivity|]. destruct o as [[op e]|]; [|left; eexists; reflexivity].
        destruct (expr_lower e (proj2 Hp)) as [E1 E2]. pose proof (expr_good md e (proj2 Hp)) as G. destruct (numbers_fit e).
        * rewrite (E1 eq_refl md). left. destruct op; eexists; reflexivity.
        * destruct md; [rewrite (E2 eq_refl); right; destruct op; reflexivity|]. destruct (amountexpr_into Wrapping e); cbn in G; try contradiction; try (destruct G; discriminate); left; destruct op; eexists; reflexivity.
      + destruct er; try contradiction. left. rewrite S0. split; [reflexivity|]. repeat eexists.
    - right. split; [reflexivity|]. cbn [ptimetype_into]. destruct (expr_lower e Hp) as [E1 E2]. pose proof (expr_good md e Hp) as G. destruct (numbers_fit e).
      + rewrite (E1 eq_refl md). left. eexists. reflexivity.
      + destruct md; [right; apply E2; reflexivity|]. destruct (amountexpr_into Wrapping e); cbn in G; try contradiction; try (destruct G; discriminate); left; eexists; reflexivity. }
  unfold text_shown in *. destruct St as [[-> (y & mo & d & h & mi & s & ->)]|[Es St]]; [reflexivity|]. rewrite Es in *.
  destruct T as [[-> T]|T]; [rewrite T in Hok; destruct Hok as [C|C]; [discriminate C|elim C; reflexivity]|].
  destruct St as [[t St]|St]; rewrite St in *; cbn [bind outputs] in *.
  - destruct (text_worth now p) as [u c|m| | |a b]; cbn [worth_result show_worth] in *; try (rewrite T; reflexivity).
    + rewrite T. unfold blurred. cbn [fst snd map]. rewrite printed_mk. reflexivity.
    + destruct T as (y & mo & d & h & mi & s & ->). reflexivity.
  - destruct (text_worth now p) as [u c|m| | |a b]; cbn [worth_result show_worth] in *; try discriminate T; [|reflexivity].
    destruct T as (y & mo & d & h & mi & s & T). discriminate T.
Qed.
Lemma iterator_outputs : forall md now1 now2 it o n, iteration_is md now1 now2 it o -> (md = Checked \/ snd (iterator_shown now1 now2 n it) <> Panics PArith) ->
  blurred (outputs md n o) = iterator_shown now1 now2 n it.
Proof.
  intros md now1 now2 [d sp u] o n I Hok. unfold iteration_is in I. unfold iterator_shown in *.
  destruct (in_i64 (step_count sp)).
  2: { destruct Hok as [->|C]; [|elim C; reflexivity]. destruct I as [I| ->]; [discriminate I|reflexivity]. }
  assert (Fr : forall w good f, with_date md w o good -> (md = Checked \/ snd (from_date w f) <> Panics PArith) ->
    (forall m, w = Time m -> good m -> (md = Checked \/ snd (f m) <> Panics PArith) -> blurred (outputs md n o) = f m) -> blurred (outputs md n o) = from_date w f).
  { intros w good f W O K. destruct w as [u0 c|m| | |a b]; cbn [with_date from_date show_worth] in *; try contradiction.
    - apply K; auto.
    - destruct W as (y & mo & dd & h & mi & s & ->). reflexivity.
    - destruct O as [->|C]; [|elim C; reflexivity]. destruct W as [W| ->]; [discriminate W|reflexivity].
    - subst o. reflexivity. }
  apply (Fr _ _ _ I Hok). clear I Hok. intros m _ I Hok. destruct u as [[x|c]|].
  - apply (Fr _ _ _ I Hok). clear I Hok. intros en _ (ui & -> & P) Hok. cbn [outputs].
    apply (print_shown md ui _) with (k := 0%nat); [|exact Hok].
    intro k. specialize (P k). destruct (item_worth m (step_unit sp) (step_count sp) k) as [u0 c|t| | |a b]; cbn [agrees] in *; try exact P.
    destruct P as [P1 P2]. destruct (sooner t en) eqn:E; cbn [agrees].
    + right. exists (Ok (Moment t)). split; [apply P1; apply sooner_iff; exact E|reflexivity].
    + apply P2. intro B. apply sooner_iff in B. congruence.
  - destruct I as (ui & -> & P). cbn [outputs]. apply (print_shown md ui _) with (k := 0%nat); [|exact Hok].
    intro k. specialize (P k). destruct (Z.of_nat k <? c); exact P.
  - destruct I as (ui & -> & P). cbn [outputs]. apply (print_shown md ui _) with (k := 0%nat); [|exact Hok]. intro k. exact (P k).
Qed.
Lemma program_correct : forall md now1 now2 n args x r, dt_valid now1 = true -> dt_valid now2 = true -> reads cfg pd pdt x (trim (join args)) r ->
  (md = Checked \/ snd (program now1 now2 n x) <> Panics PArith) -> blurred (main md cfg pd pdt now1 now2 n args) = program now1 now2 n x.
Proof.
  intros md now1 now2 n args x r H1 H2 Hr Hok. unfold main. set (s := trim (join args)) in *. clearbody s.
  change (blurred (outputs md n (parse md cfg pd pdt now1 now2 s)) = program now1 now2 n x).
  destruct x as [it|p]; cbn [program] in *.
  - apply iterator_outputs; [|exact Hok]. eapply iteration_correct; eassumption.
  - destruct (parse_reads cfg pd pdt F1 F2 md now1 now2 s) as [(x' & r' & Hx & E)|[N _]]; [|elim (N _ _ Hr)].
    destruct (reads_fun cfg pd pdt F1 F2 _ _ _ _ _ Hr Hx) as [<- _]. rewrite E. apply text_outputs; [exact H1| |exact Hok].
    eapply reads_ok; eassumption.
Qed.
Lemma program_nothing : forall md now1 now2 n args, (forall x r, ~ reads cfg pd pdt x (trim (join args)) r) ->
  main md cfg pd pdt now1 now2 n args = ([ParseError NomError], Exits 0) \/
  main md cfg pd pdt now1 now2 n args = ([ParseError UnknownParserError], Exits 0) /\ last_complete cfg = false.
Proof.
  intros md now1 now2 n args N. unfold main.
  destruct (parse_reads cfg pd pdt F1 F2 md now1 now2 (trim (join args))) as [(x & r & Hx & _)|[_ [->|[-> L]]]]; [elim (N _ _ Hx)|left; reflexivity|right; split; [reflexivity|exact L]].
Qed.
(** The arguments, joined by blanks, are a text with white space around it. *)
Lemma program_checked : forall now1 now2 n args w1 s w2 x r, dt_valid now1 = true -> dt_valid now2 = true ->
  concat " " args = w1 ++ s ++ w2 -> spaces w1 -> spaces w2 -> solid s -> reads cfg pd pdt x s r ->
  blurred (main Checked cfg pd pdt now1 now2 n args) = program now1 now2 n x.
Proof.
  intros now1 now2 n args w1 s w2 x r H1 H2 E S1 S2 So Hr. eapply program_correct; [exact H1|exact H2| |left; reflexivity].
  rewrite (main_trimmed args w1 s w2 E S1 S2 So). exact Hr.
Qed.
Lemma program_wrapping : forall now1 now2 n args w1 s w2 x r, dt_valid now1 = true -> dt_valid now2 = true ->
  concat " " args = w1 ++ s ++ w2 -> spaces w1 -> spaces w2 -> solid s -> reads cfg pd pdt x s r -> snd (program now1 now2 n x) <> Panics PArith ->
  blurred (main Wrapping cfg pd pdt now1 now2 n args) = program now1 now2 n x.
Proof.
  intros now1 now2 n args w1 s w2 x r H1 H2 E S1 S2 So Hr N. eapply program_correct; [exact H1|exact H2| |right; exact N].
  rewrite (main_trimmed args w1 s w2 E S1 S2 So). exact Hr.
Qed.
Lemma program_rejects : forall md now1 now2 n args w1 s w2, concat " " args = w1 ++ s ++ w2 -> spaces w1 -> spaces w2 -> solid s -> (forall x r, ~ reads cfg pd pdt x s r) ->
  main md cfg pd pdt now1 now2 n args = ([ParseError NomError], Exits 0) \/
  main md cfg pd pdt now1 now2 n args = ([ParseError UnknownParserError], Exits 0) /\ last_complete cfg = false.
Proof.
  intros md now1 now2 n args w1 s w2 E S1 S2 So N. apply program_nothing. rewrite (main_trimmed args w1 s w2 E S1 S2 So). exact N.
Qed.
End Program.
