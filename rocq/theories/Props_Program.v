(** Property C91: the whole output of the command line program. *)
Require Import ZArith Bool List String Ascii Lia.
From Verif Require Import Prelude Spec Chrono TimeType Iter SpecTree SpecMoment SpecIter SpecAdapt SpecValue Nom ParserTimetype ParserIterator ParserMod SpecText SpecDoc SpecLong SpecValue2 Show Cli SpecCli SpecProgram
  NomProofs ParserProofs3 DocProofs LongProofs LongProofs2 LongProofs3 CliProofs CliProofs3 ParserProofs6 ProgramProofs.
Import ListNotations.
Local Open Scope string_scope.
Local Open Scope Z_scope.

(** C91. The arguments, joined by blanks, are a text [s] with white space around it, and [x] is the reading of [s]. *)
Theorem C91_program : forall cfg pd pdt, (forall s, fine pd s) -> (forall s, fine pdt s) ->
  (forall s r d, pd s = Done r d -> isodate_ok d) -> (forall s r d t, pdt s = Done r (d, t) -> isodate_ok d /\ isotime_ok t) ->
  forall now1 now2 n args w1 s w2 x r, dt_valid now1 = true -> dt_valid now2 = true ->
  concat " " args = w1 ++ s ++ w2 -> spaces w1 -> spaces w2 -> solid s -> reads cfg pd pdt x s r ->
  blurred (main Checked cfg pd pdt now1 now2 n args) = program now1 now2 n x.
Proof. exact program_checked. Qed.
Print Assumptions C91_program.
(** The same without overflow checks, where the checks find nothing. *)
Theorem C91_release : forall cfg pd pdt, (forall s, fine pd s) -> (forall s, fine pdt s) ->
  (forall s r d, pd s = Done r d -> isodate_ok d) -> (forall s r d t, pdt s = Done r (d, t) -> isodate_ok d /\ isotime_ok t) ->
  forall now1 now2 n args w1 s w2 x r, dt_valid now1 = true -> dt_valid now2 = true ->
  concat " " args = w1 ++ s ++ w2 -> spaces w1 -> spaces w2 -> solid s -> reads cfg pd pdt x s r -> snd (program now1 now2 n x) <> Panics PArith ->
  blurred (main Wrapping cfg pd pdt now1 now2 n args) = program now1 now2 n x.
Proof. exact program_wrapping. Qed.
Print Assumptions C91_release.
(** Texts without a reading. *)
Theorem C91_rejects : forall cfg pd pdt, (forall s, fine pd s) -> (forall s, fine pdt s) ->
  forall md now1 now2 n args w1 s w2, concat " " args = w1 ++ s ++ w2 -> spaces w1 -> spaces w2 -> solid s -> (forall x r, ~ reads cfg pd pdt x s r) ->
  main md cfg pd pdt now1 now2 n args = ([ParseError NomError], Exits 0) \/
  main md cfg pd pdt now1 now2 n args = ([ParseError UnknownParserError], Exits 0) /\ last_complete cfg = false.
Proof. exact program_rejects. Qed.
Print Assumptions C91_rejects.

Definition C91_now : datetime := mkdt 2016 2 29 12 0 0 0.
Definition C91_it : piterator := Iterator (Date (Iso8601Date (YMD 2015 12 31)) (Some (Minus, AELast (Amount 2 PWeek)))) IMonthly (Some (UExact Tomorrow)).
Definition C91_text : string := "2015-12-31 - 2 weeks monthly until tomorrow".
Example C91_case : let cfg := mkcfg true true in
  concat " " ["  2015-12-31"; "- 2 weeks"; "monthly until"; "tomorrow"] = "  " ++ C91_text ++ "" /\ spaces "  " /\ solid C91_text /\
  reads cfg toy_dates toy_times (AsIterator C91_it) C91_text "" /\
  program C91_now C91_now 9 (AsIterator C91_it) =
    ([Value "2015-12-17 00:00:00 "; Value "2016-01-17 00:00:00 "; Value "2016-02-17 00:00:00 "], Exits 0).
Proof.
  assert (F1 : forall s, fine toy_dates s) by exact (table_fine _ _). assert (F2 : forall s, fine toy_times s) by exact (table_fine _ _).
  cbv zeta. split; [reflexivity|]. split; [apply (SP_cons " " " "); [cbn; tauto|apply (SP_cons " " ""); [cbn; tauto|constructor]]|].
  split; [apply (solid_visible "2"%char "015-12-31 - 2 weeks monthly until tomorrow" "w"%char "2015-12-31 - 2 weeks monthly until tomorro"); try reflexivity; vm_compute; split; congruence|].
  split; [apply R_iterator; apply (iterator_most (mkcfg true true) _ _ F1 F2); vm_compute; reflexivity|vm_compute; reflexivity].
Qed.
(** An error in the middle of an iteration, a crash, errors of the parser, of the evaluation and of the iterator. *)
Example C91_other_case :
  let far := Date (Iso8601Date (YMD 2015 12 31)) (Some (Plus, AELast (Amount 260128 PYear))) in
  let big := AENext (Amount 9223372036854775807 PYear) Plus (AELast (Amount 1 PSecond)) in
  program C91_now C91_now 9 (AsIterator (Iterator far IYearly None)) = ([Value "+262143-12-31 00:00:00 "; CalcError some_date], Exits 1) /\
  program C91_now C91_now 2 (AsIterator (Iterator (Date Today None) IHourly None)) = ([Value "2016-02-29 12:00:00 "; Value "2016-02-29 13:00:00 "], Running) /\
  program C91_now C91_now 9 (AsTimeType (PTAmountExpr big)) = ([], Panics PArith) /\
  program C91_now C91_now 9 (AsTimeType (PTDate (Date (Iso8601Date (YMD 2015 2 30)) None))) = ([ParseError some_date], Exits 0) /\
  program C91_now C91_now 9 (AsTimeType (PTDate (Date (Iso8601Date (Ordinal 262143 366)) None))) = ([CalcError some_date], Exits 0) /\
  program C91_now C91_now 9 (AsTimeType (PTDate (Date Yesterday (Some (Plus, AELast (Amount 1 PDay)))))) =
    ([CalcError (CannotAdd (Days 1) (Moment (mkdt 2016 2 28 12 0 0 0)))], Exits 0) /\
  program C91_now C91_now 9 (AsIterator (Iterator (Date (Iso8601Date (YMD 2015 2 30)) None) IDaily None)) = ([BuildError some_date], Exits 0) /\
  forall x r, ~ reads (mkcfg true true) toy_dates toy_times x "next week" r.
Proof.
  cbv zeta. refine (conj _ (conj _ (conj _ (conj _ (conj _ (conj _ (conj _ _))))))); try (vm_compute; reflexivity).
  assert (F1 : forall s, fine toy_dates s) by exact (table_fine _ _). assert (F2 : forall s, fine toy_times s) by exact (table_fine _ _).
  intros x r R. pose proof (proj2 (do_parse_reads (mkcfg true true) _ _ F1 F2 Checked C91_now C91_now "next week" r (made Checked C91_now C91_now x)) (ex_intro _ x (conj R eq_refl))) as H.
  replace (do_parse _ _ _ _ _ _ _) with (PError (A := outcome kek parsed)) in H by (vm_compute; reflexivity). discriminate H.
Qed.
