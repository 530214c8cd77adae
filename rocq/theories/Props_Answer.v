(** Properties C92, C93: a reference evaluator for every expression and every text, with exact errors, in both kinds of builds. *)
Require Import ZArith Bool List String Ascii Lia.
From Verif Require Import Prelude Spec Chrono TimeType Iter SpecTree SpecMoment SpecIter SpecWide SpecValue Nom ParserTimetype ParserIterator ParserMod SpecText SpecDoc SpecLong SpecValue2 Show Cli SpecCli SpecProgram SpecAnswer SpecAnswer2
  NomProofs ParserProofs3 ParserProofs6 DocProofs LongProofs2 CliProofs3 AnswerProofs2 AnswerProofs3.
Import ListNotations.
Local Open Scope string_scope.
Local Open Scope Z_scope.

(** C92. *)
Theorem C92_answer : forall md t, tt_ok t = true -> calculate md t = answer md t.
Proof. exact answer_correct. Qed.
Print Assumptions C92_answer.
Theorem C92_calls : forall md m inc it k, dt_valid m = true -> tt_ok inc = true -> build m inc = Ok it -> nth_item (iter_next md) k it = Some (call_answer md m inc k).
Proof. exact built_calls. Qed.
Print Assumptions C92_calls.

Definition C92_now : datetime := mkdt 2016 2 29 12 0 0 0.
Definition C92_last : datetime := mkdt 262143 12 31 23 59 59 0.
Definition C92_trees : list timetype :=
  let now := Moment C92_now in
  [Addition (EndOfMonth now) (Subtraction now (Days 1)); Subtraction (EndOfDay now) (Addition (Hours 3) now);
   Addition (EndOfYear now) (EndOfMonth (Days 3)); EndOfYear (Addition (Days 3) (Hours 1)); Addition (Addition (Days 1) (Hours 1)) (EndOfDay (Seconds 3));
   Addition (Subtraction now (Days 1)) (Addition (Days 1) (Days 2)); Addition (Moment C92_last) (Seconds 1); Subtraction now (Minutes 12345678901);
   Subtraction now (Days 45); EndOfMonth (Addition now (Months 13)); Subtraction (Years 1) (Minutes 1)].
(** Errors and values that are the same in both kinds of builds. *)
Example C92_trees_case : forallb tt_ok C92_trees = true /\ forall md, map (answer md) C92_trees =
  let now := Moment C92_now in
  [Err (CannotAdd (EndOfMonth now) now); Err (CannotSub (Hours 3) (EndOfDay now)); Err (CannotAdd (EndOfMonth (Days 3)) (EndOfYear now));
   Err (CannotCalculateEndOfYearOn (Hours 73)); Err (CannotAdd (Hours 25) (EndOfDay (Seconds 3)));
   Err (CannotAdd (Days 3) (Moment (mkdt 2016 2 28 12 0 0 0))); Err (OutOfBounds 262144 1 0 0 0 0);
   Err (OutOfBounds (-18593) 4294699392 4089206016 4089206016 539223047 0);
   Ok (Moment (mkdt 2016 1 15 12 0 0 0)); Ok (Moment (mkdt 2017 3 31 0 0 0 0)); Ok (Minutes 518399)].
Proof. split; [reflexivity|]. intros []; lazy; reflexivity. Qed.
(** Numbers that do not fit. *)
Example C92_overflow_case :
  let ts := [Addition (Moment C92_now) (Years 9223372036854775807); Subtraction (Moment C92_now) (Seconds (-9223372036854775808)); Addition (Years 9223372036854775807) (Seconds 1)] in
  forallb tt_ok ts = true /\ map (answer Checked) ts = [Panic PArith; Panic PArith; Panic PArith] /\
  map (answer Wrapping) ts = [Ok (Moment (mkdt 2015 3 1 12 0 0 0)); Err (OutOfBounds 2016 2 12 12 572662305 60); Ok (Seconds (-31103999))].
Proof. cbv zeta. refine (conj _ (conj _ _)); lazy; reflexivity. Qed.
(** An iteration that runs out of the calendar. *)
Example C92_calls_case : build C92_last (Hours 12) = Ok (mkiter (Moment C92_last) (Hours 12) false) /\
  forall md, map (call_answer md C92_last (Hours 12)) [0; 1; 2]%nat =
  [Ok (Moment C92_last); Err (OutOfBounds 262144 1 11 11 59 59); Err (OutOfBounds 262144 1 11 11 59 59)].
Proof. split; [reflexivity|]. intros []; lazy; reflexivity. Qed.

(** C93. The arguments, joined by blanks, are a text [s] with white space around it, and [x] is the reading of [s]. *)
Theorem C93_output : forall cfg pd pdt, (forall s, fine pd s) -> (forall s, fine pdt s) ->
  (forall s r d, pd s = Done r d -> isodate_ok d) -> (forall s r d t, pdt s = Done r (d, t) -> isodate_ok d /\ isotime_ok t) ->
  forall md now1 now2 n args w1 s w2 x r, dt_valid now1 = true -> dt_valid now2 = true ->
  concat " " args = w1 ++ s ++ w2 -> spaces w1 -> spaces w2 -> solid s -> reads cfg pd pdt x s r ->
  main md cfg pd pdt now1 now2 n args = exact_program md now1 now2 n x.
Proof. exact exact_program_correct. Qed.
Print Assumptions C93_output.

Definition C93_it : piterator := Iterator (Date (Iso8601Date (YMD 2015 12 31)) (Some (Minus, AELast (Amount 2 PWeek)))) IMonthly (Some (UExact Tomorrow)).
Definition C93_text : string := "2015-12-31 - 2 weeks monthly until tomorrow".
Example C93_case : let cfg := mkcfg true true in
  concat " " ["  2015-12-31"; "- 2 weeks"; "monthly until"; "tomorrow"] = "  " ++ C93_text ++ "" /\ spaces "  " /\ solid C93_text /\
  reads cfg toy_dates toy_times (AsIterator C93_it) C93_text "" /\
  forall md, exact_program md C92_now C92_now 9 (AsIterator C93_it) =
    ([Value "2015-12-17 00:00:00 "; Value "2016-01-17 00:00:00 "; Value "2016-02-17 00:00:00 "], Exits 0).
Proof.
  assert (F1 : forall s, fine toy_dates s) by exact (table_fine _ _). assert (F2 : forall s, fine toy_times s) by exact (table_fine _ _).
  cbv zeta. split; [reflexivity|]. split; [apply (SP_cons " " " "); [cbn; tauto|apply (SP_cons " " ""); [cbn; tauto|constructor]]|].
  split; [apply (solid_visible "2"%char "015-12-31 - 2 weeks monthly until tomorrow" "w"%char "2015-12-31 - 2 weeks monthly until tomorro"); try reflexivity; vm_compute; split; congruence|].
  split; [apply R_iterator; apply (iterator_most (mkcfg true true) _ _ F1 F2); vm_compute; reflexivity|intros []; lazy; reflexivity].
Qed.
(** Overflows and errors: the release build counts weeks backwards, errors name their dates. *)
Example C93_other_case :
  let run md x := exact_program md C92_now C92_now 3 x in
  let far n := Date (Iso8601Date (YMD 2015 12 31)) (Some (Plus, AELast (Amount n PYear))) in
  let weeks := AsIterator (Iterator (far 260127) (IEvery 9223372036854775807 PWeek) (Some (UTimes 2))) in
  run Checked weeks = ([], Panics PArith) /\
  run Wrapping weeks = ([Value "+262142-12-31 00:00:00 "; Value "+262142-12-24 00:00:00 "], Exits 0) /\
  run Wrapping (AsTimeType (PTAmountExpr (AENext (Amount 9223372036854775807 PWeek) Plus (AELast (Amount 1 PSecond))))) = ([Value "-604799 Seconds"], Exits 0) /\
  run Checked (AsTimeType (PTDate (far 260129))) = ([CalcError (OutOfBounds 262144 12 0 0 0 0)], Exits 0) /\
  run Checked (AsIterator (Iterator (far 260128) IYearly None)) = ([Value "+262143-12-31 00:00:00 "; CalcError (OutOfBounds 262144 12 0 0 0 0)], Exits 1) /\
  run Checked (AsIterator (Iterator (far 260129) IDaily None)) = ([BuildError (OutOfBounds 262144 12 0 0 0 0)], Exits 0) /\
  run Checked (AsTimeType (PTDate (Date (Iso8601DateTime (YMD 2015 2 28) (mktime 25 61 7 0 0 0)) None))) = ([ParseError (OutOfBounds 2015 2 28 25 61 7)], Exits 0).
Proof. cbv zeta. refine (conj _ (conj _ (conj _ (conj _ (conj _ (conj _ _)))))); lazy; reflexivity. Qed.
