(** Property C105: what can be told from the standard output of the program, and leap seconds. *)
Require Import ZArith Bool List String Ascii Lia.
From Verif Require Import Prelude Spec Chrono TimeType Iter SpecTree SpecMoment Nom ParserTimetype ParserIterator ParserMod SpecText SpecDoc SpecLong Show Cli SpecCli SpecProgram SpecAnswer SpecAnswer2
  Stdout SpecStdout NomProofs ParserProofs6 LongProofs LongProofs2 LongProofs3 CliProofs4 StdoutProofs.
Import ListNotations.
Local Open Scope string_scope.
Local Open Scope Z_scope.

(** C105. Values of expressions without leap seconds have none, and errors name none. *)
Theorem C105_leaps : forall md t, tt_ok t = true -> no_leaps t ->
  match calculate md t with Ok v => no_leaps v | Err e => error_no_leaps e | _ => True end.
Proof. exact calculate_leaps. Qed.
Print Assumptions C105_leaps.
(** Two runs that write the same, up to what follows an error, have printed the same lines: values, and errors with everything they name. *)
Theorem C105_same_output : forall cfg pd pdt, iso_parsers pd pdt ->
  forall md md' now1 now2 now1' now2' n n' args args' nom nom' bt bt',
  dt_valid now1 = true -> dt_valid now2 = true -> dt_valid now1' = true -> dt_valid now2' = true -> foreign nom -> foreign nom' ->
  stdout nom bt (fst (main md cfg pd pdt now1 now2 n args)) = stdout nom' bt' (fst (main md' cfg pd pdt now1' now2' n' args')) ->
  fst (main md cfg pd pdt now1 now2 n args) = fst (main md' cfg pd pdt now1' now2' n' args').
Proof. exact same_lines. Qed.
Print Assumptions C105_same_output.
(** If both evaluate an expression, the results are the same. *)
Theorem C105_same_answer : forall cfg pd pdt, iso_parsers pd pdt ->
  forall md md' now1 now2 now1' now2' n n' args args' w1 s w2 w1' s' w2' p p' r r' nom nom' bt bt',
  no_leap now1 -> no_leap now2 -> no_leap now1' -> no_leap now2' -> foreign nom -> foreign nom' ->
  concat " " args = w1 ++ s ++ w2 -> spaces w1 -> spaces w2 -> solid s -> reads cfg pd pdt (AsTimeType p) s r ->
  concat " " args' = w1' ++ s' ++ w2' -> spaces w1' -> spaces w2' -> solid s' -> reads cfg pd pdt (AsTimeType p') s' r' ->
  stdout nom bt (fst (main md cfg pd pdt now1 now2 n args)) = stdout nom' bt' (fst (main md' cfg pd pdt now1' now2' n' args')) ->
  (do t <- text_meant md now1 p; answer md t) = (do t <- text_meant md' now1' p'; answer md' t).
Proof. exact same_answer. Qed.
Print Assumptions C105_same_answer.
(** One line end for each line. *)
Theorem C105_line_ends : forall cfg pd pdt, iso_parsers pd pdt ->
  forall md now1 now2 n args nom bt, dt_valid now1 = true -> dt_valid now2 = true -> line_ends nom = O -> line_ends bt = O ->
  line_ends (stdout nom bt (fst (main md cfg pd pdt now1 now2 n args))) = List.length (fst (main md cfg pd pdt now1 now2 n args)).
Proof. exact counted_lines. Qed.
Print Assumptions C105_line_ends.

Definition C105_noon : datetime := mkdt 2016 2 29 12 0 0 0.
Definition C105_run (now : datetime) (args : list string) : list line := fst (main Checked (mkcfg true true) toy_dates toy_times now now 5 args).
Definition C105_newline : string := String "010" "".
Example C105_parsers : iso_parsers toy_dates toy_times /\ foreign "Alt" /\ no_leap C105_noon.
Proof.
  split; [exact (conj toy_dates_fine (conj toy_times_fine (conj toy_dates_ok toy_times_ok)))|]. split; [|split; reflexivity].
  intros e r r' N E. destruct e; try discriminate E. congruence.
Qed.
(** The output of runs with a value, with an error that names a moment, with values before an error, with an error of nom. *)
Example C105_output_case :
  stdout "Alt" "" (C105_run C105_noon ["1 hour"; "+ 30 min"]) = "90 Minutes" ++ C105_newline /\
  C105_run C105_noon ["1 hour"; "+ 30 min"] = C105_run C105_noon [" 90 min"] /\
  stdout "Alt" "" (C105_run C105_noon ["yesterday + 1 day"]) = "Error calculating: CannotAdd(Days(1), Moment(2016-02-28T12:00:00))" ++ C105_newline /\
  stdout "Alt" "!" (C105_run C105_noon ["2015-12-31 + 260128 years every 1 year"]) =
    "+262143-12-31 00:00:00 " ++ C105_newline ++ "Error calculating: OutOfBounds(262144, 12, 0, 0, 0, 0)!" ++ C105_newline /\
  stdout "Alt" "" (C105_run C105_noon ["2016-02-30 daily"]) = "Failed building iterator: OutOfBounds(2016, 2, 30, 0, 0, 0)" ++ C105_newline /\
  stdout "Alt" "" (C105_run C105_noon ["90 Minutes"]) = "Error -> Alt" ++ C105_newline /\
  line_ends (stdout "Alt" "" (C105_run C105_noon ["today daily"])) = 5%nat.
Proof. repeat split; vm_compute; reflexivity. Qed.
(** Two texts with the same output; their readings, and their result. *)
Example C105_answer_case :
  let sum := AENext (Amount 1 PHour) Plus (AELast (Amount 30 PMinute)) in let one := AELast (Amount 90 PMinute) in
  concat " " ["1 hour"; "+ 30 min"] = "" ++ "1 hour + 30 min" ++ "" /\ concat " " [" 90 min"] = " " ++ "90 min" ++ "" /\
  reads (mkcfg true true) toy_dates toy_times (AsTimeType (PTAmountExpr sum)) "1 hour + 30 min" "" /\
  reads (mkcfg true true) toy_dates toy_times (AsTimeType (PTAmountExpr one)) "90 min" "" /\
  forall md, (do t <- text_meant md C105_noon (PTAmountExpr sum); answer md t) = Ok (Minutes 90).
Proof.
  assert (F1 : forall s, fine toy_dates s) by exact toy_dates_fine. assert (F2 : forall s, fine toy_times s) by exact toy_times_fine.
  assert (N : forall s it r, iterator (mkcfg true true) toy_dates toy_times s = PError -> ~ iterator_read toy_dates toy_times it s r).
  { intros s it r E I. apply (iterator_most (mkcfg true true) _ _ F1 F2) in I. congruence. }
  cbv zeta. split; [reflexivity|]. split; [reflexivity|].
  split; [|split; [|intros []; lazy; reflexivity]];
    (apply R_amount; [intros it0 r0; apply N; vm_compute; reflexivity|intros [[q K]|[[q K]|[q K]]]; discriminate K|split; left; reflexivity|
      apply (expr_most (mkcfg true true)); vm_compute; reflexivity]).
Qed.
(** With a leap second on the clock the same output can stand for different moments. *)
Example C105_leap_case : let leap := mkdt 2016 2 29 12 0 30 1000000000 in let plain := mkdt 2016 2 29 12 0 31 0 in
  dt_valid leap = true /\ dt_valid plain = true /\ C105_run leap ["today"] = [Value "2016-02-29 12:00:31 "] /\ C105_run plain ["today"] = [Value "2016-02-29 12:00:31 "].
Proof. repeat split; vm_compute; reflexivity. Qed.
(** Expressions with an end, with an error, with a sum that loses the fraction of a second. *)
Example C105_leaps_case : let m := mkdt 2016 2 29 12 0 30 999999999 in
  no_leaps (EndOfMonth (Addition (Moment m) (Days 1))) /\ calculate Checked (EndOfMonth (Addition (Moment m) (Days 1))) = Ok (Moment (mkdt 2016 3 31 0 0 0 0)) /\
  calculate Checked (Addition (Days 1) (Moment m)) = Err (CannotAdd (Days 1) (Moment m)) /\
  calculate Checked (Addition (Moment m) (Seconds 1)) = Ok (Moment (mkdt 2016 2 29 12 0 31 0)).
Proof. cbv zeta. repeat split; vm_compute; try reflexivity. Qed.
