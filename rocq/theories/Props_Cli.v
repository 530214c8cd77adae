(** Properties C68-C71: the command line program examples/main.rs, and the texts it prints. [main md cfg pd pdt
    now1 now2 n args] is its output up to the first [n] items of an iterator. *)
Require Import ZArith Bool List String Ascii Lia ZifyBool.
From Verif Require Import Prelude Spec Chrono TimeType Iter SpecTree SpecMoment SpecIter SpecAdapt SpecSeq Nom ParserTimetype ParserIterator ParserMod SpecText
  Show Cli SpecCli SpecDebug SpecFormat ParserProofs6 CliProofs CliProofs2 CliProofs3 CliProofs4 ShowProofs2.
Import ListNotations.
Local Open Scope string_scope.
Local Open Scope Z_scope.

Definition noon3 : datetime := mkdt 2016 2 29 12 0 0 0.
Notation demo := (main Checked (mkcfg true true) toy_dates toy_times noon3 noon3).
Definition ok_dates3 (pd : parser isodate) : Prop := forall s r d, pd s = Done r d -> isodate_ok d.
Definition ok_times3 (pdt : parser (isodate * isotime)) : Prop := forall s r d t, pdt s = Done r (d, t) -> isodate_ok d /\ isotime_ok t.

(** C68. Arguments, forms of output, exit status. *)
Theorem C68_arguments : forall cfg pd pdt md now1 now2 n args,
  main md cfg pd pdt now1 now2 n args = main md cfg pd pdt now1 now2 n [concat " " args].
Proof. exact main_concat. Qed.
Print Assumptions C68_arguments.
Theorem C68_white_space : forall cfg pd pdt md now1 now2 n w1 s w2, spaces w1 -> spaces w2 ->
  main md cfg pd pdt now1 now2 n [w1 ++ s ++ w2] = main md cfg pd pdt now1 now2 n [s].
Proof. exact main_white. Qed.
Print Assumptions C68_white_space.
Theorem C68_trim : forall s, exists w1 w2, spaces w1 /\ spaces w2 /\ s = w1 ++ trim s ++ w2 /\ solid (trim s).
Proof. exact trim_spec. Qed.
Print Assumptions C68_trim.
Theorem C68_lines : forall cfg pd pdt md now1 now2 n args l e, main md cfg pd pdt now1 now2 n args = (l, e) ->
  match e with
  | Exits c => (c = 0 /\ (Forall (fun x => exists s, x = Value s) l \/ exists err, l = [ParseError err] \/ l = [CalcError err] \/ l = [BuildError err])) \/
      (c = 1 /\ exists pre err, l = (pre ++ [CalcError err])%list /\ Forall (fun x => exists s, x = Value s) pre)
  | Running => Forall (fun x => exists s, x = Value s) l /\ List.length l = n
  | _ => Forall (fun x => exists s, x = Value s) l
  end.
Proof. exact main_lines. Qed.
Print Assumptions C68_lines.
Theorem C68_status : forall cfg pd pdt md now1 now2 n args, snd (main md cfg pd pdt now1 now2 n args) = Exits 1 <->
  exists ui k e, parse md cfg pd pdt now1 now2 (trim (join args)) = Ok (PIterator (Ok ui)) /\ (k < n)%nat /\
    nth_item (user_next md) k ui = Some (Err e) /\ forall j, (j < k)%nat -> exists v, nth_item (user_next md) j ui = Some (Ok v).
Proof. exact main_status. Qed.
Print Assumptions C68_status.
Theorem C68_printable : forall cfg pd pdt md now1 now2 n args l e t, main md cfg pd pdt now1 now2 n args = (l, e) -> ~ In (CannotPrettyPrint t) l.
Proof. exact main_printable. Qed.
Print Assumptions C68_printable.
Theorem C68_ends : forall cfg pd pdt md now1 now2, (forall s, fine pd s) -> (forall s, fine pdt s) -> ok_dates3 pd -> ok_times3 pdt ->
  dt_valid now1 = true -> dt_valid now2 = true -> forall n args,
  match snd (main md cfg pd pdt now1 now2 n args) with Panics p => allowed md p | Stuck => False | _ => True end.
Proof. exact main_ends. Qed.
Print Assumptions C68_ends.
Example C68_oracles : (forall s, fine toy_dates s) /\ (forall s, fine toy_times s) /\ ok_dates3 toy_dates /\ ok_times3 toy_times.
Proof. exact (conj toy_dates_fine (conj toy_times_fine (conj toy_dates_ok toy_times_ok))). Qed.
Example C68_case :
  demo 5 ["2016-02-29"; "+ 90"; " min"] = ([Value "2016-02-29 01:30:00 "], Exits 0) /\
  demo 5 [String "227" (String "128" (String "128" "3 days ")); ""] = ([Value "3 Days"], Exits 0) /\
  demo 5 [] = ([ParseError NomError], Exits 0).
Proof. repeat split; vm_compute; reflexivity. Qed.
Example C68_case_status :
  demo 5 ["2016-02-30 daily"] = ([BuildError (OutOfBounds 2016 2 30 0 0 0)], Exits 0) /\
  demo 5 ["yesterday + 1 day"] = ([CalcError (CannotAdd (Days 1) (Moment (mkdt 2016 2 28 12 0 0 0)))], Exits 0) /\
  demo 5 ["2015-12-31 + 260128 years every 1 year"] = ([Value "+262143-12-31 00:00:00 "; CalcError (OutOfBounds 262144 12 0 0 0 0)], Exits 1) /\
  demo 5 ["5000000000000000000 weeks"] = ([], Panics PArith).
Proof. repeat split; vm_compute; reflexivity. Qed.

(** C69. The lines printed for amounts and iterator expressions. *)
Theorem C69_amounts : forall cfg pd pdt md now1 now2 n args w1 s w2 e, concat " " args = w1 ++ s ++ w2 -> spaces w1 -> spaces w2 -> expr_text e s ->
  starts blank_char s = false -> no_iso cfg pd pdt s -> total e <= i64_max ->
  exists v, v * unit_secs (expr_unit e) = right_value e /\
    main md cfg pd pdt now1 now2 n args = ([Value (show_int v ++ " " ++ word (expr_unit e))], Exits 0).
Proof. exact main_amounts. Qed.
Print Assumptions C69_amounts.
(** [s] is the text without surrounding white space: a date [d], a step [sp] of at most thirty days, a bound. *)
Theorem C69_endless : forall cfg pd pdt md now1 now2, ok_dates3 pd -> ok_times3 pdt -> dt_valid now1 = true -> dt_valid now2 = true ->
  forall args w1 w2 d s r1 sp t r2 b, concat " " args = w1 ++ s ++ w2 -> spaces w1 -> spaces w2 -> solid s ->
  date_reads pd pdt d s r1 -> drop_blanks r1 = t ++ r2 -> step_text sp t -> starts letter_char r2 = false -> in_i64 (step_count sp) = true ->
  (do x <- date_into md now1 d; calculate md x) = Ok (Moment b) -> clock_unit (step_unit sp) = true ->
  step_count sp * unit_secs (step_unit sp) <= 30 * 86400 ->
  forall n, bound_reads pd pdt None (drop_blanks r2) ->
  inst b + Z.of_nat n * (step_count sp * unit_secs (step_unit sp)) < instant (max_year + 1) 1 1 0 0 0 ->
  exists l, main md cfg pd pdt now1 now2 n args = (map (fun m => Value (show_moment m ++ " ")) l, Running) /\ List.length l = n /\
    forall k m, nth_error l k = Some m -> dt_valid m = true /\ inst m = inst b + Z.of_nat k * (step_count sp * unit_secs (step_unit sp)) /\ nano m = (if (k =? 0)%nat then nano b else 0).
Proof. exact main_plain. Qed.
Print Assumptions C69_endless.
Theorem C69_times : forall cfg pd pdt md now1 now2, ok_dates3 pd -> ok_times3 pdt -> dt_valid now1 = true -> dt_valid now2 = true ->
  forall args w1 w2 d s r1 sp t r2 b, concat " " args = w1 ++ s ++ w2 -> spaces w1 -> spaces w2 -> solid s ->
  date_reads pd pdt d s r1 -> drop_blanks r1 = t ++ r2 -> step_text sp t -> starts letter_char r2 = false -> in_i64 (step_count sp) = true ->
  (do x <- date_into md now1 d; calculate md x) = Ok (Moment b) -> clock_unit (step_unit sp) = true ->
  step_count sp * unit_secs (step_unit sp) <= 30 * 86400 ->
  forall N c, bound_reads pd pdt (Some (UTimes c)) (drop_blanks r2) ->
  inst b + c * (step_count sp * unit_secs (step_unit sp)) < instant (max_year + 1) 1 1 0 0 0 -> c < Z.of_nat N ->
  exists l, main md cfg pd pdt now1 now2 N args = (map (fun m => Value (show_moment m ++ " ")) l, Exits 0) /\ Z.of_nat (List.length l) = c /\
    forall k m, nth_error l k = Some m -> dt_valid m = true /\ inst m = inst b + Z.of_nat k * (step_count sp * unit_secs (step_unit sp)) /\ nano m = (if (k =? 0)%nat then nano b else 0).
Proof. exact main_times. Qed.
Print Assumptions C69_times.
Theorem C69_until : forall cfg pd pdt md now1 now2, ok_dates3 pd -> ok_times3 pdt -> dt_valid now1 = true -> dt_valid now2 = true ->
  forall args w1 w2 d s r1 sp t r2 b, concat " " args = w1 ++ s ++ w2 -> spaces w1 -> spaces w2 -> solid s ->
  date_reads pd pdt d s r1 -> drop_blanks r1 = t ++ r2 -> step_text sp t -> starts letter_char r2 = false -> in_i64 (step_count sp) = true ->
  (do x <- date_into md now1 d; calculate md x) = Ok (Moment b) -> clock_unit (step_unit sp) = true ->
  step_count sp * unit_secs (step_unit sp) <= 30 * 86400 ->
  forall N x en, bound_reads pd pdt (Some (UExact x)) (drop_blanks r2) ->
  (do y <- exactdate_into md now2 x; calculate md y) = Ok (Moment en) -> before b en -> 0 < step_count sp ->
  let K := steps_before b en (step_count sp * unit_secs (step_unit sp)) in
  inst b + K * (step_count sp * unit_secs (step_unit sp)) < instant (max_year + 1) 1 1 0 0 0 -> K < Z.of_nat N ->
  exists l, main md cfg pd pdt now1 now2 N args = (map (fun m => Value (show_moment m ++ " ")) l, Exits 0) /\ Z.of_nat (List.length l) = K /\
    forall k m, nth_error l k = Some m -> dt_valid m = true /\ inst m = inst b + Z.of_nat k * (step_count sp * unit_secs (step_unit sp)) /\ nano m = (if (k =? 0)%nat then nano b else 0).
Proof. exact main_until. Qed.
Print Assumptions C69_until.
Theorem C69_until_past : forall cfg pd pdt md now1 now2, ok_dates3 pd -> ok_times3 pdt -> dt_valid now1 = true -> dt_valid now2 = true ->
  forall args w1 w2 d s r1 sp t r2 b, concat " " args = w1 ++ s ++ w2 -> spaces w1 -> spaces w2 -> solid s ->
  date_reads pd pdt d s r1 -> drop_blanks r1 = t ++ r2 -> step_text sp t -> starts letter_char r2 = false -> in_i64 (step_count sp) = true ->
  (do x <- date_into md now1 d; calculate md x) = Ok (Moment b) ->
  forall N x en, bound_reads pd pdt (Some (UExact x)) (drop_blanks r2) ->
  (do y <- exactdate_into md now2 x; calculate md y) = Ok (Moment en) -> ~ before b en ->
  main md cfg pd pdt now1 now2 (S N) args = ([], Exits 0).
Proof. exact main_until_empty. Qed.
Print Assumptions C69_until_past.
Example C69_case_amounts : no_iso (mkcfg true true) toy_dates toy_times "2 hours + 90 min - daily" /\
  demo 9 ["2 hours"; "+ 90 min"; "- daily"] = ([Value "-1230 Minutes"], Exits 0).
Proof. split; [split; left; reflexivity|vm_compute; reflexivity]. Qed.
(** The hypotheses of the theorems on iterator expressions hold of two texts. *)
Example C69_case_times : let s := "today every 12 hours 2 times" in
  solid s /\ date_reads toy_dates toy_times (Date Today None) s " every 12 hours 2 times" /\
  drop_blanks " every 12 hours 2 times" = "every 12 hours" ++ " 2 times" /\ step_text (IEvery 12 PHour) "every 12 hours" /\
  bound_reads toy_dates toy_times (Some (UTimes 2)) (drop_blanks " 2 times") /\
  demo 9 [s; " "] = ([Value "2016-02-29 12:00:00 "; Value "2016-03-01 00:00:00 "], Exits 0).
Proof.
  split; [apply (solid_visible "t" "oday every 12 hours 2 times" "s" "today every 12 hours 2 time"); try reflexivity; vm_compute; split; congruence|].
  split; [apply DR_exact; [apply (ER_today _ _ " every 12 hours 2 times")|reflexivity]|]. split; [reflexivity|].
  split; [apply (ST_every " " "12" " " "hours" PHour); try reflexivity; [split; [reflexivity|discriminate]|vm_compute; discriminate|cbn; tauto]|].
  split; [apply (BR_times _ _ "2" " " ""); try reflexivity; [split; [reflexivity|discriminate]|vm_compute; discriminate]|]. vm_compute. reflexivity.
Qed.
Example C69_case_until : let s := "2015-12-31 weekly until 2016-02-29" in
  bound_reads toy_dates toy_times (Some (UExact (Iso8601Date (YMD 2016 2 29)))) "until 2016-02-29" /\
  steps_before (mkdt 2015 12 31 0 0 0 0) (mkdt 2016 2 29 0 0 0 0) (7 * 86400) = 9 /\
  List.length (fst (demo 20 [s])) = 9%nat /\ snd (demo 20 [s]) = Exits 0 /\ last (fst (demo 20 [s])) (Value "") = Value "2016-02-25 00:00:00 " /\
  demo 20 ["today weekly until 2015-12-31"] = ([], Exits 0) /\
  demo 3 ["today"; "minutely"] = ([Value "2016-02-29 12:00:00 "; Value "2016-02-29 12:01:00 "; Value "2016-02-29 12:02:00 "], Running).
Proof.
  intro s. split; [apply (BR_until _ _ _ " " "2016-02-29" ""); [reflexivity|reflexivity|apply toy_read; [split; reflexivity|reflexivity]]|].
  repeat split; vm_compute; reflexivity.
Qed.

(** C70. Reading the output back. *)
(** The full statement would be that the program maps each line it prints, given as its argument, to the same line.
    It holds for amounts that are not negative once the unit is written in lower case, and fails otherwise. *)
Theorem C70_lower_case_partial : forall cfg pd pdt md now1 now2 n u v, 0 <= v -> v * unit_secs u <= i64_max ->
  no_iso cfg pd pdt (show_int v ++ " " ++ input_word u) ->
  main md cfg pd pdt now1 now2 n [show_int v ++ " " ++ input_word u] = ([Value (show_int v ++ " " ++ word u)], Exits 0).
Proof. exact main_input_word. Qed.
Print Assumptions C70_lower_case_partial.
Theorem C70_amounts_refuted : forall cfg pd pdt md now1 now2, (forall s, fine pd s) -> (forall s, fine pdt s) ->
  forall n u v, no_iso cfg pd pdt (show_int v ++ " " ++ word u) ->
  exists e, main md cfg pd pdt now1 now2 n [show_int v ++ " " ++ word u] = ([ParseError e], Exits 0).
Proof. exact main_word. Qed.
Print Assumptions C70_amounts_refuted.
(** Whenever the ISO 8601 parser for dates reads the date of the line and stops in front of the time. *)
Theorem C70_moments_refuted : forall cfg pd pdt md now1 now2 n m time, dt_valid m = true -> let s := show_moment m in
  pdt s = PError \/ pdt s = Incomplete -> pd s = Done time (YMD (year m) (month m) (day m)) ->
  starts op_char (drop_blanks time) = false -> starts letter_char (drop_blanks time) = false ->
  main md cfg pd pdt now1 now2 n [show_moment m ++ " "] = ([Value (show_moment (mkdt (year m) (month m) (day m) 0 0 0 0) ++ " ")], Exits 0).
Proof. exact main_moment_again. Qed.
Print Assumptions C70_moments_refuted.
Example C70_case :
  demo 5 ["90 Minutes"] = ([ParseError NomError], Exits 0) /\ demo 5 ["90 minutes"] = ([Value "90 Minutes"], Exits 0) /\
  no_iso (mkcfg true true) toy_dates toy_times "-5 Days" /\ demo 5 ["-5 Days"] = ([ParseError NomError], Exits 0) /\
  toy_dates (show_moment noon3) = Done " 12:00:00" (YMD 2016 2 29) /\
  demo 5 ["today"] = ([Value "2016-02-29 12:00:00 "], Exits 0) /\ demo 5 ["2016-02-29 12:00:00 "] = ([Value "2016-02-29 00:00:00 "], Exits 0).
Proof. repeat split; try (left; reflexivity); vm_compute; reflexivity. Qed.

(** C71. Printed values and error messages can be told apart. *)
Theorem C71_values : forall md md' t t' v v', calculate md t = Ok v -> calculate md' t' = Ok v' -> no_leaps v -> no_leaps v' ->
  pretty_print v = pretty_print v' -> v = v'.
Proof. exact print_results. Qed.
Print Assumptions C71_values.
Theorem C71_trees : forall a b s s', no_leaps a -> no_leaps b -> debug_tt a ++ s = debug_tt b ++ s' -> a = b /\ s = s'.
Proof. exact debug_inj. Qed.
Print Assumptions C71_trees.
Theorem C71_errors : forall a b, error_no_leaps a -> error_no_leaps b -> display_error a = display_error b -> a = b.
Proof. exact error_inj. Qed.
Print Assumptions C71_errors.
(** An expression is printed as the name it has in messages of failed queries and its parts, separated by commas, in parentheses. *)
Theorem C71_names : forall t, debug_tt t = name t ++ "(" ++ String.concat ", " (parts t) ++ ")".
Proof. exact name_printed. Qed.
Print Assumptions C71_names.
(** Every message is the format string of src/error.rs with the parts of the error put in for its placeholders. *)
Theorem C71_formats : forall e, e <> NomError -> display_error e = fill (format_of e) (carried e).
Proof. exact format_filled. Qed.
Print Assumptions C71_formats.
Example C71_formats_case : let e := CannotSub (Seconds 5) (Addition (Days 1) (Days 2)) in e <> NomError /\
  format_of e = "Cannot subtract: {:?} - {:?}" /\ carried e = ["Seconds(5)"; "Addition(Days(1), Days(2))"] /\
  fill "Cannot subtract: {:?} - {:?}" ["Seconds(5)"; "Addition(Days(1), Days(2))"] = "Cannot subtract: Seconds(5) - Addition(Days(1), Days(2))" /\
  display_error e = "Cannot subtract: Seconds(5) - Addition(Days(1), Days(2))".
Proof. cbv zeta. split; [discriminate|]. vm_compute. repeat split. Qed.
Example C71_case :
  show_moment (mkdt (-1) 2 3 4 5 6 7000000) = "-0001-02-03 04:05:06.007" /\ no_leap (mkdt (-1) 2 3 4 5 6 7000000) /\
  debug_tt (Addition (Days (-3)) (EndOfMonth (Moment noon3))) = "Addition(Days(-3), EndOfMonth(Moment(2016-02-29T12:00:00)))" /\
  display_error (OutOfBounds 2016 2 30 0 0 0) = "Out of bounds: 2016-2-30T0:0:0" /\
  display_error (CannotAdd (Days 1) (Moment noon3)) = "Cannot add: Days(1) + Moment(2016-02-29T12:00:00)".
Proof. repeat split; vm_compute; reflexivity. Qed.
(** The texts of all messages and constructors, as in /repo/src/error.rs 6-41 and /repo/src/timetype.rs 21-40. *)
Example C71_messages_case :
  map display_error [UnknownError; CannotSub (Seconds 5) (Moment noon3); ArgumentErrorNotAnAmount (Subtraction (Minutes 1) (Hours 2));
    ArgumentErrorNotAMoment "Years"; CannotCalculateEndOfYearOn (Months 7); CannotCalculateEndOfMonthOn (Years (-7));
    CannotCompareDayTo "Hours"; CannotCompareMonthTo "EndOfDay"; NotADateInsideIterator; UnknownParserError] =
  ["Unknown Error"; "Cannot subtract: Seconds(5) - Moment(2016-02-29T12:00:00)"; "The passed argument is not an amount: Subtraction(Minutes(1), Hours(2))";
    "The passed argument is not a moment, but a Years"; "Argument Error: Cannot calculate end-of-year on a Months(7)"; "Argument Error: Cannot calculate end-of-month on a Years(-7)";
    "Cannot compare Day to non-Moment TimeType: ""Hours"""; "Cannot compare Month to non-Moment TimeType: ""EndOfDay"""; "Cannot calculate date for iterator"; "Unknown parser error"] /\
  map debug_tt [EndOfYear (Days 1); EndOfDay (Days 0); EndOfHour (Days 10); EndOfMinute (EndOfMonth (Days (-10)))] =
  ["EndOfYear(Days(1))"; "EndOfDay(Days(0))"; "EndOfHour(Days(10))"; "EndOfMinute(EndOfMonth(Days(-10)))"] /\
  map show_moment [mkdt 12016 2 9 4 5 6 0; mkdt 16 12 29 14 55 56 123456000; mkdt (-12016) 1 1 0 0 0 123456789; mkdt 2016 6 30 23 59 59 1000000000] =
  ["+12016-02-09 04:05:06"; "0016-12-29 14:55:56.123456"; "-12016-01-01 00:00:00.123456789"; "2016-06-30 23:59:60"].
Proof. repeat split; vm_compute; reflexivity. Qed.
(** Leap seconds are the exception. *)
Example C71_leap : let a := mkdt 2016 12 31 23 58 58 1500000000 in let b := mkdt 2016 12 31 23 58 59 500000000 in
  dt_valid a = true /\ dt_valid b = true /\ a <> b /\ pretty_print (Moment a) = pretty_print (Moment b).
Proof. repeat split; try discriminate; vm_compute; reflexivity. Qed.
