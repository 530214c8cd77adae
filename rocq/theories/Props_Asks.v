(** Property C110: what the clock has to do with the output. *)
Require Import ZArith Bool List String Ascii.
From Verif Require Import Prelude Spec Chrono TimeType Iter SpecTree SpecMoment Nom ParserTimetype ParserIterator ParserMod SpecText SpecDoc SpecLong Show Cli SpecCli SpecProgram SpecShift SpecAsks
  ParserProofs6 LongProofs LongProofs2 AsksProofs.
Import ListNotations.
Local Open Scope string_scope.
Local Open Scope Z_scope.

(** C110. Without one of the words "today", "tomorrow", "yesterday" on the command line, the output is the same at all times. *)
Theorem C110_words : forall cfg pd pdt, (forall s, fine pd s) -> (forall s, fine pdt s) ->
  (forall s r d, pd s = Done r d -> isodate_ok d) -> (forall s r d t, pdt s = Done r (d, t) -> isodate_ok d /\ isotime_ok t) ->
  forall md now1 now2 now1' now2' n args, dt_valid now1 = true -> dt_valid now2 = true -> dt_valid now1' = true -> dt_valid now2' = true ->
  ~ names_day (concat " " args) -> main md cfg pd pdt now1 now2 n args = main md cfg pd pdt now1' now2' n args.
Proof. exact without_words. Qed.
Print Assumptions C110_words.
(** The clock is read a second time; that matters only with the word "until". *)
Theorem C110_until : forall cfg pd pdt, (forall s, fine pd s) -> (forall s, fine pdt s) ->
  (forall s r d, pd s = Done r d -> isodate_ok d) -> (forall s r d t, pdt s = Done r (d, t) -> isodate_ok d /\ isotime_ok t) ->
  forall md now1 now2 now2' n args, dt_valid now1 = true -> dt_valid now2 = true -> dt_valid now2' = true ->
  ~ contains "until" (concat " " args) -> main md cfg pd pdt now1 now2 n args = main md cfg pd pdt now1 now2' n args.
Proof. exact without_until. Qed.
Print Assumptions C110_until.

(** Parts of seconds of the first reading of the clock matter only for "today" alone and for iterations from today. *)
Theorem C110_first_parts : forall cfg pd pdt, (forall s, fine pd s) -> (forall s, fine pdt s) ->
  (forall s r d, pd s = Done r d -> isodate_ok d) -> (forall s r d t, pdt s = Done r (d, t) -> isodate_ok d /\ isotime_ok t) ->
  forall w1 s w2 r args x, concat " " args = w1 ++ s ++ w2 -> spaces w1 -> spaces w2 -> solid s -> reads cfg pd pdt x s r ->
  forall md now1 now2 n, dt_valid now1 = true -> dt_valid now2 = true -> from_today x = false ->
  main md cfg pd pdt now1 now2 n args = main md cfg pd pdt (whole_second now1) now2 n args.
Proof. exact first_parts. Qed.
Print Assumptions C110_first_parts.
(** Those of the second reading matter only for iterations until today, and only whether there are any if the iteration does not also start today. *)
Theorem C110_second_parts : forall cfg pd pdt, (forall s, fine pd s) -> (forall s, fine pdt s) ->
  (forall s r d, pd s = Done r d -> isodate_ok d) -> (forall s r d t, pdt s = Done r (d, t) -> isodate_ok d /\ isotime_ok t) ->
  forall w1 s w2 r args x, concat " " args = w1 ++ s ++ w2 -> spaces w1 -> spaces w2 -> solid s -> reads cfg pd pdt x s r ->
  forall md now1 now2 n, dt_valid now1 = true -> dt_valid now2 = true ->
  (until_today x = false -> main md cfg pd pdt now1 now2 n args = main md cfg pd pdt now1 (whole_second now2) n args) /\
  (from_today x = false -> main md cfg pd pdt now1 now2 n args = main md cfg pd pdt now1 (rounded now2) n args).
Proof. exact second_parts. Qed.
Print Assumptions C110_second_parts.
(** Iterations from today: all lines but the first are the same. *)
Theorem C110_from_today : forall cfg pd pdt, (forall s, fine pd s) -> (forall s, fine pdt s) ->
  (forall s r d, pd s = Done r d -> isodate_ok d) -> (forall s r d t, pdt s = Done r (d, t) -> isodate_ok d /\ isotime_ok t) ->
  forall w1 s w2 r args x, concat " " args = w1 ++ s ++ w2 -> spaces w1 -> spaces w2 -> solid s -> reads cfg pd pdt x s r ->
  forall md now1 now2 n sp u, dt_valid now1 = true -> dt_valid now2 = true -> x = AsIterator (Iterator (Date Today None) sp u) -> (forall y, u <> Some (UExact y)) ->
  let o := main md cfg pd pdt now1 now2 n args in let o' := main md cfg pd pdt (whole_second now1) now2 n args in
  snd o' = snd o /\ tl (fst o') = tl (fst o) /\ List.length (fst o') = List.length (fst o).
Proof. exact today_parts. Qed.
Print Assumptions C110_from_today.

Definition C110_run (md : mode) (now1 now2 : datetime) (args : list string) : list line * ending := main md (mkcfg true true) toy_dates toy_times now1 now2 3 args.
Definition C110_then : datetime := mkdt 2016 3 2 0 0 0 0.
Definition C110_now (ns : Z) : datetime := mkdt 2016 3 1 0 0 0 ns.
Definition C110_text : list string := ["2015-12-31"; "monthly"; "until"; "2016-02-29"].
Example C110_words_case : ~ names_day (concat " " C110_text) /\ names_day (concat " " ["a"; "todayy"]) /\
  forall md, C110_run md (C110_now 0) (C110_now 0) C110_text = ([Value "2015-12-31 00:00:00 "; Value "2016-02-01 00:00:00 "], Exits 0) /\
    C110_run md C110_then C110_then C110_text = ([Value "2015-12-31 00:00:00 "; Value "2016-02-01 00:00:00 "], Exits 0) /\
    C110_run md (C110_now 0) (C110_now 0) ["tomorrow"] <> C110_run md C110_then C110_then ["tomorrow"].
Proof.
  split; [apply no_day; vm_compute; reflexivity|]. split; [exists "today", Today; split; [cbn; tauto|]; exists "a ", "y"; reflexivity|].
  intros []; (split; [vm_compute; reflexivity|]); (split; [vm_compute; reflexivity|]); vm_compute; discriminate.
Qed.
Example C110_until_case : ~ contains "until" (concat " " ["tomorrow"; "daily"; "1"; "times"]) /\
  forall md, C110_run md (C110_now 0) (C110_now 0) ["tomorrow"; "daily"; "1"; "times"] = ([Value "2016-03-02 00:00:00 "], Exits 0) /\
    C110_run md (C110_now 0) C110_then ["tomorrow"; "daily"; "1"; "times"] = ([Value "2016-03-02 00:00:00 "], Exits 0) /\
    C110_run md (C110_now 0) (C110_now 0) ["2016-02-29"; "daily"; "until"; "today"] = ([Value "2016-02-29 00:00:00 "], Exits 0) /\
    C110_run md (C110_now 0) C110_then ["2016-02-29"; "daily"; "until"; "today"] = ([Value "2016-02-29 00:00:00 "; Value "2016-03-01 00:00:00 "], Exits 0).
Proof.
  split; [intro C; apply contains_occurs in C; vm_compute in C; discriminate C|]. intros []; repeat split; vm_compute; reflexivity.
Qed.
(** "yesterday + 2 days" is an error that names a moment, without parts of a second. *)
Example C110_parts_case : let x := AsTimeType (PTDate (Date Yesterday (Some (Plus, AELast (Amount 2 PDay))))) in
  reads (mkcfg true true) toy_dates toy_times x "yesterday + 2 days" "" /\ from_today x = false /\
  forall md, C110_run md (mkdt 2016 3 2 1 2 3 456) C110_then ["yesterday"; "+"; "2"; "days"] = ([CalcError (CannotAdd (Days 2) (Moment (mkdt 2016 3 1 1 2 3 0)))], Exits 0) /\
    C110_run md (C110_now 5) C110_then ["tomorrow"] = ([Value "2016-03-02 00:00:00 "], Exits 0) /\
    C110_run md (C110_now 5) C110_then ["today"] = ([Value "2016-03-01 00:00:00.000000005 "], Exits 0) /\
    C110_run md (C110_now 0) C110_then ["today"] = ([Value "2016-03-01 00:00:00 "], Exits 0).
Proof.
  assert (F1 : forall s, fine toy_dates s) by exact (table_fine _ _). assert (F2 : forall s, fine toy_times s) by exact (table_fine _ _).
  cbv zeta. split; [|split; [reflexivity|intros []; repeat split; vm_compute; reflexivity]].
  apply R_date; [|apply (date_most (mkcfg true true) _ _ F1 F2); vm_compute; reflexivity].
  intros it r I. apply (iterator_most (mkcfg true true) _ _ F1 F2) in I. vm_compute in I. discriminate I.
Qed.
(** An iteration until today, where one item is at the full second of the end. *)
Example C110_second_case : let x := AsIterator (Iterator (Date (Iso8601Date (YMD 2016 2 29)) None) IDaily (Some (UExact Today))) in
  reads (mkcfg true true) toy_dates toy_times x "2016-02-29 daily until today" "" /\ from_today x = false /\ until_today x = true /\
  forall md, let run := fun ns => C110_run md C110_then (C110_now ns) ["2016-02-29"; "daily"; "until"; "today"] in
    run 0 = ([Value "2016-02-29 00:00:00 "], Exits 0) /\ run 1 = ([Value "2016-02-29 00:00:00 "; Value "2016-03-01 00:00:00 "], Exits 0) /\ run 999 = run 1 /\
    rounded (C110_now 999) = C110_now 1.
Proof.
  assert (F1 : forall s, fine toy_dates s) by exact (table_fine _ _). assert (F2 : forall s, fine toy_times s) by exact (table_fine _ _).
  cbv zeta. split; [apply R_iterator; apply (iterator_most (mkcfg true true) _ _ F1 F2); vm_compute; reflexivity|]. split; [reflexivity|]. split; [reflexivity|].
  intros []; repeat split; vm_compute; reflexivity.
Qed.
Example C110_from_today_case : let x := AsIterator (Iterator (Date Today None) IHourly (Some (UTimes 2))) in
  reads (mkcfg true true) toy_dates toy_times x "today hourly 2 times" "" /\
  forall md, C110_run md (C110_now 7) C110_then ["today"; "hourly"; "2"; "times"] = ([Value "2016-03-01 00:00:00.000000007 "; Value "2016-03-01 01:00:00 "], Exits 0) /\
    C110_run md (C110_now 0) C110_then ["today"; "hourly"; "2"; "times"] = ([Value "2016-03-01 00:00:00 "; Value "2016-03-01 01:00:00 "], Exits 0).
Proof.
  assert (F1 : forall s, fine toy_dates s) by exact (table_fine _ _). assert (F2 : forall s, fine toy_times s) by exact (table_fine _ _).
  cbv zeta. split; [apply R_iterator; apply (iterator_most (mkcfg true true) _ _ F1 F2); vm_compute; reflexivity|]. intros []; repeat split; vm_compute; reflexivity.
Qed.
