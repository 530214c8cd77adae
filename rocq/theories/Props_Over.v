(** Property C84: when evaluation overflows; C56 and C81: which texts overflow. *)
Require Import ZArith Bool List String Ascii Lia.
From Verif Require Import Prelude Spec Chrono TimeType SpecTree SpecMoment SpecIter SpecAdapt Iter Nom ParserTimetype ParserIterator ParserMod Fuzz SpecText SpecDoc
  SpecOver SpecOver2 ParserProofs3 ParserProofs6 OverProofs OverProofs2.
Import ListNotations.
Local Open Scope string_scope.
Local Open Scope Z_scope.

(** For examples: a clock reading, a late evening. *)
Definition leap_noon : datetime := mkdt 2016 2 29 12 0 0 0.
Definition last_day : datetime := mkdt 2016 1 31 23 59 59 0.

(** C84. With overflow checks evaluation panics exactly if an operation that it reaches does not fit 64 bits. *)
Theorem C84_amounts : forall t, tt_ok t = true -> amount_only t = true -> (calculate Checked t = Panic PArith <-> fits t = false).
Proof. exact amount_overflow. Qed.
Print Assumptions C84_amounts.
(** The result fits, an operand in seconds does not; the same in minutes does. *)
Example C84_amounts_case : let t x := Subtraction (Subtraction (Days 200000000000000) x) (Days 199999999999999) in
  tt_ok (t (Seconds 1)) = true /\ amount_only (t (Seconds 1)) = true /\ fits (t (Seconds 1)) = false /\ calculate Checked (t (Seconds 1)) = Panic PArith /\
  fits (t (Minutes 1)) = true /\ calculate Checked (t (Minutes 1)) = Ok (Minutes 1439).
Proof. vm_compute. repeat split. Qed.
Theorem C84_add : forall m u n, dt_valid m = true -> in_i64 n = true ->
  (calculate Checked (Addition (Moment m) (mk u n)) = Panic PArith <-> add_fits u m n = false).
Proof. exact add_over. Qed.
Print Assumptions C84_add.
(** On the 31st the last month that fits is one too many. *)
Example C84_add_case : dt_valid last_day = true /\ in_i64 (i64_max - 1) = true /\ add_fits UMonth last_day (i64_max - 1) = false /\
  add_fits UMonth leap_noon (i64_max - 2) = true /\ add_fits UMonth leap_noon (i64_max - 1) = false /\ add_fits UHour last_day (i64_max - 22) = false /\
  add_fits UHour last_day (i64_max - 23) = true.
Proof. vm_compute. repeat split. Qed.
Theorem C84_sub : forall m u n, dt_valid m = true -> in_i64 n = true ->
  (calculate Checked (Subtraction (Moment m) (mk u n)) = Panic PArith <-> sub_fits u m n = false).
Proof. exact sub_over. Qed.
Print Assumptions C84_sub.
Example C84_sub_case : dt_valid leap_noon = true /\ in_i64 i64_min = true /\ sub_fits UDay leap_noon i64_min = false /\
  sub_fits UDay leap_noon (i64_min + 30) = true /\ sub_fits UDay leap_noon (i64_min + 29) = false /\ sub_fits UYear leap_noon i64_max = true.
Proof. vm_compute. repeat split. Qed.
(** Expressions with a type. *)
Theorem C84_expressions : forall t, tt_ok t = true -> shape_of t <> SBad -> (calculate Checked t = Panic PArith <-> overflows value_checked t).
Proof. exact over_exact. Qed.
Print Assumptions C84_expressions.
(** The left operand has no value, and the right one is evaluated first all the same. *)
Example C84_expressions_case :
  let big := Subtraction (Days i64_max) (Seconds 1) in
  let t := Subtraction (Addition (Moment (mkdt max_year 12 31 0 0 0 0)) (Days 1)) big in
  tt_ok t = true /\ shape_of t = SMoment /\ overflows value_checked t /\ calculate Checked t = Panic PArith /\
  overflows value_checked (EndOfMonth (Addition (Moment leap_noon) big)) /\
  calculate Checked (Subtraction (Addition (Moment (mkdt max_year 12 31 0 0 0 0)) (Days 1)) (Days 1)) = Err (OutOfBounds (max_year + 1) 1 0 0 0 0).
Proof.
  cbv zeta. split; [reflexivity|]. split; [reflexivity|]. split; [apply OV_sub_first, OV_amount; reflexivity|]. split; [vm_compute; reflexivity|].
  split; [apply (OV_end _ SpecMoment.PMonth), (OV_add_r _ _ _ leap_noon); [reflexivity|apply OV_amount; reflexivity]|vm_compute; reflexivity].
Qed.

(** C56, C81 (theorems in Props_Total.v and Props_Doc.v). The texts that panic: a number of weeks, a step or the first
    date of an iterator that overflows. Everything else returns. *)
Theorem C56_exactly_partial : forall cfg pd pdt, (forall s r d, pd s = Done r d -> isodate_ok d) ->
  (forall s r d t, pdt s = Done r (d, t) -> isodate_ok d /\ isotime_ok t) ->
  forall now1 now2 s r p, dt_valid now1 = true -> dt_valid now2 = true -> do_parse Checked cfg pd pdt now1 now2 s = Done r p ->
  exists x, begins_with pd pdt x s r /\ (parse Checked cfg pd pdt now1 now2 s = Panic PArith <-> reading_overflows (value_overflows now1) x).
Proof. exact parse_overflows. Qed.
Print Assumptions C56_exactly_partial.
Theorem C81_exactly_partial : forall cfg pd pdt, (forall s r d, pd s = Done r d -> isodate_ok d) ->
  (forall s r d t, pdt s = Done r (d, t) -> isodate_ok d /\ isotime_ok t) ->
  forall now1 now2 s r p, dt_valid now1 = true -> dt_valid now2 = true -> do_parse Checked cfg pd pdt now1 now2 s = Done r p ->
  exists x, begins_with pd pdt x s r /\
    (fuzz_target Checked cfg pd pdt now1 now2 s = Panic PArith <-> utf8_ok s = true /\ reading_overflows (value_overflows now1) x).
Proof. exact fuzz_overflows. Qed.
Print Assumptions C81_exactly_partial.
Example C56_exactly_case : let go := parse Checked (mkcfg true true) toy_dates toy_times leap_noon leap_noon in
  go "today + 1317624576693539402 weeks" = Panic PArith /\ go "today + 1317624576693539401 weeks" <> Panic PArith /\
  go "today every 1317624576693539402 weeks" = Panic PArith /\ go "today + 9223372036854775800 days" <> Panic PArith /\
  go "today + 9223372036854775800 days every 2 days" = Panic PArith /\
  reading_overflows (value_overflows leap_noon) (AsIterator (Iterator (Date Today (Some (Plus, AELast (Amount 9223372036854775800 PDay)))) (IEvery 2 PDay) None)) /\
  date_overflows (Date (Iso8601Date (YMD 2015 2 29)) (Some (Plus, AELast (Amount 1317624576693539402 PWeek)))) = false.
Proof.
  cbv zeta. split; [vm_compute; reflexivity|]. split; [vm_compute; discriminate|]. split; [vm_compute; reflexivity|]. split; [vm_compute; discriminate|].
  split; [vm_compute; reflexivity|]. split; [right; right; eexists; split; [reflexivity|vm_compute; reflexivity]|vm_compute; reflexivity].
Qed.
(** The fuzz target on the same texts; the second is followed by bytes that are no text. *)
Example C81_exactly_case : let go := fuzz_target Checked (mkcfg true true) toy_dates toy_times leap_noon leap_noon in
  let s := "today + 9223372036854775800 days every 2 days" in
  (exists p, do_parse Checked (mkcfg true true) toy_dates toy_times leap_noon leap_noon s = Done "" p) /\ utf8_ok s = true /\ go s = Panic PArith /\
  utf8_ok (s ++ String "255" "") = false /\ go (s ++ String "255" "") = Ok tt /\ go "today + 9223372036854775800 days" = Ok tt.
Proof. cbv zeta. split; [eexists; vm_compute; reflexivity|]. vm_compute. repeat split. Qed.
