(** Properties C50-C52: what dates mean.  [cfg] is any of the nom behaviours of Nom.v; [pd], [pdt] are
    the ISO 8601 parsers, of which only the ranges of the fields are assumed. *)
Require Import ZArith Bool List String Ascii Lia ZifyBool.
From Verif Require Import Prelude Spec Chrono TimeType SpecTree SpecMoment Nom ParserTimetype ParserIterator ParserMod SpecText
  ParserProofs6.
Import ListNotations.
Local Open Scope string_scope.
Local Open Scope Z_scope.

Definition ok_dates (pd : parser isodate) : Prop := forall s r d, pd s = Done r d -> isodate_ok d.
Definition ok_times (pdt : parser (isodate * isotime)) : Prop := forall s r d t, pdt s = Done r (d, t) -> isodate_ok d /\ isotime_ok t.
Definition noon : datetime := mkdt 2016 2 29 12 0 0 0.

(** C50. Calendar dates and date expressions. *)
Theorem C50_date : forall cfg pd pdt md now1 now2 x s rest m, date_reads pd pdt (Date x None) s rest -> starts blank_char s = false ->
  starts letter_char (drop_blanks rest) = false -> plain x = true -> means now1 x m ->
  parse md cfg pd pdt now1 now2 s = Ok (PTimeType (Moment m)).
Proof. exact parse_plain. Qed.
Print Assumptions C50_date.
Theorem C50_no_such_date : forall cfg pd pdt md now1 now2 x o s rest, date_reads pd pdt (Date x o) s rest -> starts blank_char s = false ->
  starts letter_char (drop_blanks rest) = false -> dt_valid now1 = true -> plain x = true -> (forall m, ~ means now1 x m) ->
  let '(y, mo, d, (h, mi, sec)) := written x in
  parse md cfg pd pdt now1 now2 s = Err (OutOfBounds y mo d h mi sec).
Proof. exact parse_missing. Qed.
Print Assumptions C50_no_such_date.
(** The whole amount expression is one operand. *)
Theorem C50_date_and_amounts : forall cfg pd pdt md now1 now2, ok_dates pd -> ok_times pdt -> dt_valid now1 = true ->
  forall x op e s rest m, date_reads pd pdt (Date x (Some (op, e))) s rest -> starts blank_char s = false ->
  starts letter_char (drop_blanks rest) = false -> plain x = true \/ x = Tomorrow -> means now1 x m -> total e <= i64_max ->
  exists t v, parse md cfg pd pdt now1 now2 s = Ok (PTimeType t) /\ v * unit_secs (expr_unit e) = right_value e /\
    calculate md t = calculate md (date_op op (Moment m) (mk (expr_unit e) v)).
Proof. exact parse_usable_op. Qed.
Print Assumptions C50_date_and_amounts.
Theorem C50_plus_exact : forall cfg pd pdt md now1 now2, ok_dates pd -> ok_times pdt -> dt_valid now1 = true ->
  forall x e s rest m, date_reads pd pdt (Date x (Some (Plus, e))) s rest -> starts blank_char s = false ->
  starts letter_char (drop_blanks rest) = false -> plain x = true \/ x = Tomorrow -> means now1 x m -> total e <= i64_max ->
  clock_unit (expr_unit e) = true -> 0 <= right_value e ->
  inst m + right_value e < instant (year m + 1) 1 31 0 0 0 -> inst m + right_value e < instant (max_year + 1) 1 1 0 0 0 ->
  exists t m', parse md cfg pd pdt now1 now2 s = Ok (PTimeType t) /\ calculate md t = Ok (Moment m') /\
    dt_valid m' = true /\ nano m' = 0 /\ inst m' = inst m + right_value e.
Proof. exact parse_usable_plus. Qed.
Print Assumptions C50_plus_exact.
Example C50_oracles : ok_dates toy_dates /\ ok_times toy_times.
Proof. split; [exact toy_dates_ok|exact toy_times_ok]. Qed.
Example C50_date_case :
  date_reads toy_dates toy_times (Date (Iso8601DateTime (YMD 2016 2 29) (mktime 23 59 58 0 0 0)) None) "2016-02-29T23:59:58Z" "" /\
  means noon (Iso8601DateTime (YMD 2016 2 29) (mktime 23 59 58 0 0 0)) (mkdt 2016 2 29 23 59 58 0) /\
  parse Checked (mkcfg true true) toy_dates toy_times noon noon "2016-02-29T23:59:58Z" = Ok (PTimeType (Moment (mkdt 2016 2 29 23 59 58 0))).
Proof.
  split; [apply DR_exact; [apply toy_read; reflexivity|reflexivity]|]. split; [split; reflexivity|]. vm_compute. reflexivity.
Qed.
Example C50_no_such_date_case :
  date_reads toy_dates toy_times (Date (Iso8601Date (YMD 2016 2 30)) None) "2016-02-30" "" /\
  (forall m, ~ means noon (Iso8601Date (YMD 2016 2 30)) m) /\
  parse Checked (mkcfg true true) toy_dates toy_times noon noon "2016-02-30" = Err (OutOfBounds 2016 2 30 0 0 0).
Proof.
  split; [apply DR_exact; [apply toy_read; [split; reflexivity|reflexivity]|reflexivity]|]. split; [|vm_compute; reflexivity].
  intros m [V E]. subst m. discriminate V.
Qed.
Definition C50_amounts : amountexpr := AENext (Amount 1 PDay) Plus (AELast (Amount 90 PMinute)).
Lemma C50_text : expr_text C50_amounts "1 day + 90 min".
Proof.
  apply (ET_next (Amount 1 PDay) "1 day" " " Plus " " _ "90 min"); [apply (AT_number "" "1" " " "day" PDay)|..]; try (vm_compute; tauto).
  { split; [reflexivity|discriminate]. } { vm_compute. discriminate. }
  apply ET_last. apply (AT_number "" "90" " " "min" PMinute); try (vm_compute; tauto).
  { split; [reflexivity|discriminate]. } { vm_compute. discriminate. }
Qed.
Example C50_amounts_case :
  date_reads toy_dates toy_times (Date (Iso8601Date (YMD 2016 2 29)) (Some (Plus, C50_amounts))) "2016-02-29 + 1 day + 90 min" "" /\
  right_value C50_amounts = 91800 /\ clock_unit (expr_unit C50_amounts) = true /\ total C50_amounts = 91800 /\
  exists t, parse Checked (mkcfg true true) toy_dates toy_times noon noon "2016-02-29 + 1 day + 90 min" = Ok (PTimeType t) /\
    calculate Checked t = Ok (Moment (mkdt 2016 3 1 1 30 0 0)).
Proof.
  split; [|split; [reflexivity|split; [reflexivity|split; [reflexivity|]]]].
  - apply (DR_op toy_dates toy_times _ _ " " Plus " " C50_amounts "1 day + 90 min" ""); try (split; reflexivity); try reflexivity.
    + apply toy_read; [split; reflexivity|reflexivity].
    + exact C50_text.
  - exists (Addition (Moment (mkdt 2016 2 29 0 0 0 0)) (Addition (Days 1) (Minutes 90))). vm_compute. split; reflexivity.
Qed.

(** C51. today is the clock reading, tomorrow one day later, yesterday one day earlier; all can be used in
    further arithmetic.
    Missing: yesterday fails on the first day of months that follow a month of fewer than 31 days (and on
    the very first day), and nothing can be added to yesterday. *)
Theorem C51_today : forall cfg pd pdt md now1 now2 s rest m, date_reads pd pdt (Date Today None) s rest -> starts blank_char s = false ->
  starts letter_char (drop_blanks rest) = false -> means now1 Today m ->
  parse md cfg pd pdt now1 now2 s = Ok (PTimeType (Moment m)).
Proof. exact (fun cfg pd pdt md now1 now2 s rest m H1 H2 H3 H4 => parse_plain cfg pd pdt md now1 now2 Today s rest m H1 H2 H3 eq_refl H4). Qed.
Print Assumptions C51_today.
Theorem C51_tomorrow : forall cfg pd pdt md now1 now2, dt_valid now1 = true ->
  forall s rest, date_reads pd pdt (Date Tomorrow None) s rest -> starts blank_char s = false -> starts letter_char (drop_blanks rest) = false ->
  exists t, parse md cfg pd pdt now1 now2 s = Ok (PTimeType t) /\
    (forall m, means now1 Tomorrow m -> calculate md t = Ok (Moment m)) /\
    ((forall m, ~ means now1 Tomorrow m) -> oob (calculate md t)).
Proof. exact parse_tomorrow. Qed.
Print Assumptions C51_tomorrow.
Theorem C51_tomorrow_arithmetic : forall cfg pd pdt md now1 now2, ok_dates pd -> ok_times pdt -> dt_valid now1 = true ->
  forall op e s rest m, date_reads pd pdt (Date Tomorrow (Some (op, e))) s rest -> starts blank_char s = false ->
  starts letter_char (drop_blanks rest) = false -> means now1 Tomorrow m -> total e <= i64_max ->
  exists t v, parse md cfg pd pdt now1 now2 s = Ok (PTimeType t) /\ v * unit_secs (expr_unit e) = right_value e /\
    calculate md t = calculate md (date_op op (Moment m) (mk (expr_unit e) v)).
Proof. exact (fun cfg pd pdt md now1 now2 A B C op e s rest m H1 H2 H3 H4 H5 => parse_usable_op cfg pd pdt md now1 now2 A B C Tomorrow op e s rest m H1 H2 H3 (or_intror eq_refl) H4 H5). Qed.
Print Assumptions C51_tomorrow_arithmetic.
Theorem C51_yesterday_partial : forall cfg pd pdt md now1 now2, dt_valid now1 = true ->
  forall s rest, date_reads pd pdt (Date Yesterday None) s rest -> starts blank_char s = false -> starts letter_char (drop_blanks rest) = false ->
  let '(py, pm) := prev_month (year now1) (month now1) in
  let ok := 2 <= day now1 \/ month_length py pm = 31 /\ min_year <= py in
  exists t, parse md cfg pd pdt now1 now2 s = Ok (PTimeType t) /\
    (ok -> exists m, means now1 Yesterday m /\ calculate md t = Ok (Moment m)) /\
    (~ ok -> oob (calculate md t)).
Proof. exact parse_yesterday. Qed.
Print Assumptions C51_yesterday_partial.
Theorem C51_yesterday_minus_partial : forall cfg pd pdt md now1 now2, ok_dates pd -> ok_times pdt -> dt_valid now1 = true ->
  forall e s rest m, date_reads pd pdt (Date Yesterday (Some (Minus, e))) s rest -> starts blank_char s = false ->
  starts letter_char (drop_blanks rest) = false -> calculate md (Subtraction (Moment now1) (Days 1)) = Ok (Moment m) -> total e <= i64_max ->
  exists t v, parse md cfg pd pdt now1 now2 s = Ok (PTimeType t) /\ v * unit_secs (expr_unit e) = right_value e /\
    calculate md t = calculate md (Subtraction (Moment m) (mk (expr_unit e) v)).
Proof. exact parse_yesterday_minus. Qed.
Print Assumptions C51_yesterday_minus_partial.
(** No clock reading and no amount make `yesterday + ...` evaluate. *)
Theorem C51_yesterday_plus_refuted : forall cfg pd pdt md now1 now2, ok_dates pd -> ok_times pdt ->
  forall e s rest t v, date_reads pd pdt (Date Yesterday (Some (Plus, e))) s rest -> starts blank_char s = false ->
  starts letter_char (drop_blanks rest) = false -> parse md cfg pd pdt now1 now2 s = Ok (PTimeType t) -> calculate md t <> Ok v.
Proof. exact parse_yesterday_plus. Qed.
Print Assumptions C51_yesterday_plus_refuted.
Theorem C51_yesterday_refuted : forall cfg md, let now := mkdt 2016 3 1 12 0 0 0 in
  means now Yesterday (mkdt 2016 2 29 12 0 0 0) /\
  (exists t, parse md cfg toy_dates toy_times now now "yesterday" = Ok (PTimeType t) /\ calculate md t = Err (OutOfBounds 2016 2 12 12 0 0)) /\
  (exists t e, parse md cfg toy_dates toy_times noon noon "yesterday + 2 days" = Ok (PTimeType t) /\ calculate md t = Err e).
Proof.
  intros cfg md now. split; [vm_compute; repeat split|]. split.
  - exists (Subtraction (Moment now) (Days 1)). destruct cfg as [[] []], md; vm_compute; split; reflexivity.
  - exists (Addition (Subtraction (Moment noon) (Days 1)) (Days 2)), (CannotAdd (Days 2) (Moment (mkdt 2016 2 28 12 0 0 0))). destruct cfg as [[] []], md; vm_compute; split; reflexivity.
Qed.
Print Assumptions C51_yesterday_refuted.
Example C51_case : date_reads toy_dates toy_times (Date Today None) "today" "" /\ date_reads toy_dates toy_times (Date Tomorrow None) "tomorrow  ?" "  ?" /\
  date_reads toy_dates toy_times (Date Yesterday (Some (Minus, C50_amounts))) "yesterday-1 day + 90 min" "" /\
  means noon Tomorrow (mkdt 2016 3 1 12 0 0 0) /\ prev_month 2016 1 = (2015, 12) /\
  (exists t, parse Checked (mkcfg false true) toy_dates toy_times noon noon "tomorrow - 1 month" = Ok (PTimeType t) /\ calculate Checked t = Ok (Moment (mkdt 2016 2 1 12 0 0 0))) /\
  (exists t, parse Checked (mkcfg false true) toy_dates toy_times noon noon "yesterday-2 days" = Ok (PTimeType t) /\ calculate Checked t = Ok (Moment (mkdt 2016 2 26 12 0 0 0))).
Proof.
  split; [apply DR_exact; [apply (ER_today _ _ "")|reflexivity]|]. split; [apply DR_exact; [apply (ER_tomorrow _ _ "  ?")|reflexivity]|].
  split; [apply (DR_op toy_dates toy_times _ _ "" Minus "" C50_amounts "1 day + 90 min" ""); try (split; reflexivity); try reflexivity; [apply ER_yesterday|exact C50_text]|].
  split; [vm_compute; repeat split|]. split; [reflexivity|]. split.
  - exists (Subtraction (Addition (Moment noon) (Days 1)) (Months 1)). vm_compute. split; reflexivity.
  - exists (Subtraction (Subtraction (Moment noon) (Days 1)) (Days 2)). vm_compute. split; reflexivity.
Qed.

(** C52. YYYY-DDD is the DDD-th day of the year, YYYY-Www-D the ISO week date, an offset shifts the instant.
    Missing: all of it; the theorems say what the code does instead (for all but the last year):
    ordinal dates are one day late, week dates 5 to 11 days late, offsets are ignored. *)
Theorem C52_late_partial : forall cfg pd pdt md now1 now2 x s rest, date_reads pd pdt (Date x None) s rest -> starts blank_char s = false ->
  starts letter_char (drop_blanks rest) = false -> counted x ->
  exists t m, parse md cfg pd pdt now1 now2 s = Ok (PTimeType t) /\ calculate md t = Ok (Moment m) /\
    dt_valid m = true /\ nano m = 0 /\ inst m = meant_secs x + late_secs x /\ ~ means now1 x m.
Proof. exact parse_counted. Qed.
Print Assumptions C52_late_partial.
Theorem C52_offset_partial : forall cfg pd pdt md now1 now2 d t t' o s s' r r',
  date_reads pd pdt (Date (Iso8601DateTime d t) o) s r -> date_reads pd pdt (Date (Iso8601DateTime d t') o) s' r' ->
  starts blank_char s = false -> starts blank_char s' = false ->
  starts letter_char (drop_blanks r) = false -> starts letter_char (drop_blanks r') = false ->
  t_hour t = t_hour t' -> t_minute t = t_minute t' -> t_second t = t_second t' ->
  parse md cfg pd pdt now1 now2 s = parse md cfg pd pdt now1 now2 s'.
Proof. exact parse_offset. Qed.
Print Assumptions C52_offset_partial.
Theorem C52_dates_refuted : forall cfg md,
  means noon (Iso8601Date (Ordinal 2016 60)) (mkdt 2016 2 29 0 0 0 0) /\ means noon (Iso8601Date (Week 2016 9 1)) (mkdt 2016 2 29 0 0 0 0) /\
  (exists t, parse md cfg toy_dates toy_times noon noon "2016-060" = Ok (PTimeType t) /\ calculate md t = Ok (Moment (mkdt 2016 3 1 0 0 0 0))) /\
  (exists t, parse md cfg toy_dates toy_times noon noon "2016-W09-1" = Ok (PTimeType t) /\ calculate md t = Ok (Moment (mkdt 2016 3 5 0 0 0 0))) /\
  parse md cfg toy_dates toy_times noon noon "2016-02-29T23:59:58+05:30" = parse md cfg toy_dates toy_times noon noon "2016-02-29T23:59:58Z".
Proof.
  intros cfg md. split; [vm_compute; repeat split|]. split; [vm_compute; repeat split|]. split; [|split].
  - exists (Addition (Moment (mkdt 2016 1 1 0 0 0 0)) (Days 60)). destruct cfg as [[] []], md; vm_compute; split; reflexivity.
  - exists (Addition (Addition (Moment (mkdt 2016 1 1 0 0 0 0)) (Days 63)) (Days 1)). destruct cfg as [[] []], md; vm_compute; split; reflexivity.
  - destruct cfg as [[] []], md; vm_compute; reflexivity.
Qed.
Print Assumptions C52_dates_refuted.
Example C52_case : counted (Iso8601Date (Week 2016 9 1)) /\ late_secs (Iso8601Date (Week 2016 9 1)) = 5 * 86400 /\
  late_secs (Iso8601Date (Week 2015 53 7)) = 11 * 86400 /\
  date_reads toy_dates toy_times (Date (Iso8601Date (Ordinal 2016 60)) None) "2016-060" "".
Proof.
  split; [vm_compute; repeat split; discriminate|]. split; [vm_compute; reflexivity|]. split; [vm_compute; reflexivity|].
  apply DR_exact; [apply toy_read; [split; reflexivity|reflexivity]|reflexivity].
Qed.
