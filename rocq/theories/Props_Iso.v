(** Property C97: dates and times written with all their digits, from the text typed to the text printed. *)
Require Import ZArith Bool List String Ascii Lia.
From Verif Require Import Prelude Spec Chrono TimeType SpecTree SpecMoment Nom ParserTimetype ParserIterator ParserMod SpecText Show Cli SpecCli SpecIso IsoProofs.
Import ListNotations.
Local Open Scope string_scope.
Local Open Scope Z_scope.

(** C97. The program echoes a moment, in its own format. *)
Theorem C97_echo : forall cfg pd pdt md now1 now2, reads_dates pd pdt -> reads_times pdt ->
  forall n args w1 s w2 m, concat " " args = w1 ++ s ++ w2 -> spaces w1 -> spaces w2 -> four_digits m -> writes m s ->
  main md cfg pd pdt now1 now2 n args = ([Value (printed m ++ " ")], Exits 0).
Proof. exact main_written. Qed.
Print Assumptions C97_echo.
(** Days that do not exist, like 30 February, are rejected and named. *)
Theorem C97_no_such_day : forall cfg pd pdt md now1 now2, reads_dates pd pdt ->
  forall n args w1 w2 y mo d, dt_valid now1 = true -> concat " " args = w1 ++ date_text y mo d ++ w2 -> spaces w1 -> spaces w2 ->
  0 <= y <= 9999 -> 1 <= mo <= 12 -> 1 <= d <= 31 -> date_exists y mo d = false ->
  main md cfg pd pdt now1 now2 n args = ([ParseError (OutOfBounds y mo d 0 0 0)], Exits 0).
Proof. exact main_no_date. Qed.
Print Assumptions C97_no_such_day.
(** A moment plus an amount expression in seconds to weeks: the moment printed is that much later, as long as that is
    before 31 January of the following year. *)
Theorem C97_plus : forall cfg pd pdt md now1 now2, reads_dates pd pdt -> reads_times pdt ->
  (forall s r d, pd s = Done r d -> isodate_ok d) -> (forall s r d t, pdt s = Done r (d, t) -> isodate_ok d /\ isotime_ok t) -> dt_valid now1 = true ->
  forall n args w1 s b1 b2 e es w2 m m', concat " " args = w1 ++ (s ++ b1 ++ "+" ++ b2 ++ es) ++ w2 -> spaces w1 -> spaces w2 ->
  four_digits m -> writes m s -> blanks b1 -> b1 <> "" -> blanks b2 -> expr_text e es -> total e <= i64_max ->
  clock_unit (expr_unit e) = true -> 0 <= right_value e -> four_digits m' -> inst m' = inst m + right_value e -> inst m' < instant (year m + 1) 1 31 0 0 0 ->
  main md cfg pd pdt now1 now2 n args = ([Value (printed m' ++ " ")], Exits 0).
Proof. exact main_plus. Qed.
Print Assumptions C97_plus.
(** Months later, up to the 28th of a month, up to the year 9999. *)
Theorem C97_months : forall cfg pd pdt md now1 now2, reads_dates pd pdt -> reads_times pdt ->
  (forall s r d, pd s = Done r d -> isodate_ok d) -> (forall s r d t, pdt s = Done r (d, t) -> isodate_ok d /\ isotime_ok t) -> dt_valid now1 = true ->
  forall n args w1 s b1 b2 ds b3 sp w2 m Y Mo, concat " " args = w1 ++ (s ++ b1 ++ "+" ++ b2 ++ ds ++ b3 ++ sp) ++ w2 -> spaces w1 -> spaces w2 ->
  four_digits m -> writes m s -> blanks b1 -> b1 <> "" -> blanks b2 -> digits ds -> blanks b3 -> In (sp, PMonth) spellings ->
  day m <= 28 -> 12 * Y + Mo = 12 * year m + month m + decimal ds -> 1 <= Mo <= 12 -> Y <= 9999 ->
  main md cfg pd pdt now1 now2 n args = ([Value (printed (mkdt Y Mo (day m) (hour m) (minute m) (second m) 0) ++ " ")], Exits 0).
Proof. exact main_months. Qed.
Print Assumptions C97_months.
(** Days or weeks earlier in the same month. *)
Theorem C97_days_back : forall cfg pd pdt md now1 now2, reads_dates pd pdt -> reads_times pdt ->
  (forall s r d, pd s = Done r d -> isodate_ok d) -> (forall s r d t, pdt s = Done r (d, t) -> isodate_ok d /\ isotime_ok t) -> dt_valid now1 = true ->
  forall n args w1 s b1 b2 ds b3 sp u w2 m, concat " " args = w1 ++ (s ++ b1 ++ "-" ++ b2 ++ ds ++ b3 ++ sp) ++ w2 -> spaces w1 -> spaces w2 ->
  four_digits m -> writes m s -> blanks b1 -> b1 <> "" -> blanks b2 -> digits ds -> blanks b3 -> In (sp, u) spellings -> u = PDay \/ u = PWeek ->
  let D := day m - times_kept (decimal ds) u in 1 <= D ->
  main md cfg pd pdt now1 now2 n args = ([Value (printed (mkdt (year m) (month m) D (hour m) (minute m) (second m) 0) ++ " ")], Exits 0).
Proof. exact main_days_back. Qed.
Print Assumptions C97_days_back.
(** A moment, "every" and an amount of at most thirty days, a number and "times": so many lines, that far apart. *)
Theorem C97_repeat : forall cfg pd pdt md now1 now2, reads_dates pd pdt -> reads_times pdt ->
  (forall s r d, pd s = Done r d -> isodate_ok d) -> (forall s r d t, pdt s = Done r (d, t) -> isodate_ok d /\ isotime_ok t) -> dt_valid now1 = true -> dt_valid now2 = true ->
  forall N args w1 s b1 b2 ds b3 sp u b4 cs b5 w2 m,
  concat " " args = w1 ++ (s ++ b1 ++ "every" ++ b2 ++ ds ++ b3 ++ sp ++ b4 ++ cs ++ b5 ++ "times") ++ w2 -> spaces w1 -> spaces w2 ->
  four_digits m -> writes m s -> blanks b1 -> b1 <> "" -> blanks b2 -> digits ds -> blanks b3 -> In (sp, u) spellings ->
  blanks b4 -> digits cs -> blanks b5 -> clock_unit (punit_kept u) = true -> decimal ds * punit_secs u <= 30 * 86400 ->
  inst m + decimal cs * (decimal ds * punit_secs u) < instant 10000 1 1 0 0 0 -> decimal cs <= i64_max -> decimal cs < Z.of_nat N ->
  exists l, main md cfg pd pdt now1 now2 N args = (map (fun x => Value (printed x ++ " ")) l, Exits 0) /\ Z.of_nat (List.length l) = decimal cs /\
    forall k x, nth_error l k = Some x -> four_digits x /\ inst x = inst m + Z.of_nat k * (decimal ds * punit_secs u).
Proof. exact main_repeat. Qed.
Print Assumptions C97_repeat.
(** The same with "until" and another written moment: one line for each of the moments before it, none if it is not later. *)
Theorem C97_until : forall cfg pd pdt md now1 now2, reads_dates pd pdt -> reads_times pdt ->
  (forall s r d, pd s = Done r d -> isodate_ok d) -> (forall s r d t, pdt s = Done r (d, t) -> isodate_ok d /\ isotime_ok t) -> dt_valid now1 = true -> dt_valid now2 = true ->
  forall N args w1 s b1 b2 ds b3 sp u b4 b5 s2 w2 m en,
  concat " " args = w1 ++ (s ++ b1 ++ "every" ++ b2 ++ ds ++ b3 ++ sp ++ b4 ++ "until" ++ b5 ++ s2) ++ w2 -> spaces w1 -> spaces w2 ->
  four_digits m -> writes m s -> four_digits en -> writes en s2 -> blanks b1 -> b1 <> "" -> blanks b2 -> digits ds -> blanks b3 -> In (sp, u) spellings ->
  blanks b4 -> b4 <> "" -> blanks b5 -> clock_unit (punit_kept u) = true -> 0 < decimal ds -> decimal ds * punit_secs u <= 30 * 86400 ->
  let K := Z.max 0 ((inst en - inst m + decimal ds * punit_secs u - 1) / (decimal ds * punit_secs u)) in K < Z.of_nat N ->
  exists l, main md cfg pd pdt now1 now2 N args = (map (fun x => Value (printed x ++ " ")) l, Exits 0) /\ Z.of_nat (List.length l) = K /\
    forall k x, nth_error l k = Some x -> four_digits x /\ inst x = inst m + Z.of_nat k * (decimal ds * punit_secs u).
Proof. exact main_span. Qed.
Print Assumptions C97_until.
(** There are parsers as required, also by the other theorems about texts. *)
Theorem C97_parsers : reads_dates iso_date iso_datetime /\ reads_times iso_datetime /\ (forall s, fine iso_date s) /\ (forall s, fine iso_datetime s) /\
  (forall s r d, iso_date s = Done r d -> isodate_ok d) /\ (forall s r d t, iso_datetime s = Done r (d, t) -> isodate_ok d /\ isotime_ok t).
Proof.
  exact (conj iso_reads_dates (conj iso_reads_times (conj iso_date_fine (conj iso_datetime_fine
    (conj (fun s r d H => proj2 (iso_date_done s r d H)) (fun s r d t H => proj2 (iso_datetime_done s r d t H))))))).
Qed.
Print Assumptions C97_parsers.

Definition C97_now : datetime := mkdt 2016 2 29 12 0 0 0.
Notation demo97 := (main Checked (mkcfg true true) iso_date iso_datetime C97_now C97_now 9).
(** The bound on a sum is needed: thirty days later is a day too many. *)
Example C97_case : let m := mkdt 1999 12 31 23 59 30 0 in
  four_digits m /\ writes m "1999-12-31T23:59:30" /\ writes (mkdt 33 1 2 0 0 0 0) "0033-01-02" /\
  demo97 ["1999-12-31T23:59:30"] = ([Value "1999-12-31 23:59:30 "], Exits 0) /\
  date_exists 1900 2 29 = false /\ demo97 ["1900-02-29 "] = ([ParseError (OutOfBounds 1900 2 29 0 0 0)], Exits 0) /\
  expr_text (AENext (Amount 30 PDay) Plus (AELast (Amount 31 PSecond))) "30 days + 31s" /\
  demo97 ["1999-12-31T23:59:30"; "+ 30 days + 31s"] = ([Value "2000-02-01 00:00:01 "], Exits 0) /\
  demo97 ["1999-12-31T23:59:30"; "+ 29 days + 31s"] = ([Value "2000-01-30 00:00:01 "], Exits 0) /\
  inst (mkdt 2000 1 30 0 0 1 0) = inst m + (29 * 86400 + 31) /\ inst (mkdt 2000 1 30 0 0 1 0) < instant 2000 1 31 0 0 0.
Proof.
  cbv zeta. split; [vm_compute; repeat split; congruence|]. split; [exact (W_time (mkdt 1999 12 31 23 59 30 0))|]. split; [exact (W_date (mkdt 33 1 2 0 0 0 0) eq_refl eq_refl eq_refl)|].
  split; [vm_compute; reflexivity|]. split; [reflexivity|]. split; [vm_compute; reflexivity|].
  split; [|repeat split; vm_compute; reflexivity].
  apply (ET_next (Amount 30 PDay) "30 days" " " Plus " " (AELast (Amount 31 PSecond)) "31s"); [|reflexivity|reflexivity|apply ET_last].
  - apply (AT_number "" "30" " " "days" PDay); try reflexivity; [split; [reflexivity|discriminate]|vm_compute; discriminate|cbn; tauto].
  - apply (AT_number "" "31" "" "s" PSecond); try reflexivity; [split; [reflexivity|discriminate]|vm_compute; discriminate|cbn; tauto].
Qed.
Example C97_other_case :
  digits "14" /\ decimal "14" = 14 /\ demo97 ["2015-12-28"; "+ 14 months"] = ([Value "2017-02-28 00:00:00 "], Exits 0) /\ 12 * 2017 + 2 = 12 * 2015 + 12 + 14 /\
  demo97 ["2015-12-28T08:00:00 -"; "3w"] = ([Value "2015-12-07 08:00:00 "], Exits 0) /\ 1 <= 28 - times_kept 3 PWeek /\
  demo97 ["2016-02-28"; "every"; "36"; "hours 3times"] = ([Value "2016-02-28 00:00:00 "; Value "2016-02-29 12:00:00 "; Value "2016-03-02 00:00:00 "], Exits 0).
Proof. split; [split; [reflexivity|discriminate]|]. repeat split; vm_compute; try reflexivity; discriminate. Qed.
(** Three moments before midnight; a date that is not later gives none. *)
Example C97_until_case :
  demo97 ["2016-02-28 every 36 hours until 2016-03-03"] = ([Value "2016-02-28 00:00:00 "; Value "2016-02-29 12:00:00 "; Value "2016-03-02 00:00:00 "], Exits 0) /\
  demo97 ["2016-02-28 every 36 hours until 2016-03-02"] = ([Value "2016-02-28 00:00:00 "; Value "2016-02-29 12:00:00 "], Exits 0) /\
  demo97 ["2016-02-28 every 36 hours"; "until 2016-02-28T00:00:00"] = ([], Exits 0) /\ writes (mkdt 2016 3 3 0 0 0 0) "2016-03-03" /\
  (inst (mkdt 2016 3 3 0 0 0 0) - inst (mkdt 2016 2 28 0 0 0 0) + 36 * 3600 - 1) / (36 * 3600) = 3.
Proof. split; [|split; [|split; [|split; [exact (W_date (mkdt 2016 3 3 0 0 0 0) eq_refl eq_refl eq_refl)|]]]]; vm_compute; reflexivity. Qed.
