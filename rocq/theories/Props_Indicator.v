(** Property C101: comparisons of days and months. *)
Require Import ZArith Bool List Lia.
From Verif Require Import Prelude Spec Chrono TimeType Matcher Indicator IndicatorProofs.
Local Open Scope Z_scope.

(** C101. Both are total orders that agree with equality. *)
Theorem C101_days : forall d e f,
  (wday_compare d e = Eq <-> d = e) /\ wday_compare e d = CompOpp (wday_compare d e) /\ (wday_compare d e = Lt -> wday_compare e f = Lt -> wday_compare d f = Lt).
Proof. exact wday_order. Qed.
Print Assumptions C101_days.
Theorem C101_months : forall d e f,
  (ymonth_compare d e = Eq <-> d = e) /\ ymonth_compare e d = CompOpp (ymonth_compare d e) /\ (ymonth_compare d e = Lt -> ymonth_compare e f = Lt -> ymonth_compare d f = Lt).
Proof. exact ymonth_order. Qed.
Print Assumptions C101_months.
(** Within a week, which begins on Monday (day 1 is Monday, 1 January of the year 1), days compare as their dates do. *)
Theorem C101_week : forall m1 m2 d1 d2, (day_number (year m1) (month m1) (day m1) - 1) / 7 = (day_number (year m2) (month m2) (day m2) - 1) / 7 ->
  is_a (Moment m1) d1 = Ok true -> is_a (Moment m2) d2 = Ok true ->
  wday_compare d1 d2 = (day_number (year m1) (month m1) (day m1) ?= day_number (year m2) (month m2) (day m2)).
Proof. exact week_days. Qed.
Print Assumptions C101_week.
(** Within a year, months compare as the moments in them do. *)
Theorem C101_year : forall m1 m2 d1 d2, year m1 = year m2 -> is_in (Moment m1) d1 = Ok true -> is_in (Moment m2) d2 = Ok true ->
  (ymonth_compare d1 d2 = Lt -> dt_compare m1 m2 = Lt) /\ (dt_compare m1 m2 = Lt -> ymonth_compare d1 d2 <> Gt).
Proof. exact year_months. Qed.
Print Assumptions C101_year.

(** 29 February 2016 was a Monday, 6 March the Sunday of that week, 7 March the next Monday. *)
Example C101_case : let a := mkdt 2016 2 29 0 0 0 0 in let b := mkdt 2016 3 6 12 0 0 0 in
  (day_number 2016 2 29 - 1) / 7 = (day_number 2016 3 6 - 1) / 7 /\ (day_number 2016 2 29 - 1) / 7 < (day_number 2016 3 7 - 1) / 7 /\
  is_a (Moment a) Monday = Ok true /\ is_a (Moment b) Sunday = Ok true /\ wday_compare Monday Sunday = Lt /\
  is_in (Moment a) February = Ok true /\ is_in (Moment b) March = Ok true /\ ymonth_compare February March = Lt /\ dt_compare a b = Lt.
Proof. vm_compute. repeat split. Qed.
