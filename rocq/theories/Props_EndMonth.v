(** The end of the month or year some months or years away (C123). *)
Require Import ZArith Bool List Lia.
From Verif Require Import Prelude Spec Chrono TimeType SpecTree SpecMoment SpecExact SpecEndMonth EndMonthProofs.
Local Open Scope Z_scope.

(** C123. The end of the month of a moment plus [n] months is the last day of the [n]th month after that of the moment, or of the
    month after it where the day of the moment does not fit and the sum spills over. *)
Theorem C123_month_add : forall md m n v, dt_valid m = true -> 0 <= n -> n * unit_secs UMonth <= span32 ->
  calculate md (EndOfMonth (Addition (Moment m) (Months n))) = Ok v ->
  v = Moment (last_day (month_index m + n + if spill UMonth n m =? 0 then 0 else 1)).
Proof. exact end_month_add. Qed.
Print Assumptions C123_month_add.
(** It exists exactly if the sum spills over or the day of the moment exists in that month. *)
Theorem C123_month_add_exact : forall md m n v, dt_valid m = true -> 0 <= n -> month_index m + n + 1 <= 12 * max_year + 11 ->
  (calculate md (EndOfMonth (Addition (Moment m) (Months n))) = Ok v <->
   v = Moment (last_day (month_index m + n + if spill UMonth n m =? 0 then 0 else 1)) /\ (spill UMonth n m = 0 -> day m <= index_length (month_index m + n))).
Proof. exact end_month_exact. Qed.
Print Assumptions C123_month_add_exact.
(** With subtraction it is always the last day of the [n]th month before, and it exists exactly if that month is at most in the year
    before, holds the day of the moment, and is representable. *)
Theorem C123_month_sub : forall md m n v, dt_valid m = true -> 0 <= n < 2147483648 ->
  (calculate md (EndOfMonth (Subtraction (Moment m) (Months n))) = Ok v <->
   v = Moment (last_day (month_index m - n)) /\ n < month m + 12 /\ day m <= index_length (month_index m - n) /\ 12 * min_year <= month_index m - n).
Proof. exact end_month_sub. Qed.
Print Assumptions C123_month_sub.
(** The end of the year [n] years later, from any day. *)
Theorem C123_year_add : forall md m n, dt_valid m = true -> min_year <= year m + n <= max_year ->
  calculate md (EndOfYear (Addition (Moment m) (Years n))) = Ok (Moment (month_end (year m + n) 12)).
Proof. exact end_year_plus. Qed.
Print Assumptions C123_year_add.
(** And [n] years earlier, except from a 29 February without a counterpart. *)
Theorem C123_year_sub : forall md m n v, dt_valid m = true -> min_year <= year m - n <= max_year ->
  (calculate md (EndOfYear (Subtraction (Moment m) (Years n))) = Ok v <->
   v = Moment (month_end (year m - n) 12) /\ ~ (month m = 2 /\ day m = 29 /\ leap (year m - n) = false)).
Proof. exact end_year_minus. Qed.
Print Assumptions C123_year_sub.

(** From 15 January 2015, 13 months later; from 31 January one month later, which is in March, and 13 months later, likewise; from
    30 January 13 months later, in February 2016, which is an error. *)
Example C123_month_add_case : let a := mkdt 2015 1 15 8 30 0 0 in let b := mkdt 2015 1 31 8 30 0 0 in let c := mkdt 2015 1 30 8 30 0 0 in
  dt_valid a = true /\ dt_valid b = true /\ dt_valid c = true /\ 13 * unit_secs UMonth <= span32 /\ month_index a + 13 + 1 <= 12 * max_year + 11 /\
  spill UMonth 13 a = 0 /\ last_day (month_index a + 13) = mkdt 2016 2 29 0 0 0 0 /\
  calculate Checked (EndOfMonth (Addition (Moment a) (Months 13))) = Ok (Moment (mkdt 2016 2 29 0 0 0 0)) /\
  spill UMonth 1 b = 3 /\ calculate Checked (EndOfMonth (Addition (Moment b) (Months 1))) = Ok (Moment (mkdt 2015 3 31 0 0 0 0)) /\
  spill UMonth 13 b = 1 /\ calculate Checked (EndOfMonth (Addition (Moment b) (Months 13))) = Ok (Moment (mkdt 2016 3 31 0 0 0 0)) /\
  spill UMonth 13 c = 0 /\ index_length (month_index c + 13) = 29 /\ (forall v, calculate Checked (EndOfMonth (Addition (Moment c) (Months 13))) <> Ok v).
Proof. vm_compute. repeat split; discriminate. Qed.
(** One and 15 months before 30 April 2016, and 2, 14 and 16 months before, which have no value. *)
Example C123_month_sub_case : let m := mkdt 2016 4 30 8 30 0 0 in
  dt_valid m = true /\ calculate Checked (EndOfMonth (Subtraction (Moment m) (Months 1))) = Ok (Moment (mkdt 2016 3 31 0 0 0 0)) /\
  calculate Checked (EndOfMonth (Subtraction (Moment m) (Months 15))) = Ok (Moment (mkdt 2015 1 31 0 0 0 0)) /\ last_day (month_index m - 15) = mkdt 2015 1 31 0 0 0 0 /\
  index_length (month_index m - 2) = 29 /\ (forall v, calculate Checked (EndOfMonth (Subtraction (Moment m) (Months 2))) <> Ok v) /\
  index_length (month_index m - 14) = 28 /\ (forall v, calculate Checked (EndOfMonth (Subtraction (Moment m) (Months 14))) <> Ok v) /\
  (forall v, calculate Checked (EndOfMonth (Subtraction (Moment m) (Months 16))) <> Ok v).
Proof. vm_compute. repeat split; discriminate. Qed.
(** Years from 29 February 2016. *)
Example C123_year_case : let m := mkdt 2016 2 29 8 30 0 0 in
  dt_valid m = true /\ min_year <= year m + 1 <= max_year /\ min_year <= year m - 4 <= max_year /\
  calculate Checked (EndOfYear (Addition (Moment m) (Years 1))) = Ok (Moment (mkdt 2017 12 31 0 0 0 0)) /\
  calculate Checked (EndOfYear (Addition (Moment m) (Years (-1)))) = Ok (Moment (mkdt 2015 12 31 0 0 0 0)) /\
  calculate Checked (EndOfYear (Subtraction (Moment m) (Years 4))) = Ok (Moment (mkdt 2012 12 31 0 0 0 0)) /\
  leap (year m - 1) = false /\ (forall v, calculate Checked (EndOfYear (Subtraction (Moment m) (Years 1))) <> Ok v).
Proof. vm_compute. repeat split; discriminate. Qed.
