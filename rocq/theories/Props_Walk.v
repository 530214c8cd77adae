(** Property C99: any sequence of next(), skip() and rollback() calls on a stepping iterator. *)
Require Import ZArith Bool List.
From Verif Require Import Prelude Spec Chrono TimeType Iter SpecTree SpecMoment SpecIter SpecWalk WalkProofs.
Import ListNotations.
Local Open Scope Z_scope.

(** C99. Steps of up to twelve months from a day up to the 28th. *)
Theorem C99_months : forall md m n it os, dt_valid m = true -> nano m = 0 -> day m <= 28 -> 0 <= n <= 12 -> build m (Months n) = Ok it ->
  Forall (fun p => min_year <= year (months_away m n p) <= max_year) (places false 0 os) ->
  replies md os it = walk (months_away m n) false 0 os.
Proof. exact walk_months. Qed.
Print Assumptions C99_months.
(** Steps of any number of years. *)
Theorem C99_years : forall md m n it os, dt_valid m = true -> nano m = 0 -> ~ (month m = 2 /\ day m = 29) -> in_i64 n = true -> build m (Years n) = Ok it ->
  Forall (fun p => min_year <= year m + p * n <= max_year) (places false 0 os) ->
  replies md os it = walk (years_away m n) false 0 os.
Proof. exact walk_years. Qed.
Print Assumptions C99_years.
(** Steps of less than sixty seconds, less than sixty minutes, less than 24 hours, or days, within a month. *)
Theorem C99_clock : forall md m u n it os, dt_valid m = true -> nano m = 0 -> clock_unit u = true -> 0 <= n -> (u <> UDay -> n < modulus u) ->
  in_i64 n = true -> build m (mk u n) = Ok it ->
  Forall (fun p => 1 <= day_away m u n p <= month_length (year m) (month m)) (places false 0 os) ->
  replies md os it = walk (time_away m u n) false 0 os.
Proof. exact walk_clock. Qed.
Print Assumptions C99_clock.
(** [time_away] is so many seconds away. *)
Theorem C99_seconds : forall m u n p, inst (time_away m u n p) = inst m + p * (n * unit_secs u).
Proof. exact away_inst. Qed.
Print Assumptions C99_seconds.
(** No call changes the step. *)
Theorem C99_increment : forall md os it, get_increment (performs md os it) = get_increment it.
Proof. exact performs_inc. Qed.
Print Assumptions C99_increment.

Definition C99_calls : list iop := [Rollback; Next; Next; Next; Skip; Rollback; Rollback; Next; Rollback; Rollback; Rollback; Next].
Definition C99_start : datetime := mkdt 2016 1 28 23 30 0 0.
Notation says := (Says (Ok tt)).
Notation gives y mo d h mi := (Gives (Some (Ok (Moment (mkdt y mo d h mi 0 0))))).
(** Three months at a time; twelve hours at a time. *)
Example C99_case : dt_valid C99_start = true /\ places false 0 C99_calls = [-1; -1; 0; 1; 2; 1; 0; 1; 0; -1; -2; -1] /\
  replies Checked C99_calls (mkiter (Moment C99_start) (Months 3) false) =
    [says; gives 2015 10 28 23 30; gives 2016 1 28 23 30; gives 2016 4 28 23 30; says; says; says; gives 2016 4 28 23 30; says; says; says; gives 2015 10 28 23 30] /\
  replies Checked C99_calls (mkiter (Moment C99_start) (Hours 12) false) =
    [says; gives 2016 1 28 11 30; gives 2016 1 28 23 30; gives 2016 1 29 11 30; says; says; says; gives 2016 1 29 11 30; says; says; says; gives 2016 1 28 11 30] /\
  walk (years_away C99_start 70000) false 0 C99_calls =
    [says; gives (-67984) 1 28 23 30; gives 2016 1 28 23 30; gives 72016 1 28 23 30; says; says; says; gives 72016 1 28 23 30; says; says; says; gives (-67984) 1 28 23 30].
Proof. vm_compute. repeat split. Qed.
(** The conditions are needed: with a day at a time the way back from 1 March leads to a day that does not exist; 24 hours back are 48 hours. *)
Example C99_other_case :
  replies Checked [Next; Next; Rollback] (mkiter (Moment (mkdt 2016 2 29 0 0 0 0)) (Days 1) false) =
    [gives 2016 2 29 0 0; gives 2016 3 1 0 0; Says (Err (OutOfBounds 2016 2 0 0 0 0))] /\
  replies Checked [Next; Next; Rollback; Next] (mkiter (Moment (mkdt 2016 2 20 0 0 0 0)) (Hours 24) false) =
    [gives 2016 2 20 0 0; gives 2016 2 21 0 0; says; gives 2016 2 20 0 0].
Proof. vm_compute. repeat split. Qed.
