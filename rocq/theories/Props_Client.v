(** Property C98: expressions built by calls of the public functions. *)
Require Import ZArith Bool List.
From Verif Require Import Prelude Spec Chrono TimeType SpecTree SpecMoment SpecAnswer SpecClient ClientProofs.
Local Open Scope Z_scope.

(** C98. Calling the public functions and evaluating what they return gives the answer for the expression asked for. *)
Theorem C98_programs : forall md a, asked_ok a = true -> weeks_fit a = true -> (do t <- ask md a; calculate md t) = answer md (written a).
Proof. exact client_answer. Qed.
Print Assumptions C98_programs.
(** With overflow checks a call panics if some number of weeks does not fit. *)
Theorem C98_weeks_overflow : forall a, weeks_fit a = false -> ask Checked a = Panic PArith.
Proof. exact client_overflow. Qed.
Print Assumptions C98_weeks_overflow.
(** The public tests tell which kind of call came last. *)
Theorem C98_tests : forall md a t, ask md a = Ok t ->
  (is_a_amount t = true <-> sort_of a = AnAmount) /\ (is_moment t = true <-> sort_of a = AMoment) /\
  (is_addition t = true <-> sort_of a = ASum) /\ (is_subtraction t = true <-> sort_of a = ADifference) /\
  (forall m, get_moment t = Some m <-> a = At m).
Proof. exact client_kinds. Qed.
Print Assumptions C98_tests.
(** The five public functions for ends give the ends of the periods around the moment they are called on. *)
Theorem C98_ends : forall md t m, tt_ok t = true -> calculate md t = Ok (Moment m) ->
  calculate md (mk_end_of_year t) = Ok (Moment (mkdt (year m) 12 31 0 0 0 0)) /\
  calculate md (mk_end_of_month t) = Ok (Moment (mkdt (year m) (month m) (month_length (year m) (month m)) 0 0 0 0)) /\
  calculate md (mk_end_of_day t) = Ok (Moment (mkdt (year m) (month m) (day m) 23 59 59 0)) /\
  calculate md (mk_end_of_hour t) = Ok (Moment (mkdt (year m) (month m) (day m) (hour m) 59 59 0)) /\
  calculate md (mk_end_of_minute t) = Ok (Moment (mkdt (year m) (month m) (day m) (hour m) (minute m) 59 0)).
Proof. exact client_ends. Qed.
Print Assumptions C98_ends.

(** The end of the month two weeks less an hour before noon of 1 March 2016, built with -= and - (335 hours are too many to borrow); with whole weeks; weeks that do not fit. *)
Definition C98_asked : asked := EndOf PMonth (Difference true (At (mkdt 2016 3 1 12 0 0 0)) (Difference false (InWeeks 2) (Units UHour 1))).
Example C98_case : asked_ok C98_asked = true /\ weeks_fit C98_asked = true /\ sort_of C98_asked = AnEnd /\
  answer Checked (written C98_asked) = Err (OutOfBounds 2016 2 4294966997 4294966997 0 0) /\
  (do t <- ask Checked (EndOf PMonth (Difference true (At (mkdt 2016 3 1 12 0 0 0)) (InWeeks 2))); calculate Checked t) = Ok (Moment (mkdt 2016 2 29 0 0 0 0)) /\
  weeks_fit (Sum true (At (mkdt 2016 3 1 12 0 0 0)) (InWeeks 1317624576693539402)) = false /\
  ask Checked (Sum false (At (mkdt 2016 3 1 12 0 0 0)) (Units UDay 3)) = Ok (Addition (Moment (mkdt 2016 3 1 12 0 0 0)) (Days 3)) /\
  (do t <- ask Checked (EndOf PMinute (Sum false (At (mkdt 2016 3 1 12 0 0 0)) (Units UDay 3))); calculate Checked t) = Ok (Moment (mkdt 2016 3 4 12 0 59 0)).
Proof. vm_compute. repeat split. Qed.
