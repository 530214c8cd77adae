(** Exact condition for C62 with seconds, minutes, hours and days. *)
Require Import ZArith Bool List Lia.
From Verif Require Import Prelude Spec Chrono TimeType SpecTree SpecMoment SpecTwice TwiceProofs.
Local Open Scope Z_scope.

(** C62. Where all three sums succeed, [m + a + b] and [m + (a + b)] are the same moment if and only if the first
    sum stays in the year of [m], or all results lie in one later year and the calendar is as far ahead of months
    of 30 days in the month of the first sum as in that of the last. *)
Theorem C62_clock_exactly_partial : forall md m t1 t2 m1 m2 m3, dt_valid m = true -> tt_ok t1 = true -> tt_ok t2 = true -> amount_only t1 = true -> amount_only t2 = true ->
  abs_secs t1 + abs_secs t2 <= i64_max -> clock_unit (finest t1) = true -> clock_unit (finest t2) = true -> 0 <= secs t1 -> 0 <= secs t2 -> secs t1 + secs t2 <= span32 ->
  calculate md (Addition (Moment m) t1) = Ok (Moment m1) -> calculate md (Addition (Addition (Moment m) t1) t2) = Ok (Moment m2) ->
  calculate md (Addition (Moment m) (Addition t1 t2)) = Ok (Moment m3) ->
  (m2 = m3 <-> year m1 = year m \/ (year m1 = year m2 /\ year m2 = year m3 /\ drift (year m1) (month m1) = drift (year m1) (month m3))).
Proof. exact twice_exactly. Qed.
Print Assumptions C62_clock_exactly_partial.
(** By way of 20 April 2017 to 15 May (equal: the calendar is not ahead in either), to 15 June (not equal: one day ahead), and by way of
    31 December 2016 to 1 April 2017. *)
Example C62_clock_exactly_case : let m := mkdt 2016 12 30 5 0 0 0 in let t1 := Addition (Days 110) (Hours 24) in dt_valid m = true /\
  drift 2017 4 = 0 /\ drift 2017 5 = 0 /\ drift 2017 6 = 1 /\
  calculate Checked (Addition (Moment m) t1) = Ok (Moment (mkdt 2017 4 20 5 0 0 0)) /\
  calculate Checked (Addition (Addition (Moment m) t1) (Days 25)) = Ok (Moment (mkdt 2017 5 15 5 0 0 0)) /\
  calculate Checked (Addition (Moment m) (Addition t1 (Days 25))) = Ok (Moment (mkdt 2017 5 15 5 0 0 0)) /\
  calculate Checked (Addition (Addition (Moment m) t1) (Days 56)) = Ok (Moment (mkdt 2017 6 15 5 0 0 0)) /\
  calculate Checked (Addition (Moment m) (Addition t1 (Days 56))) = Ok (Moment (mkdt 2017 6 16 5 0 0 0)) /\
  calculate Checked (Addition (Moment m) (Days 1)) = Ok (Moment (mkdt 2016 12 31 5 0 0 0)) /\
  calculate Checked (Addition (Addition (Moment m) (Days 1)) (Days 91)) = Ok (Moment (mkdt 2017 4 1 5 0 0 0)) /\
  calculate Checked (Addition (Moment m) (Addition (Days 1) (Days 91))) = Ok (Moment (mkdt 2017 4 1 5 0 0 0)).
Proof. vm_compute. repeat split. Qed.
