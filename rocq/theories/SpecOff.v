(** How far sums and differences with moments are off (C121). *)
Require Import ZArith Bool.
From Verif Require Import Prelude Spec Chrono TimeType SpecTree SpecMoment SpecExact SpecTwice.
Local Open Scope Z_scope.

(** Days by which a moment reached from [m] in a later year is late: the years between have 360 days each, the months of
    the year reached 30 days each. *)
Definition late (m x : datetime) : Z :=
  if year x =? year m then 0
  else day_number (year x) 1 1 - day_number (year m + 1) 1 1 - 360 * (year x - year m - 1) + drift (year x) (month x).

(** Seconds by which [m] less [n] units is late: a month entered backwards has 31 days; one of the next unit too many is taken
    if the field would be exactly its size below zero. *)
Definition sub_late (u : tunit) (n : Z) (m : datetime) : Z :=
  let extra := if sub_skips u n m then modulus u * unit_secs u else 0 in
  let L := let '(py, pm) := prev_month (year m) (month m) in month_length py pm in
  (if 1 <=? day m + (sod m - n * unit_secs u - extra) / 86400 then 0 else 86400 * (31 - L)) - extra.

(** Weekday of a moment, 0 for Monday. *)
Definition weekday_of (m : datetime) : Z := weekday (year m) (month m) (day m).
