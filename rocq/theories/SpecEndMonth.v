(** The last day of a month counted from the month of a moment. *)
Require Import ZArith Bool.
From Verif Require Import Prelude Spec Chrono TimeType SpecTree SpecMoment SpecExact.
Local Open Scope Z_scope.

(** The beginning of the last day of the month with the given number, counted from January of year 0. *)
Definition last_day (i : Z) : datetime := month_end (i / 12) (i mod 12 + 1).
