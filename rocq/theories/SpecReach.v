(** Spec for the moments an addition can reach (C115). *)
Require Import ZArith Bool.
From Verif Require Import Prelude Spec Chrono TimeType SpecTree SpecMoment SpecExact.
Local Open Scope Z_scope.

(** Seconds that have to be added to [m] to reach [m']: the true distance within the year of [m]; otherwise the rest of that year, and
    then years of 360 and months of 30 days. *)
Definition way (m m' : datetime) : Z :=
  if year m' =? year m then inst m' - inst m
  else 86400 * (year_length (year m) - (days_before (year m) (month m) + day m)
                + 360 * (year m' - year m - 1) + 30 * (month m' - 1) + day m') + sod m' - sod m.

(** [m'] is not on a 31st of a later year than [m]. *)
Definition on_way (m m' : datetime) : Prop := year m' = year m \/ day m' <= 30.

(** The days on which [m] plus months arrives. *)
Definition month_day (m m' : datetime) : Prop :=
  if year m' =? year m then
    day m' = day m \/ (month m < month m' /\ day m' + month_length (year m) (month m' - 1) = day m)
  else (day m <= 30 /\ day m' = day m) \/ (day m = 31 /\ day m' = 1 /\ 12 * (year m + 1) < month_index m').
(** The days on which [m] plus years arrives. *)
Definition year_day (m m' : datetime) : Prop :=
  month m' = month m /\ day m' = day m \/
  month m = 2 /\ day m = 29 /\ month m' = 3 /\ day m' = 1 /\ leap (year m') = false.
