(** Spec for the order of sums and differences (C18, C112): by how much the code misses the true instant. *)
Require Import ZArith Bool.
From Verif Require Import Prelude Spec Chrono TimeType SpecTree SpecMoment SpecExact.
Local Open Scope Z_scope.

(** Seconds by which [m] plus [n] clock units, where it is a moment, is ahead: none within the year of [m]; after it the days are
    counted in months of 30 days. *)
Definition ahead (u : tunit) (n : Z) (m : datetime) : Z :=
  let e := days_past u n m in
  if e <? 0 then 0 else 86400 * (day_number (year m + 1 + e / 360) (e mod 360 / 30 + 1) (e mod 30 + 1) - (day_number (year m + 1) 1 1 + e)).
(** Seconds taken from [m] when [n] clock units are subtracted: one too many of the next unit if the field drops to exactly its size below zero. *)
Definition taken (u : tunit) (n : Z) (m : datetime) : Z := (n + skip_count u n m * modulus u) * unit_secs u.
(** Seconds given back as the month entered is counted as one of 31 days. *)
Definition given_back (u : tunit) (n : Z) (m : datetime) : Z :=
  if 1 <=? day m + (sod m - taken u n m) / 86400 then 0
  else 86400 * (31 - (let '(py, pm) := prev_month (year m) (month m) in month_length py pm)).
(** How many days adding [n] months or years, of either sign, goes past the end of the month it reaches; a 31st that reaches the month before
    January becomes 1 January. *)
Definition spill_any (u : tunit) (n : Z) (m : datetime) : Z :=
  match u with UMonth => if month m + n <=? 0 then (if day m =? 31 then 1 else 0) else spill u n m | _ => spill u n m end.
