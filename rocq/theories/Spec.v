(** Independent specification vocabulary: the proleptic Gregorian calendar,
    elapsed time, and durations.  Nothing here refers to the model of /repo. *)
Require Import ZArith Bool List.
Import ListNotations.
Local Open Scope Z_scope.

(** ** Calendar *)

(** Leap years by the 4/100/400 rule, with floor-modulo (correct for negative years). *)
Definition leap (y : Z) : bool :=
  (y mod 4 =? 0) && (negb (y mod 100 =? 0) || (y mod 400 =? 0)).

Definition year_length (y : Z) : Z := if leap y then 366 else 365.

(** Length of month [m] (1..12) of year [y]. *)
Definition month_length (y m : Z) : Z :=
  nth (Z.to_nat (m - 1))
      [31; if leap y then 29 else 28; 31; 30; 31; 30; 31; 31; 30; 31; 30; 31] 0.

(** A calendar date exists. *)
Definition date_exists (y m d : Z) : bool :=
  (1 <=? m) && (m <=? 12) && (1 <=? d) && (d <=? month_length y m).

(** Days before month [m] in year [y]: sum of the lengths of the earlier months. *)
Fixpoint days_before_nat (y : Z) (k : nat) : Z :=
  match k with
  | O => 0
  | S k' => days_before_nat y k' + month_length y (Z.of_nat k' + 1)
  end.
Definition days_before (y m : Z) : Z := days_before_nat y (Z.to_nat (m - 1)).

(** Days from the start of year 1 to the start of year [y] (negative before). *)
Definition days_before_year (y : Z) : Z :=
  365 * (y - 1) + (y - 1) / 4 - (y - 1) / 100 + (y - 1) / 400.

(** Rata Die: number of the day, 1 = 0001-01-01. *)
Definition day_number (y m d : Z) : Z := days_before_year y + days_before y m + d.

(** Weekday, 0 = Monday ... 6 = Sunday (day 1 is a Monday). *)
Definition weekday (y m d : Z) : Z := (day_number y m d - 1) mod 7.

(** Seconds elapsed since 0000-12-31 00:00:00. *)
Definition instant (y m d h mi s : Z) : Z :=
  day_number y m d * 86400 + h * 3600 + mi * 60 + s.

(** Years of [chrono::NaiveDate]. *)
Definition min_year : Z := -262144.
Definition max_year : Z := 262143.

(** ** Durations *)
Inductive tunit := USec | UMin | UHour | UDay | UMonth | UYear.

(** Length of a unit in seconds by the documented convention (30-day months, 12-month
    years; /repo/src/timetype.rs doc comment lines 235-241). *)
Definition unit_secs (u : tunit) : Z :=
  match u with
  | USec => 1
  | UMin => 60
  | UHour => 3600
  | UDay => 86400
  | UMonth => 2592000
  | UYear => 31104000
  end.
