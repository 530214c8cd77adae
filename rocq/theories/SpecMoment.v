(** Specification vocabulary on moments; uses only the record [datetime], the enums
    [timetype] and [kek] (/repo/src/timetype.rs 20-40, /repo/src/error.rs 3-43) and [Spec]. *)
Require Import ZArith Bool List.
From Verif Require Import Prelude Spec Chrono TimeType.
Local Open Scope Z_scope.

(** Seconds since midnight. *)
Definition sod (m : datetime) : Z := hour m * 3600 + minute m * 60 + second m.

(** Whole seconds elapsed at a moment (sub-seconds dropped). *)
Definition inst (m : datetime) : Z :=
  instant (year m) (month m) (day m) (hour m) (minute m) (second m).

(** A field of a moment by its unit. *)
Definition field (u : tunit) (m : datetime) : Z :=
  match u with
  | USec => second m | UMin => minute m | UHour => hour m
  | UDay => day m | UMonth => month m | UYear => year m
  end.

(** Units that are fixed amounts of elapsed time. *)
Definition clock_unit (u : tunit) : bool :=
  match u with USec | UMin | UHour | UDay => true | _ => false end.

(** The moment with sub-seconds dropped. *)
Definition whole_second (m : datetime) : datetime :=
  mkdt (year m) (month m) (day m) (hour m) (minute m) (second m) 0.

(** Date [y]-[mo]-[d] with the time of day [r] (seconds since midnight). *)
Definition at_time (y mo d r : Z) : datetime :=
  mkdt y mo d (r / 3600) (r mod 3600 / 60) (r mod 60) 0.

(** Dates a moment can have. *)
Definition representable (y mo d : Z) : bool :=
  (min_year <=? y) && (y <=? max_year) && date_exists y mo d.

(** Low 32 bits of a number, as a signed number. *)
Definition wrap32 (z : Z) : Z := (z + 2147483648) mod 4294967296 - 2147483648.

(** The moment at second [r] of day [y]-[mo]-[d], or the error for dates that do not exist.
    The error payload is as observed: its day component holds the hour. *)
Definition built (y mo d r : Z) : result :=
  if representable y mo d then Ok (Moment (at_time y mo d r))
  else Err (OutOfBounds y mo (r / 3600) (r / 3600) (r mod 3600 / 60) (r mod 60)).

(** An out-of-bounds error, whatever it reports. *)
Definition oob (r : result) : Prop := exists y mo d h mi s, r = Err (OutOfBounds y mo d h mi s).

(** The date reached by adding [n] months: the day number is kept if the target month is
    long enough, otherwise the excess days spill into the following month; target months
    after December of the same year count as 30 days long. *)
Definition plus_months (y mo d n : Z) : Z * Z * Z :=
  let M := mo + n in
  if M <=? 12 then
    if d <=? month_length y M then (y, M, d) else (y, M + 1, d - month_length y M)
  else
    if d <=? 30 then (y + (M - 1) / 12, (M - 1) mod 12 + 1, d) else (y + M / 12, M mod 12 + 1, 1).

(** The date reached by moving to year [Y]: 29 February becomes 1 March in common years. *)
Definition in_year (Y mo d : Z) : Z * Z * Z :=
  if (mo =? 2) && (d =? 29) && negb (leap Y) then (Y, 3, 1) else (Y, mo, d).

(** About 2.1 * 10^9 360-day years: beyond it the year no longer fits 32 bits. *)
Definition span32 : Z := 2147000000 * 31104000.

(** Fragments on which addition of [n] units is regular. *)
Definition regular (u : tunit) (n : Z) (m : datetime) : Prop :=
  match u with
  | UYear => ~ (month m = 2 /\ day m = 29)
  | UMonth => day m <= 28
  | _ => inst m + n * unit_secs u < instant (year m + 1) 1 31 0 0 0
  end.

(** The month before. *)
Definition prev_month (y mo : Z) : Z * Z := if mo =? 1 then (y - 1, 12) else (y, mo - 1).

(** Day [D] of a month, where days 0, -1, ... are the last days of the previous month counted
    as if that month had 31 days. *)
Definition back_day (y mo D : Z) : Z * Z * Z :=
  if 1 <=? D then (y, mo, D) else let '(y', mo') := prev_month y mo in (y', mo', 31 + D).

(** [built] on a date triple. *)
Definition built3 (ymd : Z * Z * Z) (r : Z) : result :=
  let '(y, mo, d) := ymd in built y mo d r.

(** Size of a clock field: how many units make one of the next unit. *)
Definition modulus (u : tunit) : Z := match u with USec | UMin => 60 | UHour => 24 | _ => 0 end.

(** ** Calendar periods *)
Inductive period := PYear | PMonth | PDay | PHour | PMinute.
Definition coarseness (k : period) : Z :=
  match k with PYear => 4 | PMonth => 3 | PDay => 2 | PHour => 1 | PMinute => 0 end.
(** The expression asking for the end of a period. *)
Definition end_of (k : period) (t : timetype) : timetype :=
  match k with
  | PYear => EndOfYear t | PMonth => EndOfMonth t | PDay => EndOfDay t | PHour => EndOfHour t | PMinute => EndOfMinute t
  end.
(** The end of the period containing [m]: midnight of the last day of its year or month,
    the last second of its day, hour or minute. *)
Definition end_at (k : period) (m : datetime) : datetime :=
  match k with
  | PYear => mkdt (year m) 12 31 0 0 0 0
  | PMonth => mkdt (year m) (month m) (month_length (year m) (month m)) 0 0 0 0
  | PDay => mkdt (year m) (month m) (day m) 23 59 59 0
  | PHour => mkdt (year m) (month m) (day m) (hour m) 59 59 0
  | PMinute => mkdt (year m) (month m) (day m) (hour m) (minute m) 59 0
  end.
(** First second of the period containing [m], and of the next one. *)
Definition period_start (k : period) (m : datetime) : Z :=
  match k with
  | PYear => instant (year m) 1 1 0 0 0
  | PMonth => instant (year m) (month m) 1 0 0 0
  | PDay => instant (year m) (month m) (day m) 0 0 0
  | PHour => instant (year m) (month m) (day m) (hour m) 0 0
  | PMinute => instant (year m) (month m) (day m) (hour m) (minute m) 0
  end.
Definition next_period (k : period) (m : datetime) : Z :=
  match k with
  | PYear => instant (year m + 1) 1 1 0 0 0
  | PMonth => if month m =? 12 then instant (year m + 1) 1 1 0 0 0 else instant (year m) (month m + 1) 1 0 0 0
  | PDay => instant (year m) (month m) (day m) 0 0 0 + 86400
  | PHour => instant (year m) (month m) (day m) (hour m) 0 0 + 3600
  | PMinute => instant (year m) (month m) (day m) (hour m) (minute m) 0 + 60
  end.
(** How far before the next period the end lies: one day, or one second. *)
Definition period_resolution (k : period) : Z := match k with PYear | PMonth => 86400 | _ => 1 end.
(** The error for amounts (days, hours and minutes report the month variant, too). *)
Definition end_error (k : period) (v : timetype) : kek :=
  match k with PYear => CannotCalculateEndOfYearOn v | _ => CannotCalculateEndOfMonthOn v end.

(** If the result is an out-of-bounds error, then the date [Y]-[Mo]-[D] is indeed not
    representable, and the error reports its year and month and the time of day [r]. *)
Definition reports (res : result) (Y Mo D r : Z) : Prop :=
  forall y mo d h mi s, res = Err (OutOfBounds y mo d h mi s) ->
    representable Y Mo D = false /\ y = Y /\ mo = Mo /\
    h * 3600 + mi * 60 + s = r /\ 0 <= mi < 60 /\ 0 <= s < 60.
