(** Vocabulary for the exact conditions under which the regular behaviour of dates holds. *)
Require Import ZArith Bool.
From Verif Require Import Prelude Spec Chrono TimeType SpecTree SpecMoment.
Local Open Scope Z_scope.

(** Day [e] (from 0) of year [y], the year after the one of the moment, counted in months of 30 days is the day of the
    calendar: January up to the 30th; 1 to 30 March of leap years; 1 to 30 April and May of common years. *)
Definition lands (y e : Z) : Prop :=
  e < 30 \/ (leap y = true /\ 60 <= e < 90) \/ (leap y = false /\ 90 <= e < 150).
(** How many days after 1 January of the following year [n] units after [m] are. *)
Definition days_past (u : tunit) (n : Z) (m : datetime) : Z := (inst m + n * unit_secs u) / 86400 - day_number (year m + 1) 1 1.

(** [c] days after [m] and [c] days back is [m] again: within the month, or one month on if the month of [m] has 31 days
    (January after December counts 30). *)
Definition back_again (c : Z) (m : datetime) : Prop :=
  day m + c <= month_length (year m) (month m) \/
  (month_length (year m) (month m) = 31 /\
   day m + c <= 31 + (if month m =? 12 then 30 else month_length (year m) (month m + 1)) /\
   (month m = 12 -> year m < max_year)).
(** Adding [n] units to [m] and subtracting them is [m] again (without its sub-seconds). Hours, minutes and seconds go at most
    once past the end of their field, and not if it was 0; but 24 to 47 hours from midnight of the last day of a month of 30 days do. *)
Definition undone (u : tunit) (n : Z) (m : datetime) : Prop :=
  match u with
  | UYear => year m + n <= max_year /\ ~ (month m = 2 /\ day m = 29 /\ leap (year m + n) = false)
  | UMonth =>
      let M := month m + n in
      (M <= 12 /\ day m <= month_length (year m) M) \/
      (12 < M <= 24 /\ year m < max_year /\ day m <= 30 /\ day m <= month_length (year m + 1) (M - 12))
  | UDay => back_again n m
  | _ => ((field u m + n < modulus u \/ (field u m + n < 2 * modulus u /\ 0 < field u m)) /\ back_again ((sod m + n * unit_secs u) / 86400) m) \/
         (u = UHour /\ hour m = 0 /\ 24 <= n < 48 /\ day m = 30 /\ month_length (year m) (month m) = 30)
  end.

(** A field drops to exactly its size below zero: one too many of the next unit is taken. *)
Definition sub_skips (u : tunit) (n : Z) (m : datetime) : bool :=
  match u with UDay => false | _ => field u m - n =? - modulus u end.
(** [m] minus [n] clock units, where it is a moment, is the true instant: no month is left, or a month of 31 days is entered;
    24 hours too many and the month entered having 30 days compensate. *)
Definition sub_exact (u : tunit) (n : Z) (m : datetime) : Prop :=
  let L := let '(py, pm) := prev_month (year m) (month m) in month_length py pm in
  let d := day m + (sod m - n * unit_secs u) / 86400 in
  if sub_skips u n m then u = UHour /\ d < 2 /\ L = 30 else 1 <= d \/ L = 31.

(** Midnight of the last day of a month. *)
Definition month_end (y mo : Z) : datetime := mkdt y mo (month_length y mo) 0 0 0 0.

(** Number of nodes of an expression. *)
Fixpoint nodes (t : timetype) : Z :=
  match t with
  | Addition a b | Subtraction a b => 1 + nodes a + nodes b
  | EndOfYear e | EndOfMonth e | EndOfDay e | EndOfHour e | EndOfMinute e => 1 + nodes e
  | _ => 1
  end.

(** How many days adding [n] months or years goes past the end of the month it reaches. *)
Definition spill (u : tunit) (n : Z) (m : datetime) : Z :=
  match u with
  | UMonth => if month m + n <=? 12 then Z.max 0 (day m - month_length (year m) (month m + n)) else if day m =? 31 then 1 else 0
  | UYear => if (month m =? 2) && (day m =? 29) && negb (leap (year m + n)) then 1 else 0
  | _ => 0
  end.
(** Months counted from the year 0, and the length of such a month. *)
Definition month_index (m : datetime) : Z := 12 * year m + month m - 1.
Definition index_length (i : Z) : Z := month_length (i / 12) (i mod 12 + 1).
(** [a] months and then [b] months are [a + b] months. *)
Definition months_join (a b : Z) (m : datetime) : Prop :=
  let i := month_index m in
  b = 0 \/
  (if month m + a <=? 12 then spill UMonth a m = 0 \/ spill UMonth (a + b) m = spill UMonth a m
   else day m = 31 \/ (day m <= index_length (i + a) /\ ((i + a + b) / 12 <> (i + a) / 12 \/ day m <= index_length (i + a + b)))).
(** How often subtracting [n] units takes one too many of the next unit (0 or 1). *)
Definition skip_count (u : tunit) (n : Z) (m : datetime) : Z := if clock_unit u && sub_skips u n m then 1 else 0.

(** The date aimed at by adding so much that the year is left, before the year is cut to 32 bits. *)
Definition aim (u : tunit) (n : Z) (m : datetime) : Z * Z * Z :=
  match u with
  | UYear => (year m + n, month m, day m)
  | UMonth => plus_months (year m) (month m) (day m) n
  | _ => let e := days_past u n m in (year m + 1 + e / 360, e mod 360 / 30 + 1, e mod 30 + 1)
  end.
(** That year less a multiple of 2^32 is a year that can be represented, and has such a day (29 February is moved). *)
Definition comes_round (u : tunit) (n : Z) (m : datetime) : Prop :=
  let '(Y, Mo, D) := aim u n m in
  exists k, 0 < k /\ min_year <= Y - k * 4294967296 <= max_year /\
    match u with UYear => True | _ => D <= month_length (Y - k * 4294967296) Mo end.
Definition beyond (u : tunit) (n : Z) (m : datetime) : Prop :=
  match u with
  | UYear => max_year < year m + n
  | UMonth => max_year * 12 + 12 < year m * 12 + month m + n
  | _ => instant (max_year + 1) 1 1 0 0 0 <= inst m + n * unit_secs u
  end.
