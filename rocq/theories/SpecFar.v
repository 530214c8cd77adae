(** When adding an amount below zero and subtracting it again gives the moment back. *)
Require Import ZArith Bool.
From Verif Require Import Prelude Spec Chrono TimeType SpecTree SpecMoment SpecWide.
Local Open Scope Z_scope.

(** Hours, minutes and seconds: the field does not drop below zero; or it comes to zero after whole turns of 2^32 days, and the fields above it are zero.
    Days and months: the last 32 bits of the number count, and are a day of the month or a month with such a day. *)
Definition undone_back (u : tunit) (n : Z) (m : datetime) : Prop :=
  match u with
  | USec => 0 <= second m + n \/ (hour m = 0 /\ minute m = 0 /\ (60 * 60 * 24 * 2 ^ 32 | second m + n))
  | UMin => 0 <= minute m + n \/ (hour m = 0 /\ (60 * 24 * 2 ^ 32 | minute m + n))
  | UHour => 0 <= hour m + n \/ (24 * 2 ^ 32 | hour m + n)
  | UDay => 1 <= low32 (day m + n) <= month_length (year m) (month m)
  | UMonth => let M := low32 (month m + n) in 1 <= M <= 12 /\ day m <= month_length (year m) M /\ (month m + n <= 0 -> day m <= 30)
  | UYear => let Y := wrap32 (year m + n) in min_year <= Y <= max_year /\ ~ (month m = 2 /\ day m = 29 /\ leap Y = false)
  end.
