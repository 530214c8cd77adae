(** Vocabulary for iterations backwards. *)
Require Import ZArith.
From Verif Require Import Prelude Spec Chrono TimeType SpecTree SpecMoment.
Local Open Scope Z_scope.

(** First value of a field. *)
Definition lowest (u : tunit) : Z := match u with UDay | UMonth => 1 | _ => 0 end.
(** A moment with one field lowered by [c], on the whole second. *)
Definition lowered (u : tunit) (m : datetime) (c : Z) : datetime :=
  match u with
  | USec => mkdt (year m) (month m) (day m) (hour m) (minute m) (second m - c) 0
  | UMin => mkdt (year m) (month m) (day m) (hour m) (minute m - c) (second m) 0
  | UHour => mkdt (year m) (month m) (day m) (hour m - c) (minute m) (second m) 0
  | UDay => mkdt (year m) (month m) (day m - c) (hour m) (minute m) (second m) 0
  | UMonth => mkdt (year m) (month m - c) (day m) (hour m) (minute m) (second m) 0
  | UYear => mkdt (year m - c) (month m) (day m) (hour m) (minute m) (second m) 0
  end.
(** Steps of less than a minute in seconds, less than an hour in minutes, less than a day in hours, any number of days, and any number of
    months from a day every month has. *)
Definition plain_step (u : tunit) (n : Z) (m : datetime) : Prop :=
  match u with
  | USec | UMin | UHour => 0 < n < modulus u
  | UDay => 0 < n <= 2147483648
  | UMonth => 0 < n <= 2147483648 /\ day m <= 28
  | UYear => False
  end.
