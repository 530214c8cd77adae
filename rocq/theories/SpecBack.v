(** Spec for the moments subtractions can reach (C116). *)
Require Import ZArith Bool List.
From Verif Require Import Prelude Spec Chrono TimeType SpecTree SpecMoment SpecExact.
Local Open Scope Z_scope.

(** [t - n1 u1 - n2 u2 - ...] *)
Definition less (t : timetype) (l : list (tunit * Z)) : timetype := fold_left (fun t s => Subtraction t (mk (fst s) (snd s))) l t.
(** Amounts that fit 32 bits and are not negative. *)
Definition small (s : tunit * Z) : Prop := 0 <= snd s < 2147483648.
(** [m] is on the first of a month and [m'] later in the day on the last of the month before, which is not of 31 days. *)
Definition stuck (m m' : datetime) : Prop :=
  month_index m = month_index m' + 1 /\ day m = 1 /\ sod m < sod m' /\
  day m' = month_length (year m') (month m') /\ month_length (year m') (month m') < 31.
