(** Spec for the moments that are some moment less an amount (C119). *)
Require Import ZArith Bool.
From Verif Require Import Prelude Spec Chrono TimeType SpecTree SpecMoment SpecExact SpecWide.
Local Open Scope Z_scope.

(** Amounts that may be subtracted. *)
Definition takable (u : tunit) (n : Z) : Prop := -2147483648 <= n < (if clock_unit u then period u else 2147483648).
(** The field of [x] before [n] of its units were taken. *)
Definition field_before (u : tunit) (n : Z) (x : datetime) : Z := (field u x + n) mod modulus u.
(** The days that [x] and [n] clock units are beyond the midnight before [x]; if the field has dropped to exactly its size below zero, one too many of
    the next unit has been taken. *)
Definition days_over (u : tunit) (n : Z) (x : datetime) : Z :=
  match u with
  | UDay => n
  | _ => (sod x + (if n =? field_before u n x + modulus u then n + modulus u else n) * unit_secs u) / 86400
  end.
(** [x] is some moment less [n] units. *)
Definition left_over (u : tunit) (n : Z) (x : datetime) : Prop :=
  match u with
  | UYear => year x + n <= max_year /\ day x <= month_length (year x + n) (month x)
  | UMonth => let i := month_index x + n in i <= 12 * max_year + 11 /\ n <= i mod 12 + 12 /\ day x <= index_length i
  | _ => (u = UDay \/ n <= field_before u n x + modulus u) /\
         (day x + days_over u n x <= month_length (year x) (month x) \/
          (month_index x < 12 * max_year + 11 /\ 32 <= day x + days_over u n x <= 31 + index_length (month_index x + 1)))
  end.
(** The same if [n] is negative: the field is raised and nothing is carried. *)
Definition raised (u : tunit) (n : Z) (x : datetime) : Prop :=
  match u with
  | UYear => min_year <= year x + n /\ day x <= month_length (year x + n) (month x)
  | UMonth => 1 <= month x + n /\ day x <= month_length (year x) (month x + n)
  | UDay => 1 <= day x + n
  | _ => 0 <= field u x + n
  end.
