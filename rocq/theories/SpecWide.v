(** Amounts of any size. *)
Require Import ZArith Bool.
From Verif Require Import Prelude Spec Chrono TimeType SpecTree SpecMoment.
Local Open Scope Z_scope.

(** The last 32 bits. *)
Definition low32 (z : Z) : Z := z mod 4294967296.

(** Subtracting this much makes every field come round. *)
Definition period (u : tunit) : Z :=
  match u with
  | USec => 60 * 60 * 24 * 32 * 13 * 2 ^ 32
  | UMin => 60 * 24 * 32 * 13 * 2 ^ 32
  | UHour => 24 * 32 * 13 * 2 ^ 32
  | UDay => 32 * 13 * 2 ^ 32
  | UMonth => 13 * 2 ^ 32
  | UYear => 2 ^ 32
  end.
