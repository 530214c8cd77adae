(** Units that move a whole period. *)
Require Import ZArith Bool.
From Verif Require Import Prelude Spec Chrono TimeType SpecTree SpecMoment.

(** The unit is at least as long as the minute, hour or day. *)
Definition moves (u : tunit) (k : period) : bool :=
  match k, u with
  | PMinute, USec => false
  | PMinute, _ => true
  | PHour, (USec | UMin) => false
  | PHour, _ => true
  | PDay, (USec | UMin | UHour) => false
  | PDay, _ => true
  | _, _ => false
  end.
