(** Vocabulary for the queries of amounts: the six public getters as one function of the unit asked for. *)
Require Import ZArith.
From Verif Require Import Prelude Spec Chrono TimeType SpecTree.
Local Open Scope Z_scope.

(** The getter for a unit (/repo/src/timetype.rs 242-382). *)
Definition getter (md : mode) (u : tunit) : timetype -> outcome kek Z :=
  match u with
  | USec => get_seconds md | UMin => get_minutes md | UHour => get_hours md
  | UDay => get_days md | UMonth => get_months md | UYear => get_years
  end.
