(** How often the body of a `while` loop is executed. *)
Require Import ZArith Bool.
From Verif Require Import Prelude.

Inductive turns {E S} (c : S -> bool) (f : S -> outcome E S) : S -> nat -> Prop :=
| turns_stop : forall s, c s = false -> turns c f s 0
| turns_step : forall s s' k, c s = true -> f s = Ok s' -> turns c f s' k -> turns c f s (Datatypes.S k).
