(** Calls of the evaluator made by the calls of an iterator. *)
Require Import ZArith List.
From Verif Require Import Prelude Chrono TimeType Iter SpecIter SpecCalls.

(** The calls of the functions of src/timetype.rs that next() makes, nested at most [N] deep: none for the first item, otherwise those for
    evaluating the sum of what the iterator holds and its step. *)
Definition next_calls (md : mode) (N : nat) (it : iter) : nat :=
  if had_first it then calls md N (CCalc (Addition (base it) (increment it))) else 0.
(** All those of the first [k] calls of next(). *)
Fixpoint total_calls (md : mode) (N : nat) (k : nat) (it : iter) : nat :=
  match k with O => 0 | S k' => next_calls md N it + total_calls md N k' (snd (iter_next md it)) end.
