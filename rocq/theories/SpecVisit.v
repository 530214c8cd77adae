(** Spec for the moments an iteration visits (C117). *)
Require Import ZArith Bool List.
From Verif Require Import Prelude Spec Chrono TimeType Iter SpecTree SpecMoment SpecIter.
Local Open Scope Z_scope.

(** Some item is the moment [x]. *)
Definition visits {S} (nx : next_fn S) (s : S) (x : datetime) : Prop := exists k, nth_item nx k s = Some (Ok (Moment x)).
