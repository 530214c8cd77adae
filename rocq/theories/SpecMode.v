(** Vocabulary for comparing builds with overflow checks (first argument) and without (second). *)
Require Import ZArith Bool List.
From Verif Require Import Prelude TimeType Iter SpecTree SpecMoment SpecIter.
Local Open Scope Z_scope.

(** The same outcome, unless the first is the overflow panic. *)
Definition agree {E A} (x y : outcome E A) : Prop := x = Panic PArith \/ y = x.
(** The same item and the same next state from every state, unless the first call panics. *)
Definition agree_next {S} (n1 n2 : next_fn S) : Prop := forall s, fst (n1 s) = Some (Panic PArith) \/ n2 s = n1 s.
(** Call number [k] returns the same item, unless it or an earlier call of the first panicked. *)
Definition agree_item {S} (n1 n2 : next_fn S) (k : nat) (s : S) : Prop :=
  (exists j, (j <= k)%nat /\ nth_item n1 j s = Some (Panic PArith)) \/ nth_item n2 k s = nth_item n1 k s.
