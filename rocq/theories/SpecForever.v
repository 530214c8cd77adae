(** Vocabulary for iterations that stay right for good. *)
Require Import ZArith.
From Verif Require Import Spec.
Local Open Scope Z_scope.

(** Of the years [y], [y + q], [y + 2 * q] ... all are leap years: [y] is one, the steps are multiples of 4 years, and they never meet the turn
    of a century that is not divisible by 400. *)
Definition stays_leap (y q : Z) : Prop := leap y = true /\ (4 | q) /\ forall c, 1 <= c <= 3 -> ~ (Z.gcd q 400 | y - 100 * c).
