(** Spec for adding twice (C62): how far the calendar is ahead of months of 30 days. *)
Require Import ZArith.
From Verif Require Import Spec.
Local Open Scope Z_scope.

(** Days before month [mo] of year [y], less 30 for each month. *)
Definition drift (y mo : Z) : Z := days_before y mo - 30 * (mo - 1).
