(** Model of the derived comparisons of /repo/src/indicator.rs (the rest of that file is in [Matcher]). *)
Require Import ZArith.
From Verif Require Import Prelude Chrono TimeType Matcher.
Local Open Scope Z_scope.

(** Position in the declaration src/indicator.rs 14-22. *)
Definition wday_variant (d : wday) : Z :=
  match d with
  | Monday => 0 | Tuesday => 1 | Wednesday => 2 | Thursday => 3 | Friday => 4 | Saturday => 5 | Sunday => 6
  end.
(** src/indicator.rs 13, derived `Ord::cmp` of `Day`. *)
Definition wday_compare (d e : wday) : comparison := wday_variant d ?= wday_variant e.
(** Position in the declaration src/indicator.rs 39-52. *)
Definition ymonth_variant (m : ymonth) : Z :=
  match m with
  | January => 0 | February => 1 | March => 2 | April => 3 | May => 4 | June => 5
  | July => 6 | August => 7 | September => 8 | October => 9 | November => 10 | December => 11
  end.
(** src/indicator.rs 38, derived `Ord::cmp` of `Month`. *)
Definition ymonth_compare (m n : ymonth) : comparison := ymonth_variant m ?= ymonth_variant n.
