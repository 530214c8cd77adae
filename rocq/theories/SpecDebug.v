(** The parts of an expression, as printed between the parentheses (C71). *)
Require Import ZArith List String.
From Verif Require Import Prelude Spec Chrono TimeType Show.
Import ListNotations.

(** A number, a moment, or one or two expressions. *)
Definition parts (t : timetype) : list string :=
  match t with
  | Seconds n | Minutes n | Hours n | Days n | Months n | Years n => [show_int n]
  | Moment m => [debug_moment m]
  | Addition a b | Subtraction a b => [debug_tt a; debug_tt b]
  | EndOfYear a | EndOfMonth a | EndOfDay a | EndOfHour a | EndOfMinute a => [debug_tt a]
  end.
