(** Heights of expressions. *)
Require Import ZArith.
From Verif Require Import Prelude Chrono TimeType ParserTimetype.
Local Open Scope Z_scope.

Fixpoint height (t : timetype) : nat :=
  match t with
  | Addition a b | Subtraction a b => S (Nat.max (height a) (height b))
  | EndOfYear e | EndOfMonth e | EndOfDay e | EndOfHour e | EndOfMinute e => S (height e)
  | _ => 0%nat
  end.

(** The expressions that need most for their height. *)
Fixpoint tower (k : nat) : timetype :=
  match k with
  | O => Seconds 0
  | S O => Addition (Seconds 0) (Seconds 0)
  | S k' => Addition (Addition (Seconds 0) (Seconds 0)) (tower k')
  end.
(** A text of [k] additions. *)
Fixpoint long_text (k : nat) : amountexpr :=
  match k with O => AELast (Amount 0 PSecond) | S k' => AENext (Amount 0 PSecond) Plus (long_text k') end.
