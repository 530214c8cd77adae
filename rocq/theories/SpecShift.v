(** Vocabulary for changing the moments of an expression: cutting off parts of seconds, going 400 years ahead. *)
Require Import ZArith Bool List.
From Verif Require Import Prelude Spec Chrono TimeType SpecTree SpecMoment.
Local Open Scope Z_scope.

(** The expression with every moment replaced. *)
Fixpoint over (f : datetime -> datetime) (t : timetype) : timetype :=
  match t with
  | Moment m => Moment (f m)
  | Addition a b => Addition (over f a) (over f b)
  | Subtraction a b => Subtraction (over f a) (over f b)
  | EndOfYear e => EndOfYear (over f e)
  | EndOfMonth e => EndOfMonth (over f e)
  | EndOfDay e => EndOfDay (over f e)
  | EndOfHour e => EndOfHour (over f e)
  | EndOfMinute e => EndOfMinute (over f e)
  | _ => t
  end.
(** An error with every moment replaced in the expressions that it names. *)
Definition error_over (f : datetime -> datetime) (e : kek) : kek :=
  match e with
  | CannotAdd a b => CannotAdd (over f a) (over f b)
  | CannotSub a b => CannotSub (over f a) (over f b)
  | ArgumentErrorNotAnAmount t => ArgumentErrorNotAnAmount (over f t)
  | CannotCalculateEndOfYearOn t => CannotCalculateEndOfYearOn (over f t)
  | CannotCalculateEndOfMonthOn t => CannotCalculateEndOfMonthOn (over f t)
  | _ => e
  end.
Definition result_over (f : datetime -> datetime) (r : result) : result :=
  match r with Ok v => Ok (over f v) | Err e => Err (error_over f e) | Panic p => Panic p | OutOfFuel => OutOfFuel end.

(** The same day and time, [k] times 400 years later. *)
Definition later (k : Z) (m : datetime) : datetime := mkdt (year m + 400 * k) (month m) (day m) (hour m) (minute m) (second m) (nano m).
(** Parts of an expression, itself included. *)
Inductive part : timetype -> timetype -> Prop :=
| P_self t : part t t
| P_add_l s a b : part s a -> part s (Addition a b)
| P_add_r s a b : part s b -> part s (Addition a b)
| P_sub_l s a b : part s a -> part s (Subtraction a b)
| P_sub_r s a b : part s b -> part s (Subtraction a b)
| P_end k s e : part s e -> part s (end_of k e).
(** A moment that is one nanosecond into its second if it is not at its start. *)
Definition rounded (e : datetime) : datetime :=
  mkdt (year e) (month e) (day e) (hour e) (minute e) (second e) (if 0 <? nano e then 1 else 0).
