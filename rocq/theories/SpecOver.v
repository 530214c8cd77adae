(** Vocabulary for overflow: when the 64-bit arithmetic of an evaluation does not fit. *)
Require Import ZArith Bool.
From Verif Require Import Prelude Spec Chrono TimeType SpecTree SpecMoment.
Local Open Scope Z_scope.

(** The number of units [w] of an amount expression fits 64 bits. *)
Definition count_fits (w : tunit) (t : timetype) : bool := in_i64 (secs t / unit_secs w).
(** In every node both operands and the result, in the finest unit below the node, fit 64 bits. *)
Fixpoint fits (t : timetype) : bool :=
  match t with
  | Addition a b | Subtraction a b =>
      fits a && fits b && count_fits (finest t) a && count_fits (finest t) b && count_fits (finest t) t
  | Seconds n | Minutes n | Hours n | Days n | Months n | Years n => in_i64 n
  | _ => true
  end.
(** Adding to a moment: the sum of its field and the count fits; one combination needs one more month than fits. *)
Definition add_fits (u : tunit) (m : datetime) (n : Z) : bool :=
  in_i64 (field u m + n) &&
  negb (match u with UMonth => true | _ => false end && (month m + n =? i64_max) && (day m =? 31)).
(** Subtracting from a moment: the difference fits. *)
Definition sub_fits (u : tunit) (m : datetime) (n : Z) : bool := in_i64 (field u m - n).
(** The value of an expression. *)
Definition value_checked (t v : timetype) : Prop := calculate Checked t = Ok v.
(** Some operation that is reached does not fit. Left operands are evaluated first, except that a difference is evaluated
    before the sum it is subtracted from. [value t v]: [t] has the value [v]. *)
Inductive overflows (value : timetype -> timetype -> Prop) : timetype -> Prop :=
| OV_amount t : amount_only t = true -> fits t = false -> overflows value t
| OV_add a b m u n : value a (Moment m) -> value b (mk u n) -> add_fits u m n = false -> overflows value (Addition a b)
| OV_sub a b m u n : value a (Moment m) -> value b (mk u n) -> sub_fits u m n = false -> overflows value (Subtraction a b)
| OV_add_l a b : overflows value a -> overflows value (Addition a b)
| OV_sub_l a b : overflows value a -> overflows value (Subtraction a b)
| OV_add_r a b m : value a (Moment m) -> overflows value b -> overflows value (Addition a b)
| OV_sub_r a b m : value a (Moment m) -> overflows value b -> overflows value (Subtraction a b)
| OV_sub_first a1 a2 b1 b2 : overflows value (Subtraction b1 b2) -> overflows value (Subtraction (Addition a1 a2) (Subtraction b1 b2))
| OV_end k e : overflows value e -> overflows value (end_of k e).
