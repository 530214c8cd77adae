(** Specification vocabulary on expression trees.  Uses only the datatype [timetype]
    (the public enum of /repo/src/timetype.rs 20-40) and [Spec]; none of the
    functions that model code. *)
Require Import ZArith Bool List.
From Verif Require Import Prelude Spec Chrono TimeType.
Local Open Scope Z_scope.

(** The amount of [n] units (specification; the public enum of /repo/src/timetype.rs 22-27). *)
Definition mk (u : tunit) (n : Z) : timetype :=
  match u with
  | USec => Seconds n | UMin => Minutes n | UHour => Hours n
  | UDay => Days n | UMonth => Months n | UYear => Years n
  end.

(** Trees of [+] and [-] over amounts (specification). *)
Fixpoint amount_only (t : timetype) : bool :=
  match t with
  | Seconds _ | Minutes _ | Hours _ | Days _ | Months _ | Years _ => true
  | Addition a b | Subtraction a b => amount_only a && amount_only b
  | _ => false
  end.

(** Signed sum of the leaves in seconds, with 30-day months and 12-month years (specification). *)
Fixpoint secs (t : timetype) : Z :=
  match t with
  | Seconds n => n * unit_secs USec
  | Minutes n => n * unit_secs UMin
  | Hours n => n * unit_secs UHour
  | Days n => n * unit_secs UDay
  | Months n => n * unit_secs UMonth
  | Years n => n * unit_secs UYear
  | Addition a b => secs a + secs b
  | Subtraction a b => secs a - secs b
  | _ => 0
  end.

(** Sum of the absolute values of the leaves in seconds (specification). *)
Fixpoint abs_secs (t : timetype) : Z :=
  match t with
  | Addition a b | Subtraction a b => abs_secs a + abs_secs b
  | _ => Z.abs (secs t)
  end.

(** The finer of two units (specification). *)
Definition finer (u v : tunit) : tunit := if unit_secs u <=? unit_secs v then u else v.

(** The finest unit occurring in an amount tree (specification). *)
Fixpoint finest (t : timetype) : tunit :=
  match t with
  | Seconds _ => USec | Minutes _ => UMin | Hours _ => UHour
  | Days _ => UDay | Months _ => UMonth | Years _ => UYear
  | Addition a b | Subtraction a b => finer (finest a) (finest b)
  | _ => UYear
  end.

(** ** Shapes of expressions (specification for which expressions evaluate) *)
Inductive shape := SAmount | SMoment | SBad.

Definition is_end (t : timetype) : bool :=
  match t with
  | EndOfYear _ | EndOfMonth _ | EndOfDay _ | EndOfHour _ | EndOfMinute _ => true
  | _ => false
  end.
Definition is_diff (t : timetype) : bool :=
  match t with Subtraction _ _ => true | _ => false end.

(** Amounts; a moment spine extended on the right by amounts, where [+] may not sit directly on
    a [-], and `end_of_*` may not be an operand; `end_of_*` of a moment shape. *)
Fixpoint shape_of (t : timetype) : shape :=
  match t with
  | Seconds _ | Minutes _ | Hours _ | Days _ | Months _ | Years _ => SAmount
  | Moment _ => SMoment
  | Addition a b =>
      match shape_of a, shape_of b with
      | SAmount, SAmount => SAmount
      | SMoment, SAmount => if is_diff a || is_end a then SBad else SMoment
      | _, _ => SBad
      end
  | Subtraction a b =>
      match shape_of a, shape_of b with
      | SAmount, SAmount => SAmount
      | SMoment, SAmount => if is_end a then SBad else SMoment
      | _, _ => SBad
      end
  | EndOfYear e | EndOfMonth e | EndOfDay e | EndOfHour e | EndOfMinute e =>
      match shape_of e with SMoment => SMoment | _ => SBad end
  end.
