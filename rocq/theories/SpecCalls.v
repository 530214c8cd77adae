(** Which calls an evaluation makes, and how many. *)
Require Import ZArith List.
From Verif Require Import Prelude Chrono TimeType ParserTimetype.
Import ListNotations.

(** Numbers of operations. *)
Fixpoint operations (t : timetype) : nat :=
  match t with
  | Addition a b | Subtraction a b => S (operations a + operations b)
  | EndOfYear e | EndOfMonth e | EndOfDay e | EndOfHour e | EndOfMinute e => S (operations e)
  | _ => 0%nat
  end.
(** The calls that an expression which evaluates takes: three for each sum or difference, two for each end of a period around
    them, one for a value. *)
Fixpoint expected_calls (t : timetype) : nat :=
  match t with
  | Addition _ _ | Subtraction _ _ => 3 * operations t
  | EndOfYear e | EndOfMonth e | EndOfDay e | EndOfHour e | EndOfMinute e => 2 + expected_calls e
  | _ => 1
  end%nat.

Section Calls.
(** The results of calls. *)
Variable R : call -> result.
(** The call [q], and if it succeeds the calls made with its result. *)
Definition andthen (q : call) (k : timetype -> list call) : list call := q :: match R q with Ok v => k v | _ => [] end.
(** The calls made for an operand before the function [k] is called on its value. *)
Definition for_operand (t : timetype) (k : timetype -> call) : list call :=
  match t with
  | Addition a b => andthen (CAdd a b) (fun v => [k v])
  | Subtraction a b => andthen (CSub a b) (fun v => [k v])
  | _ => []
  end.
Definition for_end (t : timetype) : list call :=
  andthen (CCalc t) (fun v => match v with EndOfYear e | EndOfMonth e | EndOfDay e | EndOfHour e | EndOfMinute e => [CCalc e] | _ => [] end).
(** The calls that the function called by [c] makes itself. *)
Definition subcalls (c : call) : list call :=
  match c with
  | CCalc (Addition a b) => [CAdd a b]
  | CCalc (Subtraction a b) => [CSub a b]
  | CCalc (EndOfYear e) => [CEndOfYear e]
  | CCalc (EndOfMonth e) => [CEndOfMonth e]
  | CCalc (EndOfDay e) => [CEndOfDay e]
  | CCalc (EndOfHour e) => [CEndOfHour e]
  | CCalc (EndOfMinute e) => [CEndOfMinute e]
  | CCalc _ => []
  | CAdd a b =>
      match a, b with
      | Moment m, _ => [CAddToMoment m b]
      | _, Moment _ => []
      | Seconds n, _ => [CAddToSeconds n b]
      | Minutes n, _ => [CAddToMinutes n b]
      | Hours n, _ => [CAddToHours n b]
      | Days n, _ => [CAddToDays n b]
      | Months n, _ => [CAddToMonths n b]
      | Years n, _ => [CAddToYears n b]
      | Addition x y, _ => andthen (CAdd x y) (fun v => [CAdd v b])
      | _, Addition x y => andthen (CAdd x y) (fun v => [CAdd a v])
      | Subtraction x y, _ => andthen (CSub x y) (fun v => [CAdd b v])
      | _, Subtraction x y => andthen (CCalc x) (fun v => andthen (CAdd a v) (fun w => [CSub w y]))
      | _, _ => []
      end
  | CSub a b =>
      match a, b with
      | Moment m, _ => [CSubFromMoment m b]
      | Seconds n, _ => [CSubFromSeconds n b]
      | Minutes n, _ => [CSubFromMinutes n b]
      | Hours n, _ => [CSubFromHours n b]
      | Days n, _ => [CSubFromDays n b]
      | Months n, _ => [CSubFromMonths n b]
      | Years n, _ => [CSubFromYears n b]
      | Subtraction x y, _ => andthen (CSub x y) (fun v => [CSub v b])
      | _, Subtraction x y => andthen (CSub x y) (fun v => [CSub a v])
      | Addition x y, _ => andthen (CAdd x y) (fun v => [CSub v b])
      | _, Addition x y => andthen (CCalc x) (fun v => andthen (CSub a v) (fun w => [CAdd w y]))
      | _, _ => []
      end
  | CEndOfYear t | CEndOfMonth t | CEndOfDay t | CEndOfHour t | CEndOfMinute t => for_end t
  | CAddToSeconds n t => for_operand t (CAddToSeconds n)
  | CAddToMinutes n t => for_operand t (CAddToMinutes n)
  | CAddToHours n t => for_operand t (CAddToHours n)
  | CAddToDays n t => for_operand t (CAddToDays n)
  | CAddToMonths n t => for_operand t (CAddToMonths n)
  | CAddToYears n t => for_operand t (CAddToYears n)
  | CAddToMoment m t => for_operand t (CAddToMoment m)
  | CSubFromSeconds n t => for_operand t (CSubFromSeconds n)
  | CSubFromMinutes n t => for_operand t (CSubFromMinutes n)
  | CSubFromHours n t => for_operand t (CSubFromHours n)
  | CSubFromDays n t => for_operand t (CSubFromDays n)
  | CSubFromMonths n t => for_operand t (CSubFromMonths n)
  | CSubFromYears n t => for_operand t (CSubFromYears n)
  | CSubFromMoment m t => for_operand t (CSubFromMoment m)
  end.
End Calls.

(** All the calls of an evaluation nested at most [n] deep: this one, those it makes, those they make. *)
Fixpoint calls (md : mode) (n : nat) (c : call) : nat :=
  match n with
  | O => 0
  | S n' => S (list_sum (map (calls md n') (subcalls (run md n') c)))
  end.

(** Numbers of operators in a text. *)
Fixpoint operators (e : amountexpr) : nat := match e with AELast _ => 0 | AENext _ _ e' => S (operators e') end.
