(** Rust format strings (C71). *)
Require Import ZArith List String Ascii.
From Verif Require Import Prelude Spec Chrono TimeType Show.
Import ListNotations.
Local Open Scope string_scope.

(** A format string with its placeholders, [{}] or [{:?}], replaced by the given texts from left to right. *)
Fixpoint fill (f : string) (args : list string) : string :=
  match f, args with
  | String "{" (String "}" r), a :: l => a ++ fill r l
  | String "{" (String ":" (String "?" (String "}" r))), a :: l => a ++ fill r l
  | String c r, _ => String c (fill r args)
  | EmptyString, _ => ""
  end.
(** The format strings of /repo/src/error.rs 6-41, as they stand there. *)
Definition format_of (e : kek) : string :=
  match e with
  | UnknownError => "Unknown Error"
  | CannotAdd _ _ => "Cannot add: {:?} + {:?}"
  | CannotSub _ _ => "Cannot subtract: {:?} - {:?}"
  | ArgumentErrorNotAnAmount _ => "The passed argument is not an amount: {:?}"
  | ArgumentErrorNotAMoment _ => "The passed argument is not a moment, but a {}"
  | CannotCalculateEndOfYearOn _ => "Argument Error: Cannot calculate end-of-year on a {:?}"
  | CannotCalculateEndOfMonthOn _ => "Argument Error: Cannot calculate end-of-month on a {:?}"
  | CannotCompareDayTo _ => "Cannot compare Day to non-Moment TimeType: {:?}"
  | CannotCompareMonthTo _ => "Cannot compare Month to non-Moment TimeType: {:?}"
  | OutOfBounds _ _ _ _ _ _ => "Out of bounds: {}-{}-{}T{}:{}:{}"
  | NotADateInsideIterator => "Cannot calculate date for iterator"
  | UnknownParserError => "Unknown parser error"
  | NomError => ""
  end.
(** What an error carries, as text. *)
Definition carried (e : kek) : list string :=
  match e with
  | CannotAdd a b | CannotSub a b => [debug_tt a; debug_tt b]
  | ArgumentErrorNotAnAmount t | CannotCalculateEndOfYearOn t | CannotCalculateEndOfMonthOn t => [debug_tt t]
  | ArgumentErrorNotAMoment n => [n]
  | CannotCompareDayTo n | CannotCompareMonthTo n => [debug_str n]
  | OutOfBounds y mo d h mi s => map show_int [y; mo; d; h; mi; s]
  | _ => []
  end.
