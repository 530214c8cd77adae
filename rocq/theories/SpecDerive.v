(** What the derived `Debug` of an error and the lines of the program look like (C132). *)
Require Import ZArith List String Ascii.
From Verif Require Import Prelude Spec Chrono TimeType Show SpecFormat Cli.
Import ListNotations.
Local Open Scope string_scope.

(** The name of a case in /repo/src/error.rs 3-43. *)
Definition case_of (e : kek) : string :=
  match e with
  | UnknownError => "UnknownError"
  | CannotAdd _ _ => "CannotAdd"
  | CannotSub _ _ => "CannotSub"
  | ArgumentErrorNotAnAmount _ => "ArgumentErrorNotAnAmount"
  | ArgumentErrorNotAMoment _ => "ArgumentErrorNotAMoment"
  | CannotCalculateEndOfYearOn _ => "CannotCalculateEndOfYearOn"
  | CannotCalculateEndOfMonthOn _ => "CannotCalculateEndOfMonthOn"
  | CannotCompareDayTo _ => "CannotCompareDayTo"
  | CannotCompareMonthTo _ => "CannotCompareMonthTo"
  | OutOfBounds _ _ _ _ _ _ => "OutOfBounds"
  | NotADateInsideIterator => "NotADateInsideIterator"
  | UnknownParserError => "UnknownParserError"
  | NomError => ""
  end.
(** The fields of an error in the order of the declaration: expressions, names (in quotes) and numbers. *)
Definition fields_of (e : kek) : list string :=
  match e with
  | CannotAdd a b | CannotSub a b => [debug_tt a; debug_tt b]
  | ArgumentErrorNotAnAmount t | CannotCalculateEndOfYearOn t | CannotCalculateEndOfMonthOn t => [debug_tt t]
  | ArgumentErrorNotAMoment n | CannotCompareDayTo n | CannotCompareMonthTo n => ["""" ++ n ++ """"]
  | OutOfBounds y mo d h mi s => map show_int [y; mo; d; h; mi; s]
  | _ => []
  end.
(** `#[derive(Debug)]` of a case with fields in parentheses: its name, and its fields separated by commas if it has any. *)
Definition derived (n : string) (l : list string) : string :=
  match l with [] => n | _ => n ++ "(" ++ String.concat ", " l ++ ")" end.

(** The format strings of /repo/examples/main.rs 7-14 as they stand there, for values, and what is put in. *)
Definition value_format (v : timetype) : string :=
  match v with
  | Seconds _ => "{} Seconds"
  | Minutes _ => "{} Minutes"
  | Hours _ => "{} Hours"
  | Days _ => "{} Days"
  | Months _ => "{} Months"
  | Years _ => "{} Years"
  | Moment _ => "{} "
  | _ => "Cannot pretty-print: '{:?}'"
  end.
Definition value_part (v : timetype) : string :=
  match v with
  | Seconds n | Minutes n | Hours n | Days n | Months n | Years n => show_int n
  | Moment m => show_moment m
  | _ => debug_tt v
  end.
(** The other three `println!` (/repo/examples/main.rs 24, 27 and 33, 39). *)
Inductive trouble := Parsing | Calculating | Building.
Definition trouble_format (x : trouble) : string :=
  match x with
  | Parsing => "Error -> {:?}"
  | Calculating => "Error calculating: {:?}"
  | Building => "Failed building iterator: {:?}"
  end.
(** A line: the filled format string and a newline. *)
Definition written (f a : string) : string := fill f [a] ++ String "010" "".
Definition value_written (v : timetype) : string := written (value_format v) (value_part v).
Definition trouble_written (bt : string) (x : trouble) (e : kek) : string := written (trouble_format x) (derived (case_of e) (fields_of e) ++ bt).
