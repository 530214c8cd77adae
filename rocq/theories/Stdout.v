(** Model of the bytes that /repo/examples/main.rs writes to its standard output. *)
Require Import ZArith Bool List String Ascii.
From Verif Require Import Prelude Chrono TimeType Show Cli.
Import ListNotations.
Local Open Scope string_scope.

(** Derived Debug of `ErrorKind` (/repo/src/error.rs 3-43). [NomError] is not one of them: its text is the
    `{:?}` of nom's own error and is given by [error_text] below (simplified to nothing here). *)
Definition debug_error (e : kek) : string :=
  match e with
  | UnknownError => "UnknownError"
  | CannotAdd a b => "CannotAdd(" ++ debug_tt a ++ ", " ++ debug_tt b ++ ")"
  | CannotSub a b => "CannotSub(" ++ debug_tt a ++ ", " ++ debug_tt b ++ ")"
  | ArgumentErrorNotAnAmount t => "ArgumentErrorNotAnAmount(" ++ debug_tt t ++ ")"
  | ArgumentErrorNotAMoment n => "ArgumentErrorNotAMoment(" ++ debug_str n ++ ")"
  | CannotCalculateEndOfYearOn t => "CannotCalculateEndOfYearOn(" ++ debug_tt t ++ ")"
  | CannotCalculateEndOfMonthOn t => "CannotCalculateEndOfMonthOn(" ++ debug_tt t ++ ")"
  | CannotCompareDayTo n => "CannotCompareDayTo(" ++ debug_str n ++ ")"
  | CannotCompareMonthTo n => "CannotCompareMonthTo(" ++ debug_str n ++ ")"
  | OutOfBounds y mo d h mi s =>
      "OutOfBounds(" ++ show_int y ++ ", " ++ show_int mo ++ ", " ++ show_int d ++ ", " ++
      show_int h ++ ", " ++ show_int mi ++ ", " ++ show_int s ++ ")"
  | NotADateInsideIterator => "NotADateInsideIterator"
  | UnknownParserError => "UnknownParserError"
  | NomError => ""
  end.

Section Text.
(** `{:?}` of nom's error, and what failure puts after an error (its backtrace, if it has one): both are
    external and arbitrary (/repo/examples/main.rs 24, 27, 33, 39). *)
Variables nom backtrace : string.
(** `{:?}` of a `failure::Error` (/repo/examples/main.rs 24, 27, 33, 39). *)
Definition error_text (e : kek) : string := match e with NomError => nom | _ => debug_error e end ++ backtrace.
(** What a `println!` writes before the newline (/repo/examples/main.rs 7-14, 24, 27, 33, 39). *)
Definition line_text (l : line) : string :=
  match l with
  | Value s => s
  | CannotPrettyPrint t => "Cannot pretty-print: '" ++ debug_tt t ++ "'"
  | ParseError e => "Error -> " ++ error_text e
  | CalcError e => "Error calculating: " ++ error_text e
  | BuildError e => "Failed building iterator: " ++ error_text e
  end.
(** Everything that is written (/repo/examples/main.rs 18-42). *)
Fixpoint stdout (l : list line) : string :=
  match l with [] => "" | x :: r => line_text x ++ String "010" (stdout r) end.
End Text.
