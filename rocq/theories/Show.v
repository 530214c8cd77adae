(** Model of the text that `{}` and `{:?}` produce for the values printed by /repo/examples/main.rs
    and by the messages of /repo/src/error.rs. *)
Require Import ZArith Bool List String Ascii.
From Verif Require Import Prelude Chrono TimeType.
Local Open Scope string_scope.
Local Open Scope Z_scope.

(** A decimal digit (`{}` on integers, /repo/examples/main.rs 7-12). *)
Definition digit_of (n : Z) : ascii := ascii_of_nat (Z.to_nat (48 + n)).
(** Decimal digits of a non-negative integer, most significant first, with [fuel] digits at most
    (/repo/examples/main.rs 7-12, `{}`). *)
Fixpoint digits_of (fuel : nat) (n : Z) : string :=
  match fuel with
  | O => ""
  | S f => if n <? 10 then String (digit_of n) "" else digits_of f (n / 10) ++ String (digit_of (n mod 10)) ""
  end.
(** `{}` of a non-negative integer (/repo/examples/main.rs 7-12, /repo/src/error.rs 33). *)
Definition show_nat (n : Z) : string := digits_of (S (Z.to_nat (Z.log2 n))) n.
(** `{}` and `{:?}` of an i64 or i32 (/repo/examples/main.rs 7-12, /repo/src/error.rs 33). *)
Definition show_int (n : Z) : string := if n <? 0 then "-" ++ show_nat (- n) else show_nat n.
(** Zeros in front, up to [w] characters: `{:02}` and the like, used by chrono for `{}` of a
    NaiveDateTime (/repo/examples/main.rs 13). *)
Fixpoint zeros (n : nat) : string := match n with O => "" | S n' => "0" ++ zeros n' end.
(** The same (/repo/examples/main.rs 13). *)
Definition pad (w : nat) (s : string) : string := zeros (w - length s) ++ s.

(** chrono `NaiveDate` Display (/repo/examples/main.rs 13): years 0 to 9999 with four digits, others with
    a sign and at least four digits. *)
Definition show_date (y mo d : Z) : string :=
  (if (0 <=? y) && (y <=? 9999) then pad 4 (show_nat y)
   else (if y <? 0 then "-" else "+") ++ pad 4 (show_nat (Z.abs y))) ++
  "-" ++ pad 2 (show_nat mo) ++ "-" ++ pad 2 (show_nat d).
(** chrono `NaiveTime` Display (/repo/examples/main.rs 13): sub-seconds with 0, 3, 6 or 9 digits; a leap
    second, stored as 10^9 ns or more, counts as the following second. *)
Definition show_time (h mi s n : Z) : string :=
  let '(s, n) := if 1000000000 <=? n then (s + 1, n - 1000000000) else (s, n) in
  pad 2 (show_nat h) ++ ":" ++ pad 2 (show_nat mi) ++ ":" ++ pad 2 (show_nat s) ++
  (if n =? 0 then ""
   else if n mod 1000000 =? 0 then "." ++ pad 3 (show_nat (n / 1000000))
   else if n mod 1000 =? 0 then "." ++ pad 6 (show_nat (n / 1000))
   else "." ++ pad 9 (show_nat n)).
(** chrono `NaiveDateTime` Display: `{} {}` (/repo/examples/main.rs 13). *)
Definition show_moment (m : datetime) : string :=
  show_date (year m) (month m) (day m) ++ " " ++ show_time (hour m) (minute m) (second m) (nano m).
(** chrono `NaiveDateTime` Debug: `{:?}T{:?}` (/repo/src/timetype.rs 21, derived Debug of `Moment`). *)
Definition debug_moment (m : datetime) : string :=
  show_date (year m) (month m) (day m) ++ "T" ++ show_time (hour m) (minute m) (second m) (nano m).
(** Derived Debug of `TimeType` (/repo/src/timetype.rs 21-40). *)
Fixpoint debug_tt (t : timetype) : string :=
  match t with
  | Seconds n => "Seconds(" ++ show_int n ++ ")"
  | Minutes n => "Minutes(" ++ show_int n ++ ")"
  | Hours n => "Hours(" ++ show_int n ++ ")"
  | Days n => "Days(" ++ show_int n ++ ")"
  | Months n => "Months(" ++ show_int n ++ ")"
  | Years n => "Years(" ++ show_int n ++ ")"
  | Moment m => "Moment(" ++ debug_moment m ++ ")"
  | Addition a b => "Addition(" ++ debug_tt a ++ ", " ++ debug_tt b ++ ")"
  | Subtraction a b => "Subtraction(" ++ debug_tt a ++ ", " ++ debug_tt b ++ ")"
  | EndOfYear a => "EndOfYear(" ++ debug_tt a ++ ")"
  | EndOfMonth a => "EndOfMonth(" ++ debug_tt a ++ ")"
  | EndOfDay a => "EndOfDay(" ++ debug_tt a ++ ")"
  | EndOfHour a => "EndOfHour(" ++ debug_tt a ++ ")"
  | EndOfMinute a => "EndOfMinute(" ++ debug_tt a ++ ")"
  end.
(** Derived Debug of a string slice: in quotes. The slices in question are the names of
    /repo/src/timetype.rs 414-433 `name()`, which need no escapes (simplified: nothing is escaped). *)
Definition debug_str (s : string) : string := """" ++ s ++ """".
(** /repo/src/error.rs 6-41, the `display` attributes. [NomError] is not one of them: its message is nom's
    (simplified to a fixed text). *)
Definition display_error (e : kek) : string :=
  match e with
  | UnknownError => "Unknown Error"
  | CannotAdd a b => "Cannot add: " ++ debug_tt a ++ " + " ++ debug_tt b
  | CannotSub a b => "Cannot subtract: " ++ debug_tt a ++ " - " ++ debug_tt b
  | ArgumentErrorNotAnAmount t => "The passed argument is not an amount: " ++ debug_tt t
  | ArgumentErrorNotAMoment n => "The passed argument is not a moment, but a " ++ n
  | CannotCalculateEndOfYearOn t => "Argument Error: Cannot calculate end-of-year on a " ++ debug_tt t
  | CannotCalculateEndOfMonthOn t => "Argument Error: Cannot calculate end-of-month on a " ++ debug_tt t
  | CannotCompareDayTo n => "Cannot compare Day to non-Moment TimeType: " ++ debug_str n
  | CannotCompareMonthTo n => "Cannot compare Month to non-Moment TimeType: " ++ debug_str n
  | OutOfBounds y mo d h mi s =>
      "Out of bounds: " ++ show_int y ++ "-" ++ show_int mo ++ "-" ++ show_int d ++ "T" ++
      show_int h ++ ":" ++ show_int mi ++ ":" ++ show_int s
  | NotADateInsideIterator => "Cannot calculate date for iterator"
  | UnknownParserError => "Unknown parser error"
  | NomError => "nom error"
  end.
