(** Model of /repo/src/timetype.rs (lines 1-1180; the rest is tests) and /repo/src/error.rs. *)
Require Import ZArith Bool String.
From Verif Require Import Prelude Chrono Util.
Local Open Scope Z_scope.

(** src/timetype.rs 20-40 `enum TimeType`. `Box` is dropped. i64 payloads are unbounded [Z] here;
    [tt_ok] below states that they are i64 values. *)
Inductive timetype : Type :=
| Seconds (n : Z)
| Minutes (n : Z)
| Hours (n : Z)
| Days (n : Z)
| Months (n : Z)
| Years (n : Z)
| Moment (m : datetime)
| Addition (a b : timetype)
| Subtraction (a b : timetype)
| EndOfYear (e : timetype)
| EndOfMonth (e : timetype)
| EndOfDay (e : timetype)
| EndOfHour (e : timetype)
| EndOfMinute (e : timetype).

(** Values of the Rust type: payloads fit i64 and moments are dates chrono can hold
    (src/timetype.rs 22-40). *)
Fixpoint tt_ok (t : timetype) : bool :=
  match t with
  | Seconds n | Minutes n | Hours n | Days n | Months n | Years n => in_i64 n
  | Moment m => dt_valid m
  | Addition a b | Subtraction a b => tt_ok a && tt_ok b
  | EndOfYear e | EndOfMonth e | EndOfDay e | EndOfHour e | EndOfMinute e => tt_ok e
  end.

(** src/error.rs 3-43 `enum ErrorKind`, plus [NomError] for the nom error that
    /repo/src/parser/mod.rs 69-78 converts into `failure::Error` (its content is dropped). *)
Inductive kek : Type :=
| UnknownError
| CannotAdd (a b : timetype)
| CannotSub (a b : timetype)
| ArgumentErrorNotAnAmount (t : timetype)
| ArgumentErrorNotAMoment (name : string)
| CannotCalculateEndOfYearOn (t : timetype)
| CannotCalculateEndOfMonthOn (t : timetype)
| CannotCompareDayTo (name : string)
| CannotCompareMonthTo (name : string)
| OutOfBounds (y mo d h mi s : Z)
| NotADateInsideIterator
| UnknownParserError
| NomError.

(** `failure::Fallible<TimeType>` (src/timetype.rs 8). *)
Definition result : Type := outcome kek timetype.

(** src/timetype.rs 42-48 `Add::add` (the operator, which only builds a node). *)
Definition op_add (a b : timetype) : timetype := Addition a b.
(** src/timetype.rs 50-54 `AddAssign::add_assign`; returns the new `*self`. *)
Definition op_add_assign (self rhs : timetype) : timetype := Addition self rhs.
(** src/timetype.rs 56-62 `Sub::sub`. *)
Definition op_sub (a b : timetype) : timetype := Subtraction a b.
(** src/timetype.rs 64-68 `SubAssign::sub_assign`; returns the new `*self`. *)
Definition op_sub_assign (self rhs : timetype) : timetype := Subtraction self rhs.

(** src/timetype.rs 97-99 `today`; the clock reading is an argument. *)
Definition today (now : datetime) : timetype := Moment now.

(** src/timetype.rs 101-111 `is_a_amount`. *)
Definition is_a_amount (t : timetype) : bool :=
  match t with
  | Seconds _ | Minutes _ | Hours _ | Days _ | Months _ | Years _ => true
  | _ => false
  end.
(** src/timetype.rs 113-118 `is_moment`. *)
Definition is_moment (t : timetype) : bool :=
  match t with Moment _ => true | _ => false end.
(** src/timetype.rs 120-125 `is_addition`. *)
Definition is_addition (t : timetype) : bool :=
  match t with Addition _ _ => true | _ => false end.
(** src/timetype.rs 127-132 `is_subtraction`. *)
Definition is_subtraction (t : timetype) : bool :=
  match t with Subtraction _ _ => true | _ => false end.

(** src/timetype.rs 134-136 `seconds`. *)
Definition seconds (i : Z) : timetype := Seconds i.
(** src/timetype.rs 138-140 `minutes`. *)
Definition minutes (i : Z) : timetype := Minutes i.
(** src/timetype.rs 142-144 `hours`. *)
Definition hours (i : Z) : timetype := Hours i.
(** src/timetype.rs 146-148 `days`. *)
Definition days (i : Z) : timetype := Days i.
(** src/timetype.rs 150-153 `weeks`; `i * 7` may overflow. *)
Definition weeks (md : mode) (i : Z) : result := do n <- mulc md (Ok i) 7; Ok (Days n).
(** src/timetype.rs 155-157 `months`. *)
Definition months (i : Z) : timetype := Months i.
(** src/timetype.rs 159-161 `years`. *)
Definition years (i : Z) : timetype := Years i.
(** src/timetype.rs 163-165 `moment`. *)
Definition moment (ndt : datetime) : timetype := Moment ndt.

(** src/timetype.rs 176-178, 188-190, 200-202, 212-214, 224-226: the public builder methods
    `end_of_year` .. `end_of_minute` (prefixed because the evaluating functions share the names). *)
Definition mk_end_of_year (self : timetype) : timetype := EndOfYear self.
(** src/timetype.rs 188-190. *)
Definition mk_end_of_month (self : timetype) : timetype := EndOfMonth self.
(** src/timetype.rs 200-202. *)
Definition mk_end_of_day (self : timetype) : timetype := EndOfDay self.
(** src/timetype.rs 212-214. *)
Definition mk_end_of_hour (self : timetype) : timetype := EndOfHour self.
(** src/timetype.rs 224-226. *)
Definition mk_end_of_minute (self : timetype) : timetype := EndOfMinute self.

(** src/timetype.rs 384-389 `get_moment`. *)
Definition get_moment (t : timetype) : option datetime :=
  match t with Moment m => Some m | _ => None end.

(** src/timetype.rs 413-433 `name`. *)
Definition name (t : timetype) : string :=
  match t with
  | Addition _ _ => "Addition"
  | Days _ => "Days"
  | EndOfDay _ => "EndOfDay"
  | EndOfHour _ => "EndOfHour"
  | EndOfMinute _ => "EndOfMinute"
  | EndOfMonth _ => "EndOfMonth"
  | EndOfYear _ => "EndOfYear"
  | Hours _ => "Hours"
  | Minutes _ => "Minutes"
  | Moment _ => "Moment"
  | Months _ => "Months"
  | Seconds _ => "Seconds"
  | Subtraction _ _ => "Subtraction"
  | Years _ => "Years"
  end%string.

(** ** The derived order (src/timetype.rs 21 `PartialOrd, Ord`): by variant in declaration
    order, then by payload, lexicographically. *)
(** Variant number in the declaration order of src/timetype.rs 22-40. *)
Definition variant (t : timetype) : Z :=
  match t with
  | Seconds _ => 0 | Minutes _ => 1 | Hours _ => 2 | Days _ => 3 | Months _ => 4 | Years _ => 5
  | Moment _ => 6 | Addition _ _ => 7 | Subtraction _ _ => 8
  | EndOfYear _ => 9 | EndOfMonth _ => 10 | EndOfDay _ => 11 | EndOfHour _ => 12
  | EndOfMinute _ => 13
  end.
(** src/timetype.rs 21, derived `Ord::cmp`. *)
Fixpoint tt_compare (x y : timetype) : comparison :=
  match x, y with
  | Seconds a, Seconds b | Minutes a, Minutes b | Hours a, Hours b
  | Days a, Days b | Months a, Months b | Years a, Years b => a ?= b
  | Moment a, Moment b => dt_compare a b
  | Addition a b, Addition c d | Subtraction a b, Subtraction c d =>
      match tt_compare a c with Eq => tt_compare b d | o => o end
  | EndOfYear a, EndOfYear b | EndOfMonth a, EndOfMonth b | EndOfDay a, EndOfDay b
  | EndOfHour a, EndOfHour b | EndOfMinute a, EndOfMinute b => tt_compare a b
  | _, _ => variant x ?= variant y
  end.

(** ** Getters and evaluation, for a given build mode *)
Section Mode.
Variable md : mode.
(** Notation for i64 literals and operators, as in [Prelude] (e.g. src/timetype.rs 244-251, 270). *)
Local Notation "# a" := (@Ok kek Z a) (at level 9, a at level 8).
Local Notation "a +! b" := (addc md a b) (at level 50, left associativity).
Local Notation "a -! b" := (subc md a b) (at level 50, left associativity).
Local Notation "a *! k" := (mulc md a k) (at level 40, left associativity).
Local Notation "a /! k" := (divc a k) (at level 40, left associativity).

(** src/timetype.rs 242-252 `get_seconds`. *)
Definition get_seconds (tt : timetype) : outcome kek Z :=
  match tt with
  | Seconds d => #d
  | Minutes d => #d *! 60
  | Hours d => #d *! 60 *! 60
  | Days d => #d *! 60 *! 60 *! 24
  | Months d => #d *! 60 *! 60 *! 24 *! 30
  | Years d => #d *! 60 *! 60 *! 24 *! 30 *! 12
  | _ => #0
  end.
(** src/timetype.rs 268-278 `get_minutes`. *)
Definition get_minutes (tt : timetype) : outcome kek Z :=
  match tt with
  | Seconds s => #s /! 60
  | Minutes d => #d
  | Hours d => #d *! 60
  | Days d => #d *! 60 *! 24
  | Months d => #d *! 60 *! 24 *! 30
  | Years d => #d *! 60 *! 24 *! 30 *! 12
  | _ => #0
  end.
(** src/timetype.rs 294-304 `get_hours`. *)
Definition get_hours (tt : timetype) : outcome kek Z :=
  match tt with
  | Seconds s => #s /! 60 /! 60
  | Minutes d => #d /! 60
  | Hours d => #d
  | Days d => #d *! 24
  | Months d => #d *! 24 *! 30
  | Years d => #d *! 24 *! 30 *! 12
  | _ => #0
  end.
(** src/timetype.rs 320-330 `get_days`. *)
Definition get_days (tt : timetype) : outcome kek Z :=
  match tt with
  | Seconds s => #s /! 24 /! 60 /! 60
  | Minutes d => #d /! 24 /! 60
  | Hours d => #d /! 24
  | Days d => #d
  | Months d => #d *! 30
  | Years d => #d *! 30 *! 12
  | _ => #0
  end.
(** src/timetype.rs 346-356 `get_months`. *)
Definition get_months (tt : timetype) : outcome kek Z :=
  match tt with
  | Seconds s => #s /! 30 /! 24 /! 60 /! 60
  | Minutes d => #d /! 30 /! 24 /! 60
  | Hours d => #d /! 30 /! 24
  | Days d => #d /! 30
  | Months d => #d
  | Years d => #d *! 12
  | _ => #0
  end.
(** src/timetype.rs 372-382 `get_years`. *)
Definition get_years (tt : timetype) : outcome kek Z :=
  match tt with
  | Seconds s => #s /! 12 /! 30 /! 24 /! 60 /! 60
  | Minutes d => #d /! 12 /! 30 /! 24 /! 60
  | Hours d => #d /! 12 /! 30 /! 24
  | Days d => #d /! 12 /! 30
  | Months d => #d /! 12
  | Years d => #d
  | _ => #0
  end.

(** The mutually recursive functions of src/timetype.rs 454-1180 call each other by name;
    [call] names such a call with its arguments. *)
Inductive call : Type :=
| CCalc (t : timetype)
| CAdd (a b : timetype)
| CSub (a b : timetype)
| CEndOfYear (t : timetype)
| CEndOfMonth (t : timetype)
| CEndOfDay (t : timetype)
| CEndOfHour (t : timetype)
| CEndOfMinute (t : timetype)
| CAddToSeconds (amount : Z) (t : timetype)
| CAddToMinutes (amount : Z) (t : timetype)
| CAddToHours (amount : Z) (t : timetype)
| CAddToDays (amount : Z) (t : timetype)
| CAddToMonths (amount : Z) (t : timetype)
| CAddToYears (amount : Z) (t : timetype)
| CAddToMoment (mom : datetime) (t : timetype)
| CSubFromSeconds (amount : Z) (t : timetype)
| CSubFromMinutes (amount : Z) (t : timetype)
| CSubFromHours (amount : Z) (t : timetype)
| CSubFromDays (amount : Z) (t : timetype)
| CSubFromMonths (amount : Z) (t : timetype)
| CSubFromYears (amount : Z) (t : timetype)
| CSubFromMoment (mom : datetime) (t : timetype).

Section Rec.
(** The recursive call, tied in [run] below. *)
Variable rec : call -> result.

(** The block repeated in every arm of src/timetype.rs 790-889 and 1071-1170 (e.g. 804-808):
    build the date from the adjusted fields; note that the third component of the error is `h` (806). *)
Definition build_moment (f : fields) : result :=
  let '(y, mo, d, h, mi, s) := f in
  do dt <- ok_or (match from_ymd_opt (as_i32 y) (as_u32 mo) (as_u32 d) with
                  | Some nd => and_hms_opt nd (as_u32 h) (as_u32 mi) (as_u32 s)
                  | None => None
                  end)
                 (OutOfBounds (as_i32 y) (as_u32 mo) (as_u32 h) (as_u32 h) (as_u32 mi) (as_u32 s));
  Ok (Moment dt).

(** src/timetype.rs 454-467 `do_calculate`. *)
Definition do_calculate (tt : timetype) : result :=
  match tt with
  | Addition a b => rec (CAdd a b)
  | Subtraction a b => rec (CSub a b)
  | EndOfYear inner => rec (CEndOfYear inner)
  | EndOfMonth inner => rec (CEndOfMonth inner)
  | EndOfDay inner => rec (CEndOfDay inner)
  | EndOfHour inner => rec (CEndOfHour inner)
  | EndOfMinute inner => rec (CEndOfMinute inner)
  | x => Ok x
  end.

(** src/timetype.rs 473-497 `end_of_year`. The arms after the amounts are unreachable because
    `do_calculate` returns only values; they are kept as in the source. *)
Definition end_of_year (tt : timetype) : result :=
  do v <- rec (CCalc tt);
  match v with
  | Seconds _ | Minutes _ | Hours _ | Days _ | Months _ | Years _
  | Addition _ _ | Subtraction _ _ => Err (CannotCalculateEndOfYearOn v)
  | Moment m =>
      do nd <- ok_or (from_ymd_opt (year m) 12 31) (OutOfBounds (year m) 12 31 0 0 0);
      do dt <- and_hms nd 0 0 0;
      Ok (Moment dt)
  | EndOfYear e => rec (CCalc e)
  | EndOfMonth e => rec (CCalc e)
  | EndOfDay e => rec (CCalc e)
  | EndOfHour e => rec (CCalc e)
  | EndOfMinute e => rec (CCalc e)
  end.

(** src/timetype.rs 503-529 `end_of_month`. The arms after the amounts are unreachable because
    `do_calculate` returns only values; they are kept as in the source. *)
Definition end_of_month (tt : timetype) : result :=
  do v <- rec (CCalc tt);
  match v with
  | Seconds _ | Minutes _ | Hours _ | Days _ | Months _ | Years _
  | Addition _ _ | Subtraction _ _ => Err (CannotCalculateEndOfMonthOn v)
  | Moment m =>
      let last_day := as_u32 (get_num_of_days_in_month (year m) (month m)) in
      do nd <- ok_or (from_ymd_opt (year m) (month m) last_day)
                     (OutOfBounds (year m) (month m) last_day 0 0 0);
      do dt <- and_hms nd 0 0 0;
      Ok (Moment dt)
  | EndOfYear e => rec (CCalc e)
  | EndOfMonth e => rec (CCalc e)
  | EndOfDay e => rec (CCalc e)
  | EndOfHour e => rec (CCalc e)
  | EndOfMinute e => rec (CCalc e)
  end.

(** src/timetype.rs 535-558 `end_of_day`. The arms after the amounts are unreachable because
    `do_calculate` returns only values; they are kept as in the source. *)
Definition end_of_day (tt : timetype) : result :=
  do v <- rec (CCalc tt);
  match v with
  | Seconds _ | Minutes _ | Hours _ | Days _ | Months _ | Years _
  | Addition _ _ | Subtraction _ _ => Err (CannotCalculateEndOfMonthOn v)
  | Moment m =>
      do nd <- ok_or (from_ymd_opt (year m) (month m) (day m))
                     (OutOfBounds (year m) (month m) (day m) 23 59 59);
      do dt <- and_hms nd 23 59 59;
      Ok (Moment dt)
  | EndOfYear e => rec (CCalc e)
  | EndOfMonth e => rec (CCalc e)
  | EndOfDay e => rec (CCalc e)
  | EndOfHour e => rec (CCalc e)
  | EndOfMinute e => rec (CCalc e)
  end.

(** src/timetype.rs 564-587 `end_of_hour`. The arms after the amounts are unreachable because
    `do_calculate` returns only values; they are kept as in the source. *)
Definition end_of_hour (tt : timetype) : result :=
  do v <- rec (CCalc tt);
  match v with
  | Seconds _ | Minutes _ | Hours _ | Days _ | Months _ | Years _
  | Addition _ _ | Subtraction _ _ => Err (CannotCalculateEndOfMonthOn v)
  | Moment m =>
      do dt <- ok_or (match from_ymd_opt (year m) (month m) (day m) with
                      | Some nd => and_hms_opt nd (hour m) 59 59
                      | None => None
                      end)
                     (OutOfBounds (year m) (month m) (day m) (hour m) 59 59);
      Ok (Moment dt)
  | EndOfYear e => rec (CCalc e)
  | EndOfMonth e => rec (CCalc e)
  | EndOfDay e => rec (CCalc e)
  | EndOfHour e => rec (CCalc e)
  | EndOfMinute e => rec (CCalc e)
  end.

(** src/timetype.rs 593-616 `end_of_minute`. The arms after the amounts are unreachable because
    `do_calculate` returns only values; they are kept as in the source. *)
Definition end_of_minute (tt : timetype) : result :=
  do v <- rec (CCalc tt);
  match v with
  | Seconds _ | Minutes _ | Hours _ | Days _ | Months _ | Years _
  | Addition _ _ | Subtraction _ _ => Err (CannotCalculateEndOfMonthOn v)
  | Moment m =>
      do dt <- ok_or (match from_ymd_opt (year m) (month m) (day m) with
                      | Some nd => and_hms_opt nd (hour m) (minute m) 59
                      | None => None
                      end)
                     (OutOfBounds (year m) (month m) (day m) (hour m) (minute m) 59);
      Ok (Moment dt)
  | EndOfYear e => rec (CCalc e)
  | EndOfMonth e => rec (CCalc e)
  | EndOfDay e => rec (CCalc e)
  | EndOfHour e => rec (CCalc e)
  | EndOfMinute e => rec (CCalc e)
  end.

(** src/timetype.rs 618-662 `add`; arms in source order. *)
Definition add (a b : timetype) : result :=
  match a, b with
  | Moment mom, thing => rec (CAddToMoment mom thing)
  | thing, Moment mom => Err (CannotAdd thing (Moment mom))
  | Seconds a, other => rec (CAddToSeconds a other)
  | Minutes a, other => rec (CAddToMinutes a other)
  | Hours a, other => rec (CAddToHours a other)
  | Days a, other => rec (CAddToDays a other)
  | Months a, other => rec (CAddToMonths a other)
  | Years a, other => rec (CAddToYears a other)
  | Addition a b, other => do bx <- rec (CAdd a b); rec (CAdd bx other)
  | other, Addition a b => do bx <- rec (CAdd a b); rec (CAdd other bx)
  | Subtraction a b, other => do bx <- rec (CSub a b); rec (CAdd other bx)
  | other, Subtraction a b => do bx <- rec (CCalc a); do rx <- rec (CAdd other bx); rec (CSub rx b)
  | EndOfYear e, other => Err (CannotAdd other (EndOfYear e))
  | other, EndOfYear e => Err (CannotAdd other (EndOfYear e))
  | EndOfMonth e, other => Err (CannotAdd other (EndOfMonth e))
  | other, EndOfMonth e => Err (CannotAdd other (EndOfMonth e))
  | EndOfDay e, other => Err (CannotAdd other (EndOfDay e))
  | other, EndOfDay e => Err (CannotAdd other (EndOfDay e))
  | EndOfHour e, other => Err (CannotAdd other (EndOfHour e))
  | other, EndOfHour e => Err (CannotAdd other (EndOfHour e))
  | EndOfMinute e, other => Err (CannotAdd other (EndOfMinute e))
  end.

(** src/timetype.rs 664-683 `add_to_seconds`. *)
Definition add_to_seconds (amount : Z) (tt : timetype) : result :=
  match tt with
  | Seconds a => do r <- (#a) +! (#amount); Ok (Seconds r)
  | Minutes a => do r <- (#a *! 60) +! (#amount); Ok (Seconds r)
  | Hours a => do r <- (#a *! 60 *! 60) +! (#amount); Ok (Seconds r)
  | Days a => do r <- (#a *! 60 *! 60 *! 24) +! (#amount); Ok (Seconds r)
  | Months a => do r <- (#a *! 60 *! 60 *! 24 *! 30) +! (#amount); Ok (Seconds r)
  | Years a => do r <- (#a *! 60 *! 60 *! 24 *! 30 *! 12) +! (#amount); Ok (Seconds r)
  | Moment m => Err (CannotAdd (Seconds amount) (Moment m))
  | EndOfYear e => Err (CannotAdd (Seconds amount) (EndOfYear e))
  | EndOfMonth e => Err (CannotAdd (Seconds amount) (EndOfMonth e))
  | EndOfDay e => Err (CannotAdd (Seconds amount) (EndOfDay e))
  | EndOfHour e => Err (CannotAdd (Seconds amount) (EndOfHour e))
  | EndOfMinute e => Err (CannotAdd (Seconds amount) (EndOfMinute e))
  | Addition b c => do x <- rec (CAdd b c); rec (CAddToSeconds amount x)
  | Subtraction b c => do x <- rec (CSub b c); rec (CAddToSeconds amount x)
  end.

(** src/timetype.rs 685-704 `add_to_minutes`. *)
Definition add_to_minutes (amount : Z) (tt : timetype) : result :=
  match tt with
  | Seconds a => do r <- (#a) +! (#amount *! 60); Ok (Seconds r)
  | Minutes a => do r <- (#a) +! (#amount); Ok (Minutes r)
  | Hours a => do r <- (#a *! 60) +! (#amount); Ok (Minutes r)
  | Days a => do r <- (#a *! 60 *! 24) +! (#amount); Ok (Minutes r)
  | Months a => do r <- (#a *! 60 *! 24 *! 30) +! (#amount); Ok (Minutes r)
  | Years a => do r <- (#a *! 60 *! 24 *! 30 *! 12) +! (#amount); Ok (Minutes r)
  | Moment m => Err (CannotAdd (Minutes amount) (Moment m))
  | EndOfYear e => Err (CannotAdd (Minutes amount) (EndOfYear e))
  | EndOfMonth e => Err (CannotAdd (Minutes amount) (EndOfMonth e))
  | EndOfDay e => Err (CannotAdd (Minutes amount) (EndOfDay e))
  | EndOfHour e => Err (CannotAdd (Minutes amount) (EndOfHour e))
  | EndOfMinute e => Err (CannotAdd (Minutes amount) (EndOfMinute e))
  | Addition b c => do x <- rec (CAdd b c); rec (CAddToMinutes amount x)
  | Subtraction b c => do x <- rec (CSub b c); rec (CAddToMinutes amount x)
  end.

(** src/timetype.rs 706-725 `add_to_hours`. *)
Definition add_to_hours (amount : Z) (tt : timetype) : result :=
  match tt with
  | Seconds a => do r <- (#a) +! (#amount *! 60 *! 60); Ok (Seconds r)
  | Minutes a => do r <- (#a) +! (#amount *! 60); Ok (Minutes r)
  | Hours a => do r <- (#a) +! (#amount); Ok (Hours r)
  | Days a => do r <- (#a *! 24) +! (#amount); Ok (Hours r)
  | Months a => do r <- (#a *! 24 *! 30) +! (#amount); Ok (Hours r)
  | Years a => do r <- (#a *! 24 *! 30 *! 12) +! (#amount); Ok (Hours r)
  | Moment m => Err (CannotAdd (Hours amount) (Moment m))
  | EndOfYear e => Err (CannotAdd (Hours amount) (EndOfYear e))
  | EndOfMonth e => Err (CannotAdd (Hours amount) (EndOfMonth e))
  | EndOfDay e => Err (CannotAdd (Hours amount) (EndOfDay e))
  | EndOfHour e => Err (CannotAdd (Hours amount) (EndOfHour e))
  | EndOfMinute e => Err (CannotAdd (Hours amount) (EndOfMinute e))
  | Addition b c => do x <- rec (CAdd b c); rec (CAddToHours amount x)
  | Subtraction b c => do x <- rec (CSub b c); rec (CAddToHours amount x)
  end.

(** src/timetype.rs 727-746 `add_to_days`. *)
Definition add_to_days (amount : Z) (tt : timetype) : result :=
  match tt with
  | Seconds a => do r <- (#a) +! (#amount *! 24 *! 60 *! 60); Ok (Seconds r)
  | Minutes a => do r <- (#a) +! (#amount *! 24 *! 60); Ok (Minutes r)
  | Hours a => do r <- (#a) +! (#amount *! 24); Ok (Hours r)
  | Days a => do r <- (#a) +! (#amount); Ok (Days r)
  | Months a => do r <- (#a *! 30) +! (#amount); Ok (Days r)
  | Years a => do r <- (#a *! 30 *! 12) +! (#amount); Ok (Days r)
  | Moment m => Err (CannotAdd (Days amount) (Moment m))
  | EndOfYear e => Err (CannotAdd (Days amount) (EndOfYear e))
  | EndOfMonth e => Err (CannotAdd (Days amount) (EndOfMonth e))
  | EndOfDay e => Err (CannotAdd (Days amount) (EndOfDay e))
  | EndOfHour e => Err (CannotAdd (Days amount) (EndOfHour e))
  | EndOfMinute e => Err (CannotAdd (Days amount) (EndOfMinute e))
  | Addition b c => do x <- rec (CAdd b c); rec (CAddToDays amount x)
  | Subtraction b c => do x <- rec (CSub b c); rec (CAddToDays amount x)
  end.

(** src/timetype.rs 748-767 `add_to_months`. *)
Definition add_to_months (amount : Z) (tt : timetype) : result :=
  match tt with
  | Seconds a => do r <- (#a) +! (#amount *! 30 *! 24 *! 60 *! 60); Ok (Seconds r)
  | Minutes a => do r <- (#a) +! (#amount *! 30 *! 24 *! 60); Ok (Minutes r)
  | Hours a => do r <- (#a) +! (#amount *! 30 *! 24); Ok (Hours r)
  | Days a => do r <- (#a) +! (#amount *! 30); Ok (Days r)
  | Months a => do r <- (#a) +! (#amount); Ok (Months r)
  | Years a => do r <- (#a *! 12) +! (#amount); Ok (Months r)
  | Moment m => Err (CannotAdd (Months amount) (Moment m))
  | EndOfYear e => Err (CannotAdd (Months amount) (EndOfYear e))
  | EndOfMonth e => Err (CannotAdd (Months amount) (EndOfMonth e))
  | EndOfDay e => Err (CannotAdd (Months amount) (EndOfDay e))
  | EndOfHour e => Err (CannotAdd (Months amount) (EndOfHour e))
  | EndOfMinute e => Err (CannotAdd (Months amount) (EndOfMinute e))
  | Addition b c => do x <- rec (CAdd b c); rec (CAddToMonths amount x)
  | Subtraction b c => do x <- rec (CSub b c); rec (CAddToMonths amount x)
  end.

(** src/timetype.rs 769-788 `add_to_years`. *)
Definition add_to_years (amount : Z) (tt : timetype) : result :=
  match tt with
  | Seconds a => do r <- (#a) +! (#amount *! 12 *! 30 *! 24 *! 60 *! 60); Ok (Seconds r)
  | Minutes a => do r <- (#a) +! (#amount *! 12 *! 30 *! 24 *! 60); Ok (Minutes r)
  | Hours a => do r <- (#a) +! (#amount *! 12 *! 30 *! 24); Ok (Hours r)
  | Days a => do r <- (#a) +! (#amount *! 12 *! 30); Ok (Days r)
  | Months a => do r <- (#a) +! (#amount *! 12); Ok (Months r)
  | Years a => do r <- (#a) +! (#amount); Ok (Years r)
  | Moment m => Err (CannotAdd (Years amount) (Moment m))
  | EndOfYear e => Err (CannotAdd (Years amount) (EndOfYear e))
  | EndOfMonth e => Err (CannotAdd (Years amount) (EndOfMonth e))
  | EndOfDay e => Err (CannotAdd (Years amount) (EndOfDay e))
  | EndOfHour e => Err (CannotAdd (Years amount) (EndOfHour e))
  | EndOfMinute e => Err (CannotAdd (Years amount) (EndOfMinute e))
  | Addition b c => do x <- rec (CAdd b c); rec (CAddToYears amount x)
  | Subtraction b c => do x <- rec (CSub b c); rec (CAddToYears amount x)
  end.

(** src/timetype.rs 790-899 `add_to_moment`. *)
Definition add_to_moment (mom : datetime) (tt : timetype) : result :=
  match tt with
  | Seconds a =>
      do s <- #(second mom) +! #a;
      do f <- adjust_times_add md (year mom) (month mom) (day mom) (hour mom) (minute mom) s;
      build_moment f
  | Minutes a =>
      do mi <- #(minute mom) +! #a;
      do f <- adjust_times_add md (year mom) (month mom) (day mom) (hour mom) mi (second mom);
      build_moment f
  | Hours a =>
      do h <- #(hour mom) +! #a;
      do f <- adjust_times_add md (year mom) (month mom) (day mom) h (minute mom) (second mom);
      build_moment f
  | Days a =>
      do d <- #(day mom) +! #a;
      do f <- adjust_times_add md (year mom) (month mom) d (hour mom) (minute mom) (second mom);
      build_moment f
  | Months a =>
      do mo <- #(month mom) +! #a;
      do f <- adjust_times_add md (year mom) mo (day mom) (hour mom) (minute mom) (second mom);
      build_moment f
  | Years a =>
      do y <- #(year mom) +! #a;
      do f <- adjust_times_add md y (month mom) (day mom) (hour mom) (minute mom) (second mom);
      build_moment f
  | Moment m => Err (CannotAdd (Moment mom) (Moment m))
  | EndOfYear e => Err (CannotAdd (Moment mom) (EndOfYear e))
  | EndOfMonth e => Err (CannotAdd (Moment mom) (EndOfMonth e))
  | EndOfDay e => Err (CannotAdd (Moment mom) (EndOfDay e))
  | EndOfHour e => Err (CannotAdd (Moment mom) (EndOfHour e))
  | EndOfMinute e => Err (CannotAdd (Moment mom) (EndOfMinute e))
  | Addition a b => do x <- rec (CAdd a b); rec (CAddToMoment mom x)
  | Subtraction a b => do x <- rec (CSub a b); rec (CAddToMoment mom x)
  end.

(** src/timetype.rs 901-943 `sub`; arms in source order. *)
Definition sub (a b : timetype) : result :=
  match a, b with
  | Moment mom, thing => rec (CSubFromMoment mom thing)
  | Seconds a, other => rec (CSubFromSeconds a other)
  | Minutes a, other => rec (CSubFromMinutes a other)
  | Hours a, other => rec (CSubFromHours a other)
  | Days a, other => rec (CSubFromDays a other)
  | Months a, other => rec (CSubFromMonths a other)
  | Years a, other => rec (CSubFromYears a other)
  | Subtraction a b, other => do bx <- rec (CSub a b); rec (CSub bx other)
  | other, Subtraction a b => do bx <- rec (CSub a b); rec (CSub other bx)
  | Addition a b, other => do bx <- rec (CAdd a b); rec (CSub bx other)
  | other, Addition a b => do bx <- rec (CCalc a); do rx <- rec (CSub other bx); rec (CAdd rx b)
  | EndOfYear e, other => Err (CannotSub other (EndOfYear e))
  | other, EndOfYear e => Err (CannotSub other (EndOfYear e))
  | EndOfMonth e, other => Err (CannotSub other (EndOfMonth e))
  | other, EndOfMonth e => Err (CannotSub other (EndOfMonth e))
  | EndOfDay e, other => Err (CannotSub other (EndOfDay e))
  | other, EndOfDay e => Err (CannotSub other (EndOfDay e))
  | EndOfHour e, other => Err (CannotSub other (EndOfHour e))
  | other, EndOfHour e => Err (CannotSub other (EndOfHour e))
  | EndOfMinute e, other => Err (CannotSub other (EndOfMinute e))
  end.

(** src/timetype.rs 945-964 `sub_from_seconds`. *)
Definition sub_from_seconds (amount : Z) (tt : timetype) : result :=
  match tt with
  | Seconds a => do r <- (#amount) -! (#a); Ok (Seconds r)
  | Minutes a => do r <- (#amount) -! (#a *! 60); Ok (Seconds r)
  | Hours a => do r <- (#amount) -! (#a *! 60 *! 60); Ok (Seconds r)
  | Days a => do r <- (#amount) -! (#a *! 60 *! 60 *! 24); Ok (Seconds r)
  | Months a => do r <- (#amount) -! (#a *! 60 *! 60 *! 24 *! 30); Ok (Seconds r)
  | Years a => do r <- (#amount) -! (#a *! 60 *! 60 *! 24 *! 30 *! 12); Ok (Seconds r)
  | Moment m => Err (CannotSub (Seconds amount) (Moment m))
  | EndOfYear e => Err (CannotSub (Seconds amount) (EndOfYear e))
  | EndOfMonth e => Err (CannotSub (Seconds amount) (EndOfMonth e))
  | EndOfDay e => Err (CannotSub (Seconds amount) (EndOfDay e))
  | EndOfHour e => Err (CannotSub (Seconds amount) (EndOfHour e))
  | EndOfMinute e => Err (CannotSub (Seconds amount) (EndOfMinute e))
  | Addition b c => do x <- rec (CAdd b c); rec (CSubFromSeconds amount x)
  | Subtraction b c => do x <- rec (CSub b c); rec (CSubFromSeconds amount x)
  end.

(** src/timetype.rs 966-985 `sub_from_minutes`. *)
Definition sub_from_minutes (amount : Z) (tt : timetype) : result :=
  match tt with
  | Seconds a => do r <- (#amount *! 60) -! (#a); Ok (Seconds r)
  | Minutes a => do r <- (#amount) -! (#a); Ok (Minutes r)
  | Hours a => do r <- (#amount) -! (#a *! 60); Ok (Minutes r)
  | Days a => do r <- (#amount) -! (#a *! 60 *! 24); Ok (Minutes r)
  | Months a => do r <- (#amount) -! (#a *! 60 *! 24 *! 30); Ok (Minutes r)
  | Years a => do r <- (#amount) -! (#a *! 60 *! 24 *! 30 *! 12); Ok (Minutes r)
  | Moment m => Err (CannotSub (Minutes amount) (Moment m))
  | EndOfYear e => Err (CannotSub (Minutes amount) (EndOfYear e))
  | EndOfMonth e => Err (CannotSub (Minutes amount) (EndOfMonth e))
  | EndOfDay e => Err (CannotSub (Minutes amount) (EndOfDay e))
  | EndOfHour e => Err (CannotSub (Minutes amount) (EndOfHour e))
  | EndOfMinute e => Err (CannotSub (Minutes amount) (EndOfMinute e))
  | Addition b c => do x <- rec (CAdd b c); rec (CSubFromMinutes amount x)
  | Subtraction b c => do x <- rec (CSub b c); rec (CSubFromMinutes amount x)
  end.

(** src/timetype.rs 987-1006 `sub_from_hours`. *)
Definition sub_from_hours (amount : Z) (tt : timetype) : result :=
  match tt with
  | Seconds a => do r <- (#amount *! 60 *! 60) -! (#a); Ok (Seconds r)
  | Minutes a => do r <- (#amount *! 60) -! (#a); Ok (Minutes r)
  | Hours a => do r <- (#amount) -! (#a); Ok (Hours r)
  | Days a => do r <- (#amount) -! (#a *! 24); Ok (Hours r)
  | Months a => do r <- (#amount) -! (#a *! 24 *! 30); Ok (Hours r)
  | Years a => do r <- (#amount) -! (#a *! 24 *! 30 *! 12); Ok (Hours r)
  | Moment m => Err (CannotSub (Hours amount) (Moment m))
  | EndOfYear e => Err (CannotSub (Hours amount) (EndOfYear e))
  | EndOfMonth e => Err (CannotSub (Hours amount) (EndOfMonth e))
  | EndOfDay e => Err (CannotSub (Hours amount) (EndOfDay e))
  | EndOfHour e => Err (CannotSub (Hours amount) (EndOfHour e))
  | EndOfMinute e => Err (CannotSub (Hours amount) (EndOfMinute e))
  | Addition b c => do x <- rec (CAdd b c); rec (CSubFromHours amount x)
  | Subtraction b c => do x <- rec (CSub b c); rec (CSubFromHours amount x)
  end.

(** src/timetype.rs 1008-1027 `sub_from_days`. *)
Definition sub_from_days (amount : Z) (tt : timetype) : result :=
  match tt with
  | Seconds a => do r <- (#amount *! 24 *! 60 *! 60) -! (#a); Ok (Seconds r)
  | Minutes a => do r <- (#amount *! 24 *! 60) -! (#a); Ok (Minutes r)
  | Hours a => do r <- (#amount *! 24) -! (#a); Ok (Hours r)
  | Days a => do r <- (#amount) -! (#a); Ok (Days r)
  | Months a => do r <- (#amount) -! (#a *! 30); Ok (Days r)
  | Years a => do r <- (#amount) -! (#a *! 30 *! 12); Ok (Days r)
  | Moment m => Err (CannotSub (Days amount) (Moment m))
  | EndOfYear e => Err (CannotSub (Days amount) (EndOfYear e))
  | EndOfMonth e => Err (CannotSub (Days amount) (EndOfMonth e))
  | EndOfDay e => Err (CannotSub (Days amount) (EndOfDay e))
  | EndOfHour e => Err (CannotSub (Days amount) (EndOfHour e))
  | EndOfMinute e => Err (CannotSub (Days amount) (EndOfMinute e))
  | Addition b c => do x <- rec (CAdd b c); rec (CSubFromDays amount x)
  | Subtraction b c => do x <- rec (CSub b c); rec (CSubFromDays amount x)
  end.

(** src/timetype.rs 1029-1048 `sub_from_months`. *)
Definition sub_from_months (amount : Z) (tt : timetype) : result :=
  match tt with
  | Seconds a => do r <- (#amount *! 30 *! 24 *! 60 *! 60) -! (#a); Ok (Seconds r)
  | Minutes a => do r <- (#amount *! 30 *! 24 *! 60) -! (#a); Ok (Minutes r)
  | Hours a => do r <- (#amount *! 30 *! 24) -! (#a); Ok (Hours r)
  | Days a => do r <- (#amount *! 30) -! (#a); Ok (Days r)
  | Months a => do r <- (#amount) -! (#a); Ok (Months r)
  | Years a => do r <- (#amount) -! (#a *! 12); Ok (Months r)
  | Moment m => Err (CannotSub (Months amount) (Moment m))
  | EndOfYear e => Err (CannotSub (Months amount) (EndOfYear e))
  | EndOfMonth e => Err (CannotSub (Months amount) (EndOfMonth e))
  | EndOfDay e => Err (CannotSub (Months amount) (EndOfDay e))
  | EndOfHour e => Err (CannotSub (Months amount) (EndOfHour e))
  | EndOfMinute e => Err (CannotSub (Months amount) (EndOfMinute e))
  | Addition b c => do x <- rec (CAdd b c); rec (CSubFromMonths amount x)
  | Subtraction b c => do x <- rec (CSub b c); rec (CSubFromMonths amount x)
  end.

(** src/timetype.rs 1050-1069 `sub_from_years`. *)
Definition sub_from_years (amount : Z) (tt : timetype) : result :=
  match tt with
  | Seconds a => do r <- (#amount *! 12 *! 30 *! 24 *! 60 *! 60) -! (#a); Ok (Seconds r)
  | Minutes a => do r <- (#amount *! 12 *! 30 *! 24 *! 60) -! (#a); Ok (Minutes r)
  | Hours a => do r <- (#amount *! 12 *! 30 *! 24) -! (#a); Ok (Hours r)
  | Days a => do r <- (#amount *! 12 *! 30) -! (#a); Ok (Days r)
  | Months a => do r <- (#amount *! 12) -! (#a); Ok (Months r)
  | Years a => do r <- (#amount) -! (#a); Ok (Years r)
  | Moment m => Err (CannotSub (Years amount) (Moment m))
  | EndOfYear e => Err (CannotSub (Years amount) (EndOfYear e))
  | EndOfMonth e => Err (CannotSub (Years amount) (EndOfMonth e))
  | EndOfDay e => Err (CannotSub (Years amount) (EndOfDay e))
  | EndOfHour e => Err (CannotSub (Years amount) (EndOfHour e))
  | EndOfMinute e => Err (CannotSub (Years amount) (EndOfMinute e))
  | Addition b c => do x <- rec (CAdd b c); rec (CSubFromYears amount x)
  | Subtraction b c => do x <- rec (CSub b c); rec (CSubFromYears amount x)
  end.

(** src/timetype.rs 1071-1180 `sub_from_moment`. *)
Definition sub_from_moment (mom : datetime) (tt : timetype) : result :=
  match tt with
  | Seconds a =>
      do s <- #(second mom) -! #a;
      do f <- adjust_times_sub md (year mom) (month mom) (day mom) (hour mom) (minute mom) s;
      build_moment f
  | Minutes a =>
      do mi <- #(minute mom) -! #a;
      do f <- adjust_times_sub md (year mom) (month mom) (day mom) (hour mom) mi (second mom);
      build_moment f
  | Hours a =>
      do h <- #(hour mom) -! #a;
      do f <- adjust_times_sub md (year mom) (month mom) (day mom) h (minute mom) (second mom);
      build_moment f
  | Days a =>
      do d <- #(day mom) -! #a;
      do f <- adjust_times_sub md (year mom) (month mom) d (hour mom) (minute mom) (second mom);
      build_moment f
  | Months a =>
      do mo <- #(month mom) -! #a;
      do f <- adjust_times_sub md (year mom) mo (day mom) (hour mom) (minute mom) (second mom);
      build_moment f
  | Years a =>
      do y <- #(year mom) -! #a;
      do f <- adjust_times_sub md y (month mom) (day mom) (hour mom) (minute mom) (second mom);
      build_moment f
  | Moment m => Err (CannotSub (Moment mom) (Moment m))
  | EndOfYear e => Err (CannotSub (Moment mom) (EndOfYear e))
  | EndOfMonth e => Err (CannotSub (Moment mom) (EndOfMonth e))
  | EndOfDay e => Err (CannotSub (Moment mom) (EndOfDay e))
  | EndOfHour e => Err (CannotSub (Moment mom) (EndOfHour e))
  | EndOfMinute e => Err (CannotSub (Moment mom) (EndOfMinute e))
  | Addition a b => do x <- rec (CAdd a b); rec (CSubFromMoment mom x)
  | Subtraction a b => do x <- rec (CSub a b); rec (CSubFromMoment mom x)
  end.

(** Dispatch of a call to its function (src/timetype.rs 454-1180). *)
Definition body (c : call) : result :=
  match c with
  | CCalc t => do_calculate t
  | CAdd a b => add a b
  | CSub a b => sub a b
  | CEndOfYear t => end_of_year t
  | CEndOfMonth t => end_of_month t
  | CEndOfDay t => end_of_day t
  | CEndOfHour t => end_of_hour t
  | CEndOfMinute t => end_of_minute t
  | CAddToSeconds n t => add_to_seconds n t
  | CAddToMinutes n t => add_to_minutes n t
  | CAddToHours n t => add_to_hours n t
  | CAddToDays n t => add_to_days n t
  | CAddToMonths n t => add_to_months n t
  | CAddToYears n t => add_to_years n t
  | CAddToMoment m t => add_to_moment m t
  | CSubFromSeconds n t => sub_from_seconds n t
  | CSubFromMinutes n t => sub_from_minutes n t
  | CSubFromHours n t => sub_from_hours n t
  | CSubFromDays n t => sub_from_days n t
  | CSubFromMonths n t => sub_from_months n t
  | CSubFromYears n t => sub_from_years n t
  | CSubFromMoment m t => sub_from_moment m t
  end.
End Rec.

(** Recursive evaluation with call depth at most [fuel] (src/timetype.rs 454-1180). *)
Fixpoint run (fuel : nat) (c : call) : result :=
  match fuel with
  | O => OutOfFuel
  | S n => body (run n) c
  end.

(** Number of nodes, counting `EndOf*` twice; bounds the call depth (model device for
    src/timetype.rs 454-1180; [calculate] is proved never to run out of it). *)
Fixpoint size (t : timetype) : nat :=
  match t with
  | Addition a b | Subtraction a b => S (size a + size b)
  | EndOfYear e | EndOfMonth e | EndOfDay e | EndOfHour e | EndOfMinute e => S (S (size e))
  | _ => 1%nat
  end.

(** src/timetype.rs 435-437 `calculate`. *)
Definition calculate (t : timetype) : result := run (S (size t)) (CCalc t).
End Mode.
