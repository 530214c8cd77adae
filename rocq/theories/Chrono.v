(** The fragment of the `chrono` crate that /repo calls.  chrono itself is not
    part of /repo; these definitions state what is assumed of it. *)
Require Import ZArith Bool.
From Verif Require Import Prelude Spec.
Local Open Scope Z_scope.

(** `NaiveDate`: used in /repo/src/timetype.rs 485, 517, 547, 576, 605, 804 ff. *)
Record date := mkdate { dyear : Z; dmonth : Z; dday : Z }.

(** `NaiveDateTime` by its field accessors `year() .. second()` (/repo/src/timetype.rs
    795-800) plus the nanosecond field, which may reach 1999999999 on a leap second. *)
Record datetime := mkdt
  { year : Z; month : Z; day : Z; hour : Z; minute : Z; second : Z; nano : Z }.

(** `NaiveDate::from_ymd_opt(y: i32, m: u32, d: u32)` (/repo/src/timetype.rs 485, 517, 547, 804 ff.):
    `Some` exactly for dates of the Gregorian calendar in chrono's year range. *)
Definition from_ymd_opt (y m d : Z) : option date :=
  if (min_year <=? y) && (y <=? max_year) && date_exists y m d
  then Some (mkdate y m d) else None.

(** `NaiveDate::and_hms_opt(h: u32, m: u32, s: u32)` (/repo/src/timetype.rs 577, 606, 805 ff.). *)
Definition and_hms_opt (nd : date) (h mi s : Z) : option datetime :=
  if (0 <=? h) && (h <? 24) && (0 <=? mi) && (mi <? 60) && (0 <=? s) && (s <? 60)
  then Some (mkdt (dyear nd) (dmonth nd) (dday nd) h mi s 0) else None.

(** `NaiveDate::and_hms`, panicking variant (/repo/src/timetype.rs 486, 518, 548). *)
Definition and_hms {E} (nd : date) (h mi s : Z) : outcome E datetime :=
  match and_hms_opt nd h mi s with
  | Some dt => Ok dt
  | None => Panic PUnwrap
  end.

(** Values a `NaiveDateTime` (/repo/src/timetype.rs 30) can have. *)
Definition dt_valid (m : datetime) : bool :=
  (min_year <=? year m) && (year m <=? max_year) && date_exists (year m) (month m) (day m) &&
  (0 <=? hour m) && (hour m <? 24) && (0 <=? minute m) && (minute m <? 60) &&
  (0 <=? second m) && (second m <? 60) && (0 <=? nano m) && (nano m <? 2000000000).

(** `Ord for NaiveDateTime` (used by /repo/src/iter.rs 209 and the derived `Ord` of
    /repo/src/timetype.rs 21): lexicographic from year to nanosecond. *)
Definition dt_compare (a b : datetime) : comparison :=
  match year a ?= year b with
  | Eq =>
    match month a ?= month b with
    | Eq =>
      match day a ?= day b with
      | Eq =>
        match hour a ?= hour b with
        | Eq =>
          match minute a ?= minute b with
          | Eq =>
            match second a ?= second b with
            | Eq => nano a ?= nano b
            | c => c
            end
          | c => c
          end
        | c => c
        end
      | c => c
      end
    | c => c
    end
  | c => c
  end.

(** `a < b` on NaiveDateTime (/repo/src/iter.rs 209). *)
Definition dt_ltb (a b : datetime) : bool :=
  match dt_compare a b with Lt => true | _ => false end.

(** `Datelike::weekday` (/repo/src/timetype.rs 397), 0 = Monday. *)
Definition dt_weekday (m : datetime) : Z := weekday (year m) (month m) (day m).
