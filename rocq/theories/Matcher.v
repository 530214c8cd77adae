(** Model of /repo/src/indicator.rs, /repo/src/matcher.rs and the queries `is_a`, `is_in` of
    /repo/src/timetype.rs. *)
Require Import ZArith Bool String.
From Verif Require Import Prelude Chrono TimeType.
Local Open Scope Z_scope.

(** src/indicator.rs 13-22 `enum Day` (named [wday] because [day] is a field accessor). *)
Inductive wday := Monday | Tuesday | Wednesday | Thursday | Friday | Saturday | Sunday.

(** src/indicator.rs 24-36 `Into<Weekday> for Day`; chrono's weekdays are 0 = Mon .. 6 = Sun. *)
Definition wday_into (d : wday) : Z :=
  match d with
  | Monday => 0 | Tuesday => 1 | Wednesday => 2 | Thursday => 3 | Friday => 4
  | Saturday => 5 | Sunday => 6
  end.

(** src/indicator.rs 38-52 `enum Month`. *)
Inductive ymonth :=
| January | February | March | April | May | June | July | August | September
| October | November | December.

(** src/indicator.rs 54-71 `Into<u32> for Month`. *)
Definition ymonth_into (m : ymonth) : Z :=
  match m with
  | January => 1 | February => 2 | March => 3 | April => 4 | May => 5 | June => 6
  | July => 7 | August => 8 | September => 9 | October => 10 | November => 11 | December => 12
  end.

(** src/timetype.rs 391-400 `is_a`. *)
Definition is_a (t : timetype) (d : wday) : outcome kek bool :=
  match t with
  | Moment m => Ok (dt_weekday m =? wday_into d)
  | _ => Err (CannotCompareDayTo (name t))
  end.

(** src/timetype.rs 402-411 `is_in`. *)
Definition is_in (t : timetype) (mo : ymonth) : outcome kek bool :=
  match t with
  | Moment m => Ok (month m =? ymonth_into mo)
  | _ => Err (CannotCompareMonthTo (name t))
  end.

(** src/matcher.rs 11-14 `trait Matcher`: a matcher is its `matches` function. *)
Definition matcher : Type := timetype -> outcome kek bool.

(** src/matcher.rs 16-24 `Matcher for Day`. *)
Definition day_matches (d : wday) : matcher := fun tt =>
  ok_or (match get_moment tt with
         | Some mom => Some (wday_into d =? dt_weekday mom)
         | None => None
         end) (ArgumentErrorNotAMoment (name tt)).

(** src/matcher.rs 26-35 `Matcher for Month`. *)
Definition month_matches (mo : ymonth) : matcher := fun tt =>
  ok_or (match get_moment tt with
         | Some mom => Some (ymonth_into mo =? month mom)
         | None => None
         end) (ArgumentErrorNotAMoment (name tt)).

(** src/matcher.rs 40-47 blanket `Matcher for F: Filter<TimeType>` (feature with-filters). *)
Definition filter_matches (f : timetype -> bool) : matcher := fun tt => Ok (f tt).

(** src/indicator.rs 73-81 `Filter for DayFilter` (feature with-filters). *)
Definition day_filter (d : wday) (tt : timetype) : bool :=
  match get_moment tt with
  | Some mom => dt_weekday mom =? wday_into d
  | None => false
  end.

(** src/indicator.rs 94-102 `Filter for MonthFilter` (feature with-filters). *)
Definition month_filter (mo : ymonth) (tt : timetype) : bool :=
  match get_moment tt with
  | Some mom => month mom =? ymonth_into mo
  | None => false
  end.
