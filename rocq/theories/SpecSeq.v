(** Vocabulary for repeated steps: what `collect()` returns, how many steps fit before an end. *)
Require Import ZArith Bool List.
From Verif Require Import Prelude Spec Chrono TimeType Iter SpecTree SpecMoment SpecIter.
Local Open Scope Z_scope.

(** `collect::<Vec<_>>()` returns the list [l]: its elements, then [None]. *)
Definition collects {S} (nx : next_fn S) (s : S) (l : list result) : Prop :=
  items nx (length l) s = map Some l /\ nth_item nx (length l) s = None.

(** How many of the instants [m], [m] + [step], [m] + 2 [step], ... lie before [ending], when [m] does;
    [ending] counts as one second later if it has a sub-second part. *)
Definition steps_before (m ending : datetime) (step : Z) : Z :=
  (inst ending - inst m + (if 0 <? nano ending then 1 else 0) - 1) / step + 1.

(** Adding a negative amount never borrows from the next field.  With [T] the second of the day aimed at
    (counted from midnight of the day of [m]), it works if the target is in the same minute, or at the start
    of a minute of the same hour, or at the start of an hour of the same day, or at midnight; fields finer
    than the unit do not matter. *)
Definition no_borrow (u : tunit) (m : datetime) (T : Z) : bool :=
  let days_back := (0 <=? T) || (T mod 86400 / 3600 =? 0) in
  let hours_back := (T / 3600 =? sod m / 3600) || (T mod 3600 / 60 =? 0) && days_back in
  match u with
  | USec => (T / 60 =? sod m / 60) || (T mod 60 =? 0) && hours_back
  | UMin => hours_back
  | UHour => days_back
  | _ => true
  end.

(** Position of a moment inside its month and inside its year, as (day, second, nanosecond) and
    (month, day, second, nanosecond), compared lexicographically. *)
Definition earlier_in_month (a b : datetime) : bool :=
  (day a <? day b) || (day a =? day b) && ((sod a <? sod b) || (sod a =? sod b) && (nano a <? nano b)).
Definition earlier_in_year (a b : datetime) : bool :=
  (month a <? month b) || (month a =? month b) && earlier_in_month a b.
(** How many of [m], [m] + [n] months, [m] + 2 [n] months, ... lie before [ending], when [m] does (the later
    ones have no sub-second part). *)
Definition month_steps_before (m ending : datetime) (n : Z) : Z :=
  (12 * (year ending - year m) + (month ending - month m) + (if earlier_in_month (whole_second m) ending then 1 else 0) - 1) / n + 1.
(** The same for years. *)
Definition year_steps_before (m ending : datetime) (n : Z) : Z :=
  (year ending - year m + (if earlier_in_year (whole_second m) ending then 1 else 0) - 1) / n + 1.

(** The left-nested sum [x] + a1 + a2 + ... of a list of amounts. *)
Definition chain (x : timetype) (l : list timetype) : timetype := fold_left Addition l x.
(** Seconds of a list of amounts. *)
Definition sum_secs (l : list timetype) : Z := fold_right Z.add 0 (map secs l).
(** An amount tree over seconds, minutes, hours and days worth at most 30 days. *)
Definition clock_amount (t : timetype) : Prop :=
  tt_ok t = true /\ amount_only t = true /\ abs_secs t <= i64_max /\ clock_unit (finest t) = true /\ 0 <= secs t <= 30 * 86400.
(** The result is a moment satisfying the predicate. *)
Definition moment_is (g : datetime -> bool) (r : result) : bool := match r with Ok (Moment d) => g d | _ => false end.
