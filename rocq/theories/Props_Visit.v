(** The moments an iteration visits (C117). *)
Require Import ZArith Bool List Lia.
From Verif Require Import Prelude Spec Chrono TimeType Matcher Iter SpecTree SpecMoment SpecIter SpecExact SpecVisit VisitProofs.
Import ListNotations.
Local Open Scope Z_scope.

(** C117. An iteration by clock units visits exactly the moments from the first on that are a whole number of steps away. *)
Theorem C117_clock : forall md m u n it x, build m (mk u n) = Ok it -> dt_valid m = true -> nano m = 0 -> clock_unit u = true ->
  0 < n -> n * unit_secs u <= 30 * 86400 -> dt_valid x = true -> nano x = 0 ->
  (visits (iter_next md) it x <-> inst m <= inst x /\ (n * unit_secs u | inst x - inst m)).
Proof. exact clock_visits. Qed.
Print Assumptions C117_clock.
(** By months, on a day every month has: the same day and time of day, a whole number of steps of months away. *)
Theorem C117_months : forall md m n it x, build m (Months n) = Ok it -> dt_valid m = true -> nano m = 0 -> day m <= 28 -> 0 < n -> n * unit_secs UMonth <= span32 ->
  dt_valid x = true -> nano x = 0 ->
  (visits (iter_next md) it x <-> month_index m <= month_index x /\ (n | month_index x - month_index m) /\ day x = day m /\ sod x = sod m).
Proof. exact month_visits. Qed.
Print Assumptions C117_months.
(** By years, from any day but 29 February. *)
Theorem C117_years : forall md m n it x, build m (Years n) = Ok it -> dt_valid m = true -> nano m = 0 -> ~ (month m = 2 /\ day m = 29) -> 0 < n -> n * unit_secs UYear <= span32 ->
  dt_valid x = true -> nano x = 0 ->
  (visits (iter_next md) it x <-> year m <= year x /\ (n | year x - year m) /\ month x = month m /\ day x = day m /\ sod x = sod m).
Proof. exact year_visits. Qed.
Print Assumptions C117_years.
(** No iteration forward visits a moment twice, in any unit and from any day. *)
Theorem C117_once : forall md m u n it x j k, build m (mk u n) = Ok it -> dt_valid m = true -> 0 < n -> n * unit_secs u <= span32 ->
  nth_item (iter_next md) j it = Some (Ok (Moment x)) -> nth_item (iter_next md) k it = Some (Ok (Moment x)) -> j = k.
Proof. exact visited_once. Qed.
Print Assumptions C117_once.
(** The daily iteration has exactly one item on every date from the first on. *)
Theorem C117_dates : forall md m it y mo d, build m (Days 1) = Ok it -> dt_valid m = true -> nano m = 0 -> date_exists y mo d = true -> y <= max_year ->
  day_number (year m) (month m) (day m) <= day_number y mo d ->
  exists! k, exists x, nth_item (iter_next md) k it = Some (Ok (Moment x)) /\ year x = y /\ month x = mo /\ day x = d.
Proof. exact every_date. Qed.
Print Assumptions C117_dates.
(** Two iterations from one moment meet every least common multiple of their steps. *)
Theorem C117_common : forall md m u n v p it it' x, build m (mk u n) = Ok it -> build m (mk v p) = Ok it' -> dt_valid m = true -> nano m = 0 ->
  clock_unit u = true -> clock_unit v = true -> 0 < n -> n * unit_secs u <= 30 * 86400 -> 0 < p -> p * unit_secs v <= 30 * 86400 -> dt_valid x = true -> nano x = 0 ->
  (visits (iter_next md) it x /\ visits (iter_next md) it' x <-> inst m <= inst x /\ (Z.lcm (n * unit_secs u) (p * unit_secs v) | inst x - inst m)).
Proof. exact common_visits. Qed.
Print Assumptions C117_common.
(** One visits all that the other does exactly if its step divides the other's. *)
Theorem C117_finer : forall md m u n v p it it', build m (mk u n) = Ok it -> build m (mk v p) = Ok it' -> dt_valid m = true -> nano m = 0 ->
  clock_unit u = true -> clock_unit v = true -> 0 < n -> n * unit_secs u <= 30 * 86400 -> 0 < p -> p * unit_secs v <= 30 * 86400 ->
  inst m + p * unit_secs v < instant (max_year + 1) 1 1 0 0 0 ->
  ((forall x, visits (iter_next md) it' x -> visits (iter_next md) it x) <-> (n * unit_secs u | p * unit_secs v)).
Proof. exact finer_visits. Qed.
Print Assumptions C117_finer.
(** every() by the weekday of the start makes a daily iteration the weekly one. *)
Theorem C117_weekly : forall md m it it' d fuel j, build m (Days 1) = Ok it -> build m (Days 7) = Ok it' -> dt_valid m = true -> nano m = 0 -> (7 <= fuel)%nat ->
  wday_into d = weekday (year m) (month m) (day m) -> inst m + 7 * Z.of_nat j * 86400 < instant (max_year + 1) 1 1 0 0 0 ->
  nth_item (filter_next (iter_next md) fuel (day_matches d)) j it = nth_item (iter_next md) j it'.
Proof. exact weekly_same. Qed.
Print Assumptions C117_weekly.

(** From Friday 29 January 2016: every 10 hours and every 15 hours meet after 30 hours; every third day meets 28 February and 2 March. *)
Example C117_case : let m := mkdt 2016 1 29 10 0 0 0 in let a := mkiter (Moment m) (Hours 10) false in let b := mkiter (Moment m) (Hours 15) false in
  let x := mkdt 2016 1 30 16 0 0 0 in
  build m (Hours 10) = Ok a /\ build m (Hours 15) = Ok b /\ dt_valid m = true /\ Z.lcm (10 * 3600) (15 * 3600) = 108000 /\ inst x - inst m = 108000 /\
  nth_item (iter_next Checked) 3 a = Some (Ok (Moment x)) /\ nth_item (iter_next Checked) 2 b = Some (Ok (Moment x)) /\
  build m (Days 3) = Ok (mkiter (Moment m) (Days 3) false) /\
  nth_item (iter_next Checked) 10 (mkiter (Moment m) (Days 3) false) = Some (Ok (Moment (mkdt 2016 2 28 10 0 0 0))) /\
  nth_item (iter_next Checked) 11 (mkiter (Moment m) (Days 3) false) = Some (Ok (Moment (mkdt 2016 3 2 10 0 0 0))) /\
  wday_into Friday = weekday 2016 1 29 /\
  nth_item (filter_next (iter_next Checked) 7 (day_matches Friday)) 5 (mkiter (Moment m) (Days 1) false) = Some (Ok (Moment (mkdt 2016 3 4 10 0 0 0))) /\
  nth_item (iter_next Checked) 5 (mkiter (Moment m) (Days 7) false) = Some (Ok (Moment (mkdt 2016 3 4 10 0 0 0))).
Proof. vm_compute. repeat split. Qed.
(** From 28 November 2015: every fifth month, and every fourth year. *)
Example C117_case_months : let m := mkdt 2015 11 28 10 0 0 0 in
  build m (Months 5) = Ok (mkiter (Moment m) (Months 5) false) /\ dt_valid m = true /\ 5 * unit_secs UMonth <= span32 /\
  nth_item (iter_next Checked) 3 (mkiter (Moment m) (Months 5) false) = Some (Ok (Moment (mkdt 2017 2 28 10 0 0 0))) /\
  month_index (mkdt 2017 2 28 10 0 0 0) - month_index m = 15 /\
  build m (Years 4) = Ok (mkiter (Moment m) (Years 4) false) /\ 4 * unit_secs UYear <= span32 /\
  nth_item (iter_next Checked) 2 (mkiter (Moment m) (Years 4) false) = Some (Ok (Moment (mkdt 2023 11 28 10 0 0 0))).
Proof. vm_compute. repeat split; discriminate. Qed.
