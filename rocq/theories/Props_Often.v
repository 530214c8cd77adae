(** How often filters by weekday and month match (C128). *)
Require Import ZArith Bool List Lia.
From Verif Require Import Prelude Spec Chrono TimeType Matcher Iter SpecTree SpecMoment SpecIter SpecAdapt SpecExact SpecHang OftenProofs.
Import ListNotations.
Local Open Scope Z_scope.

(** C128. On an iteration by a whole number [c] of days, filtering for a weekday that is a multiple of gcd(c, 7) days away yields every
    7/gcd(c, 7)-th moment, from one of the first 7/gcd(c, 7) on. *)
Theorem C128_day : forall md m u n c it d, build m (mk u n) = Ok it -> dt_valid m = true -> clock_unit u = true -> n * unit_secs u = c * 86400 -> 1 <= c <= 30 ->
  (Z.gcd c 7 | wday_into d - weekday (year m) (month m) (day m)) ->
  exists g, 0 <= g < 7 / Z.gcd c 7 /\ forall j fuel, (7 <= fuel)%nat ->
    let k := g + 7 / Z.gcd c 7 * Z.of_nat j in inst m + k * (c * 86400) < instant (max_year + 1) 1 1 0 0 0 ->
    exists x, nth_item (filter_next (iter_next md) fuel (day_matches d)) j it = Some (Ok (Moment x)) /\ dt_valid x = true /\ inst x = inst m + k * (c * 86400) /\ on_day d x = true.
Proof. exact often_day. Qed.
Print Assumptions C128_day.
(** For any other weekday nothing is yielded. *)
Theorem C128_no_day : forall md m u n c it d fuel j x, build m (mk u n) = Ok it -> dt_valid m = true -> clock_unit u = true -> n * unit_secs u = c * 86400 -> 1 <= c <= 30 ->
  ~ (Z.gcd c 7 | wday_into d - weekday (year m) (month m) (day m)) -> nth_item (filter_next (iter_next md) fuel (day_matches d)) j it <> Some (Ok x).
Proof. exact never_day. Qed.
Print Assumptions C128_no_day.
(** On an iteration by [n] months from a day up to 28, filtering for a month that is a multiple of gcd(n, 12) months away yields every
    12/gcd(n, 12)-th moment, from one of the first 12/gcd(n, 12) on. *)
Theorem C128_month : forall md m n it mo, build m (Months n) = Ok it -> dt_valid m = true -> day m <= 28 -> 0 < n ->
  (Z.gcd n 12 | ymonth_into mo - month m) ->
  exists g, 0 <= g < 12 / Z.gcd n 12 /\ forall j fuel, (12 <= fuel)%nat ->
    let k := g + 12 / Z.gcd n 12 * Z.of_nat j in month_index m + k * n <= 12 * max_year + 11 ->
    exists x, nth_item (filter_next (iter_next md) fuel (month_matches mo)) j it = Some (Ok (Moment x)) /\ month_index x = month_index m + k * n /\ day x = day m /\ month x = ymonth_into mo.
Proof. exact often_month. Qed.
Print Assumptions C128_month.
(** For any other month no moment is yielded. *)
Theorem C128_no_month : forall md m n it mo fuel j x, build m (Months n) = Ok it -> dt_valid m = true -> nano m = 0 -> day m <= 28 -> 0 < n -> n * unit_secs UMonth <= span32 ->
  ~ (Z.gcd n 12 | ymonth_into mo - month m) -> nth_item (filter_next (iter_next md) fuel (month_matches mo)) j it <> Some (Ok (Moment x)).
Proof. exact never_month. Qed.
Print Assumptions C128_no_month.

(** From Tuesday 17 November 2020 by 10 days, Saturdays come after 60, 130, ... days; by 48 hours they come after 4, 18, ... days. *)
Example C128_day_case : let m := mkdt 2020 11 17 12 0 0 0 in let it u n := mkiter (Moment m) (mk u n) false in
  build m (mk UDay 10) = Ok (it UDay 10) /\ dt_valid m = true /\ 10 * unit_secs UDay = 10 * 86400 /\ 48 * unit_secs UHour = 2 * 86400 /\
  Z.gcd 10 7 = 1 /\ inst m + (6 + 7 / 1 * 1) * (10 * 86400) < instant (max_year + 1) 1 1 0 0 0 /\
  items (filter_next (iter_next Checked) 7 (day_matches Saturday)) 2 (it UDay 10) =
    [Some (Ok (Moment (mkdt 2021 1 16 12 0 0 0))); Some (Ok (Moment (mkdt 2021 3 27 12 0 0 0)))] /\
  items (filter_next (iter_next Checked) 7 (day_matches Saturday)) 2 (it UHour 48) =
    [Some (Ok (Moment (mkdt 2020 11 21 12 0 0 0))); Some (Ok (Moment (mkdt 2020 12 5 12 0 0 0)))].
Proof. vm_compute. repeat split; discriminate. Qed.
(** By 14 days there are Tuesdays only, each at once. *)
Example C128_no_day_case : let m := mkdt 2020 11 17 12 0 0 0 in let it := mkiter (Moment m) (Days 14) false in
  build m (mk UDay 14) = Ok it /\ Z.gcd 14 7 = 7 /\ (wday_into Tuesday - weekday 2020 11 17) mod 7 = 0 /\ (wday_into Saturday - weekday 2020 11 17) mod 7 <> 0 /\
  items (filter_next (iter_next Checked) 7 (day_matches Tuesday)) 2 it = [Some (Ok (Moment m)); Some (Ok (Moment (mkdt 2020 12 1 12 0 0 0)))] /\
  nth_item (filter_next (iter_next Checked) 30 (day_matches Saturday)) 0 it = Some OutOfFuel.
Proof. vm_compute. repeat split; discriminate. Qed.
(** By 9 months from November, Februaries come after 27, 63, ... months, and there is no January. *)
Example C128_month_case : let m := mkdt 2020 11 17 12 0 0 0 in let it := mkiter (Moment m) (Months 9) false in
  build m (Months 9) = Ok it /\ dt_valid m = true /\ Z.gcd 9 12 = 3 /\ (ymonth_into February - month m) mod 3 = 0 /\ (ymonth_into January - month m) mod 3 <> 0 /\
  9 * unit_secs UMonth <= span32 /\
  items (filter_next (iter_next Checked) 12 (month_matches February)) 2 it =
    [Some (Ok (Moment (mkdt 2023 2 17 12 0 0 0))); Some (Ok (Moment (mkdt 2026 2 17 12 0 0 0)))] /\
  nth_item (filter_next (iter_next Checked) 30 (month_matches January)) 0 it = Some OutOfFuel.
Proof. vm_compute. repeat split; discriminate. Qed.
