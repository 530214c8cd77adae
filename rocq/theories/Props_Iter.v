(** Properties C34-C40: stepping iterators. *)
Require Import ZArith Bool List Lia ZifyBool.
From Verif Require Import Prelude Spec Chrono TimeType Iter SpecTree SpecMoment SpecIter EvalProofs IterProofs IterProofs2 IterProofs3 KindProofs.
Import ListNotations.
Local Open Scope Z_scope.

Definition jan31 : datetime := mkdt 2016 1 31 10 0 0 0.

(** C34. What the constructors accept. *)
Theorem C34_build : forall b inc it, build b inc = Ok it <->
  (exists u n, inc = mk u n) /\ it = mkiter (Moment b) inc false.
Proof. exact kind_build. Qed.
Print Assumptions C34_build.
Theorem C34_build_fails : forall b inc, (forall u n, inc <> mk u n) -> build b inc = Err (ArgumentErrorNotAnAmount inc).
Proof. exact kind_build_fails. Qed.
Print Assumptions C34_build_fails.
Theorem C34_constructors : forall m n inc,
  minutely (Moment m) n = build m (Minutes n) /\ hourly (Moment m) n = build m (Hours n) /\
  daily (Moment m) n = build m (Days n) /\ monthly (Moment m) n = build m (Months n) /\
  yearly (Moment m) n = build m (Years n) /\ every (Moment m) inc = build m inc.
Proof. exact ctor_moment. Qed.
Print Assumptions C34_constructors.
Theorem C34_other_receivers : forall md t n inc, (forall m, t <> Moment m) ->
  let e := Err (ArgumentErrorNotAnAmount t) in
  minutely t n = e /\ hourly t n = e /\ daily t n = e /\ weekly md t n = e /\ monthly t n = e /\ yearly t n = e /\ every t inc = e.
Proof. exact kind_receivers. Qed.
Print Assumptions C34_other_receivers.
Theorem C34_weekly : forall md t n, in_i64 (7 * n) = true -> weekly md t n = daily t (7 * n).
Proof. exact weekly_daily. Qed.
Print Assumptions C34_weekly.
Theorem C34_weekly_overflow : forall md m n, in_i64 n = true -> in_i64 (7 * n) = false ->
  weekly md (Moment m) n = match md with Checked => Panic PArith | Wrapping => daily (Moment m) (wrap64 (7 * n)) end.
Proof. exact weekly_overflow. Qed.
Print Assumptions C34_weekly_overflow.
Example C34_overflow_case : in_i64 (i64_max / 7 + 1) = true /\ in_i64 (7 * (i64_max / 7 + 1)) = false /\
  weekly Checked (Moment jan31) (i64_max / 7 + 1) = Panic PArith /\
  weekly Wrapping (Moment jan31) (i64_max / 7 + 1) = Ok (mkiter (Moment jan31) (Days (i64_min + 6)) false).
Proof. vm_compute. repeat split. Qed.
Example C34_case :
  build jan31 (Addition (Days 1) (Days 2)) = Err (ArgumentErrorNotAnAmount (Addition (Days 1) (Days 2))) /\
  build jan31 (Hours (-3)) = Ok (mkiter (Moment jan31) (Hours (-3)) false) /\
  weekly Checked (Moment jan31) 2 = Ok (mkiter (Moment jan31) (Days 14) false) /\
  in_i64 2000000000000000000 = true /\ in_i64 (7 * 2000000000000000000) = false /\
  every (EndOfDay (Moment jan31)) (Days 1) = Err (ArgumentErrorNotAnAmount (EndOfDay (Moment jan31))).
Proof. repeat split. Qed.

(** C35. Starts at the base, never ends. *)
Theorem C35_first : forall md m inc it, build m inc = Ok it -> nth_item (iter_next md) 0 it = Some (Ok (Moment m)).
Proof. exact build_first. Qed.
Print Assumptions C35_first.
Theorem C35_never_none : forall md k it, nth_item (iter_next md) k it <> None.
Proof. exact never_none. Qed.
Print Assumptions C35_never_none.
Example C35_case : exists it, build jan31 (Days 3) = Ok it /\
  items (iter_next Checked) 3 it = [Some (Ok (Moment jan31)); Some (Ok (Moment (mkdt 2016 2 3 10 0 0 0))); Some (Ok (Moment (mkdt 2016 2 6 10 0 0 0)))].
Proof. eexists. split; [reflexivity|]. vm_compute. reflexivity. Qed.

(** C36. The k-th item for clock increments of at most 30 days, and the errors at the end of
    the representable range. *)
Theorem C36_kth : forall md m u n it k, build m (mk u n) = Ok it ->
  dt_valid m = true -> clock_unit u = true -> 0 <= n -> n * unit_secs u <= 30 * 86400 ->
  (1 <= k)%nat -> inst m + Z.of_nat k * n * unit_secs u < instant (max_year + 1) 1 1 0 0 0 ->
  exists m', nth_item (iter_next md) k it = Some (Ok (Moment m')) /\
    dt_valid m' = true /\ nano m' = 0 /\ inst m' = inst m + Z.of_nat k * n * unit_secs u.
Proof. exact b_clock. Qed.
Print Assumptions C36_kth.
Theorem C36_end_of_range : forall md m u n it k, build m (mk u n) = Ok it ->
  dt_valid m = true -> clock_unit u = true -> 0 <= n -> n * unit_secs u <= 30 * 86400 ->
  instant (max_year + 1) 1 1 0 0 0 <= inst m + Z.of_nat k * n * unit_secs u ->
  exists y mo d h mi s, forall j, (k <= j)%nat -> nth_item (iter_next md) j it = Some (Err (OutOfBounds y mo d h mi s)).
Proof. exact b_clock_beyond. Qed.
Print Assumptions C36_end_of_range.
Example C36_case : 720 * unit_secs UHour <= 30 * 86400 /\
  nth_item (iter_next Checked) 13 (mkiter (Moment jan31) (Hours 720) false) = Some (Ok (Moment (mkdt 2017 2 24 10 0 0 0))) /\
  inst (mkdt 2017 2 24 10 0 0 0) = inst jan31 + 13 * 720 * 3600 /\
  nth_item (iter_next Checked) 3 (mkiter (Moment (mkdt 262143 12 31 0 0 0 0)) (Hours 20) false) = Some (Err (OutOfBounds 262144 1 16 16 0 0)).
Proof. vm_compute. repeat split. discriminate. Qed.

(** C37. Monthly iteration from days 1-28 and yearly iteration off 29 February. *)
Theorem C37_monthly : forall md m n it k, build m (Months n) = Ok it -> dt_valid m = true -> day m <= 28 -> 0 <= n ->
  let i := year m * 12 + month m - 1 + Z.of_nat k * n in
  (1 <= k)%nat -> i / 12 <= max_year ->
  nth_item (iter_next md) k it = Some (Ok (Moment (in_month i (day m) m))).
Proof. exact b_months. Qed.
Print Assumptions C37_monthly.
Theorem C37_yearly : forall md m n it k, build m (Years n) = Ok it -> dt_valid m = true -> ~ (month m = 2 /\ day m = 29) ->
  (1 <= k)%nat -> min_year <= year m + Z.of_nat k * n <= max_year ->
  nth_item (iter_next md) k it =
  Some (Ok (Moment (mkdt (year m + Z.of_nat k * n) (month m) (day m) (hour m) (minute m) (second m) 0))).
Proof. exact b_years. Qed.
Print Assumptions C37_yearly.
Example C37_case :
  nth_item (iter_next Checked) 5 (mkiter (Moment (mkdt 2016 2 28 1 2 3 4)) (Months 7) false) = Some (Ok (Moment (mkdt 2019 1 28 1 2 3 0))) /\
  in_month (2016 * 12 + 2 - 1 + 5 * 7) 28 (mkdt 2016 2 28 1 2 3 4) = mkdt 2019 1 28 1 2 3 0 /\
  nth_item (iter_next Checked) 5 (mkiter (Moment (mkdt 2016 1 31 1 2 3 4)) (Years (-7)) false) = Some (Ok (Moment (mkdt 1981 1 31 1 2 3 0))).
Proof. vm_compute. repeat split. Qed.

(** C38. Keeping the day of month: false from days 29-31.  The three partial theorems describe steps of
    any number of months from any day: the day is kept as long as it exists in every month aimed at (after the
    end of a year: also is at most 30); the first month that is too short is left out and the day becomes 1, 2 or
    3 for good; a day that is at most 30 but missing in a month after the end of a year is an error for good.
    [C38_leap_day_partial] is the yearly case.  Missing (false there): exactly those later items. *)
Theorem C38_keep_partial : forall md m n it k, build m (Months n) = Ok it -> dt_valid m = true -> 0 <= n ->
  let i k := year m * 12 + month m - 1 + Z.of_nat k * n in
  (1 <= k)%nat -> i k / 12 <= max_year -> (forall j, (1 <= j <= k)%nat -> fits n (i j) (day m) = true) ->
  nth_item (iter_next md) k it = Some (Ok (Moment (in_month (i k) (day m) m))).
Proof. exact b_months_keep. Qed.
Print Assumptions C38_keep_partial.
Theorem C38_drift_partial : forall md m n it j k, build m (Months n) = Ok it -> dt_valid m = true -> 0 <= n ->
  let i k := year m * 12 + month m - 1 + Z.of_nat k * n in
  (1 <= j <= k)%nat -> (i k + 1) / 12 <= max_year -> (forall j', (1 <= j' < j)%nat -> fits n (i j') (day m) = true) ->
  seen_length n (i j) < day m ->
  let d := day m - seen_length n (i j) in
  1 <= d <= 3 /\ nth_item (iter_next md) k it = Some (Ok (Moment (in_month (i k + 1) d m))).
Proof. exact b_months_spill. Qed.
Print Assumptions C38_drift_partial.
Theorem C38_fails_partial : forall md m n it j, build m (Months n) = Ok it -> dt_valid m = true -> 0 <= n -> in_i64 n = true ->
  let i k := year m * 12 + month m - 1 + Z.of_nat k * n in
  (1 <= j)%nat -> i j / 12 <= max_year -> (forall j', (1 <= j' < j)%nat -> fits n (i j') (day m) = true) ->
  day m <= seen_length n (i j) -> month_length (i j / 12) (i j mod 12 + 1) < day m ->
  exists y mo d h mi s, forall k, (j <= k)%nat -> nth_item (iter_next md) k it = Some (Err (OutOfBounds y mo d h mi s)).
Proof. exact b_months_fail. Qed.
Print Assumptions C38_fails_partial.
Theorem C38_leap_day_partial : forall md m n it j k, build m (Years n) = Ok it -> dt_valid m = true -> month m = 2 -> day m = 29 ->
  (1 <= j)%nat -> (1 <= k)%nat -> min_year <= year m + Z.of_nat k * n <= max_year ->
  (forall j', (1 <= j' < j)%nat -> leap (year m + Z.of_nat j' * n) = true) -> leap (year m + Z.of_nat j * n) = false ->
  nth_item (iter_next md) k it = Some (Ok (Moment
    (if (k <? j)%nat then mkdt (year m + Z.of_nat k * n) 2 29 (hour m) (minute m) (second m) 0
     else mkdt (year m + Z.of_nat k * n) 3 1 (hour m) (minute m) (second m) 0))).
Proof. exact b_years_leap_day. Qed.
Print Assumptions C38_leap_day_partial.
Theorem C38_day_kept_refuted : exists it, build jan31 (Months 1) = Ok it /\ dt_valid jan31 = true /\
  items (iter_next Checked) 4 it =
  [Some (Ok (Moment (mkdt 2016 1 31 10 0 0 0))); Some (Ok (Moment (mkdt 2016 3 2 10 0 0 0)));
   Some (Ok (Moment (mkdt 2016 4 2 10 0 0 0))); Some (Ok (Moment (mkdt 2016 5 2 10 0 0 0)))].
Proof. eexists. split; [reflexivity|]. split; [reflexivity|]. vm_compute. reflexivity. Qed.
Print Assumptions C38_day_kept_refuted.
(** Every 2 months from 30 November: 30 January, 30 March; every month: 30 January, 2 March; every 3 months from
    31 August: 1 December; 31 December + 1 month: 1 February; every 2 months from 30 December: error. *)
Example C38_case :
  let i k := 2016 * 12 + 11 - 1 + Z.of_nat k * 2 in
  fits 2 (i 1%nat) 30 = true /\ fits 2 (i 2%nat) 30 = true /\
  nth_item (iter_next Checked) 2 (mkiter (Moment (mkdt 2016 11 30 1 2 3 4)) (Months 2) false) = Some (Ok (Moment (mkdt 2017 3 30 1 2 3 0))) /\
  nth_item (iter_next Checked) 2 (mkiter (Moment (mkdt 2016 11 30 1 2 3 4)) (Months 1) false) = Some (Ok (Moment (mkdt 2017 1 30 1 2 3 0))) /\
  nth_item (iter_next Checked) 3 (mkiter (Moment (mkdt 2016 11 30 1 2 3 4)) (Months 1) false) = Some (Ok (Moment (mkdt 2017 3 2 1 2 3 0))) /\
  fits 1 (2016 * 12 + 11 - 1 + 3) 30 = false /\ seen_length 1 (2016 * 12 + 11 - 1 + 3) = 28 /\
  seen_length 3 (2016 * 12 + 8 - 1 + 3) = 30 /\
  nth_item (iter_next Checked) 2 (mkiter (Moment (mkdt 2016 8 31 1 2 3 4)) (Months 3) false) = Some (Ok (Moment (mkdt 2017 3 1 1 2 3 0))) /\
  seen_length 1 (2016 * 12 + 12) = 30 /\
  nth_item (iter_next Checked) 1 (mkiter (Moment (mkdt 2016 12 31 1 2 3 4)) (Months 1) false) = Some (Ok (Moment (mkdt 2017 2 1 1 2 3 0))) /\
  month_length 2017 2 < 30 <= seen_length 2 (2016 * 12 + 12 - 1 + 2) /\
  nth_item (iter_next Checked) 1 (mkiter (Moment (mkdt 2016 12 30 1 2 3 4)) (Months 2) false) = Some (Err (OutOfBounds 2017 2 1 1 2 3)).
Proof. vm_compute. repeat split; discriminate. Qed.
Example C38_leap_day_case :
  leap (2016 + 4) = true /\ leap (2092 + 8) = false /\
  nth_item (iter_next Checked) 1 (mkiter (Moment (mkdt 2016 2 29 1 2 3 4)) (Years 4) false) = Some (Ok (Moment (mkdt 2020 2 29 1 2 3 0))) /\
  nth_item (iter_next Checked) 3 (mkiter (Moment (mkdt 2092 2 29 1 2 3 4)) (Years 4) false) = Some (Ok (Moment (mkdt 2104 3 1 1 2 3 0))).
Proof. vm_compute. repeat split. Qed.

(** C39. Errors are sticky, for next() and for any mix of next(), skip() and rollback(). *)
Theorem C39_sticky : forall md it k e, iter_ok it -> nth_item (iter_next md) k it = Some (Err e) ->
  forall j, (k <= j)%nat -> nth_item (iter_next md) j it = Some (Err e).
Proof. exact b_sticky. Qed.
Print Assumptions C39_sticky.
Theorem C39_sticky_all : forall md it e it' os o, iter_ok it -> iter_next md it = (Some (Err e), it') ->
  fst (perform md o (performs md os it')) = Some e.
Proof. exact sticky_all. Qed.
Print Assumptions C39_sticky_all.
Example C39_case : let it := mkiter (Moment (mkdt 2016 12 30 0 0 0 0)) (Months 2) true in
  iter_ok it /\ fst (iter_next Checked it) = Some (Err (OutOfBounds 2017 2 0 0 0 0)) /\
  fst (perform Checked Rollback (performs Checked [Skip; Rollback; Next] (snd (iter_next Checked it)))) = Some (OutOfBounds 2017 2 0 0 0 0).
Proof. vm_compute. repeat split. Qed.

(** C40. skip() advances like next(); rollback() undoes next() where subtraction undoes
    addition.  Missing (false): rollback outside that fragment, and a skip() that fails
    before the first next(), after which next() yields an unevaluated expression. *)
Theorem C40_skip_partial : forall md it it', skip md it = (Ok tt, it') ->
  forall k, nth_item (iter_next md) k it' = nth_item (iter_next md) (S k) it.
Proof. exact skip_next. Qed.
Print Assumptions C40_skip_partial.
Theorem C40_skip_fails_partial : forall md it e it', had_first it = true -> skip md it = (Err e, it') ->
  fst (iter_next md it) = Some (Err e) /\ snd (iter_next md it) = it'.
Proof. exact skip_fails_later. Qed.
Print Assumptions C40_skip_fails_partial.
Example C40_skip_fails_case : let it := mkiter (Moment (mkdt 2016 12 30 0 0 0 0)) (Months 2) true in
  fst (skip Checked it) = Err (OutOfBounds 2017 2 0 0 0 0) /\ fst (iter_next Checked it) = Some (Err (OutOfBounds 2017 2 0 0 0 0)).
Proof. vm_compute. repeat split. Qed.
Theorem C40_rollback_partial : forall md m u n v it', dt_valid m = true -> undoable u n m ->
  iter_next md (at_moment u n m true) = (Some (Ok v), it') ->
  exists it'', rollback md it' = (Ok tt, it'') /\ it'' = at_moment u n (whole_second m) true /\
    fst (iter_next md it'') = Some (Ok v).
Proof. exact rollback_next. Qed.
Print Assumptions C40_rollback_partial.
Theorem C40_skip_refuted : let it := mkiter (Moment (mkdt 2016 12 30 0 0 0 0)) (Months 2) false in
  exists it', skip Checked it = (Err (OutOfBounds 2017 2 0 0 0 0), it') /\
  fst (iter_next Checked it') = Some (Ok (Addition (Moment (mkdt 2016 12 30 0 0 0 0)) (Months 2))).
Proof. intros it. exists (snd (skip Checked it)). vm_compute. repeat split. Qed.
Print Assumptions C40_skip_refuted.
Theorem C40_rollback_refuted : let it := mkiter (Moment jan31) (Months 1) true in
  exists it1 it2, iter_next Checked it = (Some (Ok (Moment (mkdt 2016 3 2 10 0 0 0))), it1) /\
  rollback Checked it1 = (Ok tt, it2) /\
  fst (iter_next Checked it2) = Some (Ok (Moment (mkdt 2016 3 2 10 0 0 0))) /\ base it2 <> Moment jan31.
Proof. intros it. exists (snd (iter_next Checked it)), (snd (rollback Checked (snd (iter_next Checked it)))). vm_compute. repeat split. discriminate. Qed.
Print Assumptions C40_rollback_refuted.
Example C40_case : undoable UDay 20 jan31 /\
  iter_next Checked (at_moment UDay 20 jan31 true) = (Some (Ok (Moment (mkdt 2016 2 20 10 0 0 0))), at_moment UDay 20 (mkdt 2016 2 20 10 0 0 0) true) /\
  rollback Checked (at_moment UDay 20 (mkdt 2016 2 20 10 0 0 0) true) = (Ok tt, at_moment UDay 20 jan31 true) /\
  skip Checked (at_moment UDay 20 jan31 false) = (Ok tt, at_moment UDay 20 (mkdt 2016 2 20 10 0 0 0) false).
Proof. split; [|vm_compute; repeat split]. cbn [undoable]. split; [lia|]. split; [vm_compute; reflexivity|left; reflexivity]. Qed.
