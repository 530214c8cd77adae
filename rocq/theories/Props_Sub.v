(** Properties C19-C24 and C26: moment - amount, round trips, error payloads. *)
Require Import ZArith Bool List Lia ZifyBool.
From Verif Require Import Prelude Spec Chrono TimeType SpecTree SpecMoment PreludeProofs CalendarProofs EvalProofs AmountProofs AddProofs AddProofs2 SubProofs SubProofs2 EndProofs ErrProofs.
Local Open Scope Z_scope.
Ltac Zify.zify_post_hook ::= Z.div_mod_to_equations.

Definition noon : datetime := mkdt 2016 3 1 12 30 10 0.

(** C19. Subtracting seconds, minutes or hours: the complete behaviour.  [back_day] counts
    days before the first of the month as if the previous month had 31 days. *)
Theorem C19_sub_clock_complete : forall md m u n, dt_valid m = true -> clock_unit u = true -> u <> UDay -> 0 <= n < 2147483648 ->
  let x := field u m - n in
  let T := sod m - n * unit_secs u in
  let res := calculate md (Subtraction (Moment m) (mk u n)) in
  (- modulus u < x -> res = built3 (back_day (year m) (month m) (day m + T / 86400)) (T mod 86400)) /\
  (x = - modulus u -> let T' := T - modulus u * unit_secs u in
     res = built3 (back_day (year m) (month m) (day m + T' / 86400)) (T' mod 86400)) /\
  (x < - modulus u -> oob res).
Proof. exact sub_clock. Qed.
Print Assumptions C19_sub_clock_complete.
Example C19_case :
  calculate Checked (Subtraction (Moment noon) (Seconds 20)) = Ok (Moment (mkdt 2016 3 1 12 29 50 0)) /\
  calculate Checked (Subtraction (Moment noon) (Seconds 70)) = Ok (Moment (mkdt 2016 3 1 12 28 0 0)) /\
  calculate Checked (Subtraction (Moment noon) (Seconds 71)) = Err (OutOfBounds 2016 3 12 12 28 4294967295) /\
  calculate Checked (Subtraction (Moment noon) (Hours 13)) = Err (OutOfBounds 2016 2 23 23 30 10) /\
  calculate Checked (Subtraction (Moment (mkdt 2016 1 1 0 0 5 0)) (Seconds 6)) = Ok (Moment (mkdt 2015 12 31 23 59 59 0)).
Proof. vm_compute. repeat split. Qed.

(** C20. Subtracting days: the complete behaviour, and by how much it is off when it crosses
    into a shorter month. *)
Theorem C20_sub_days_complete : forall md m n, dt_valid m = true -> 0 <= n < 2147483648 ->
  let D := day m - n in
  let res := calculate md (Subtraction (Moment m) (Days n)) in
  (-30 <= D -> res = built3 (back_day (year m) (month m) D) (sod m)) /\
  (D < -30 -> oob res).
Proof. exact sub_days. Qed.
Print Assumptions C20_sub_days_complete.
Theorem C20_sub_days_deviation : forall md m n m', dt_valid m = true -> 0 <= n < 2147483648 ->
  calculate md (Subtraction (Moment m) (Days n)) = Ok (Moment m') ->
  inst m' = inst m - n * 86400 +
    (if 1 <=? day m - n then 0
     else 31 - (let '(py, pm) := prev_month (year m) (month m) in month_length py pm)) * 86400.
Proof. exact sub_days_deviation. Qed.
Print Assumptions C20_sub_days_deviation.
Example C20_case :
  calculate Checked (Subtraction (Moment (mkdt 2016 1 10 1 2 3 4)) (Days 10)) = Ok (Moment (mkdt 2015 12 31 1 2 3 0)) /\
  calculate Checked (Subtraction (Moment (mkdt 2016 3 10 1 2 3 4)) (Days 12)) = Ok (Moment (mkdt 2016 2 29 1 2 3 0)) /\
  calculate Checked (Subtraction (Moment (mkdt 2016 3 10 1 2 3 4)) (Days 10)) = Err (OutOfBounds 2016 2 1 1 2 3) /\
  calculate Checked (Subtraction (Moment (mkdt 2016 3 10 1 2 3 4)) (Days 41)) = Err (OutOfBounds 2016 2 1 1 2 3).
Proof. vm_compute. repeat split. Qed.

(** C21. Subtracting months and years: the complete behaviour. *)
Theorem C21_sub_months_complete : forall md m n, dt_valid m = true -> 0 <= n < 2147483648 ->
  let M := month m - n in
  let res := calculate md (Subtraction (Moment m) (Months n)) in
  (1 <= M -> res = built (year m) M (day m) (sod m)) /\
  (-11 <= M <= 0 -> res = built (year m - 1) (M + 12) (day m) (sod m)) /\
  (M < -11 -> oob res).
Proof. exact sub_months. Qed.
Print Assumptions C21_sub_months_complete.
Theorem C21_sub_years_complete : forall md m n, dt_valid m = true -> in_i64 n = true -> i64_min <= year m - n <= i64_max ->
  calculate md (Subtraction (Moment m) (Years n)) = built (wrap32 (year m - n)) (month m) (day m) (sod m).
Proof. exact sub_years. Qed.
Print Assumptions C21_sub_years_complete.
Example C21_case :
  calculate Checked (Subtraction (Moment noon) (Months 2)) = Ok (Moment (mkdt 2016 1 1 12 30 10 0)) /\
  calculate Checked (Subtraction (Moment noon) (Months 14)) = Ok (Moment (mkdt 2015 1 1 12 30 10 0)) /\
  oob (calculate Checked (Subtraction (Moment noon) (Months 15))) /\
  calculate Checked (Subtraction (Moment (mkdt 2016 3 31 0 0 0 0)) (Months 1)) = Err (OutOfBounds 2016 2 0 0 0 0) /\
  calculate Checked (Subtraction (Moment (mkdt 2016 2 29 7 0 0 0)) (Years 4)) = Ok (Moment (mkdt 2012 2 29 7 0 0 0)) /\
  calculate Checked (Subtraction (Moment (mkdt 2016 2 29 7 0 0 0)) (Years 1)) = Err (OutOfBounds 2015 2 7 7 0 0).
Proof. vm_compute. repeat split. repeat eexists. Qed.

(** C22. Exactness of subtraction: false; the partial theorem says by how much a successful
    subtraction is off, so it is exact when no month shorter than 31 days is entered.
    Missing (false there): clock fields hitting exactly minus one full cycle, and crossing
    into a month shorter than 31 days. *)
Theorem C22_sub_exact_partial : forall md m u n m', dt_valid m = true -> clock_unit u = true -> 0 <= n < 2147483648 ->
  (u <> UDay -> field u m - n <> - modulus u) ->
  calculate md (Subtraction (Moment m) (mk u n)) = Ok (Moment m') ->
  inst m' = inst m - n * unit_secs u +
    (if 1 <=? day m + (sod m - n * unit_secs u) / 86400 then 0
     else 31 - (let '(py, pm) := prev_month (year m) (month m) in month_length py pm)) * 86400.
Proof. exact sub_error. Qed.
Print Assumptions C22_sub_exact_partial.
Theorem C22_sub_exact_refuted :
  let bad u n m := dt_valid m = true /\ exists m',
    calculate Checked (Subtraction (Moment m) (mk u n)) = Ok (Moment m') /\ inst m' <> inst m - n * unit_secs u in
  bad USec 60 (mkdt 2016 5 5 0 5 0 0) /\ bad UMin 60 (mkdt 2016 5 5 5 0 0 0) /\ bad UHour 24 (mkdt 2016 5 5 0 0 0 0) /\
  bad UDay 5 (mkdt 2016 3 3 0 0 0 0).
Proof.
  cbv zeta. split; [|split; [|split]]; (split; [vm_compute; reflexivity|]).
  - exists (mkdt 2016 5 5 0 3 0 0). split; [vm_compute; reflexivity|vm_compute; discriminate].
  - exists (mkdt 2016 5 5 3 0 0 0). split; [vm_compute; reflexivity|vm_compute; discriminate].
  - exists (mkdt 2016 5 3 0 0 0 0). split; [vm_compute; reflexivity|vm_compute; discriminate].
  - exists (mkdt 2016 2 29 0 0 0 0). split; [vm_compute; reflexivity|vm_compute; discriminate].
Qed.
Print Assumptions C22_sub_exact_refuted.
Example C22_case :
  calculate Checked (Subtraction (Moment (mkdt 2016 8 3 4 0 0 0)) (mk UHour 5)) = Ok (Moment (mkdt 2016 8 2 23 0 0 0)) /\
  field UHour (mkdt 2016 8 3 4 0 0 0) - 5 <> - modulus UHour /\
  calculate Checked (Subtraction (Moment (mkdt 2016 8 3 4 0 0 0)) (mk UDay 20)) = Ok (Moment (mkdt 2016 7 14 4 0 0 0)).
Proof. vm_compute. repeat split. discriminate. Qed.

(** C23. Subtracting a negative amount is exact or an error. *)
Theorem C23_sub_negative : forall md m u n, dt_valid m = true -> clock_unit u = true -> -2147483648 <= n < 0 ->
  let r := calculate md (Subtraction (Moment m) (mk u n)) in
  oob r \/ exists m', r = Ok (Moment m') /\ dt_valid m' = true /\ nano m' = 0 /\ inst m' = inst m - n * unit_secs u.
Proof. exact sub_negative. Qed.
Print Assumptions C23_sub_negative.
Example C23_case :
  calculate Checked (Subtraction (Moment noon) (Seconds (-49))) = Ok (Moment (mkdt 2016 3 1 12 30 59 0)) /\
  oob (calculate Checked (Subtraction (Moment noon) (Seconds (-50)))) /\
  calculate Checked (Subtraction (Moment noon) (Days (-30))) = Ok (Moment (mkdt 2016 3 31 12 30 10 0)).
Proof. vm_compute. repeat split. repeat eexists. Qed.

(** C24. Subtracting undoes adding: false; the partial theorems give a fragment for each unit.
    Missing (false there): clock amounts of a full cycle or more, or that leave a month
    shorter than 31 days; months from days 29-31 or across two year ends; years from
    29 February to a common year. *)
Theorem C24_round_clock_partial : forall md m u n, dt_valid m = true -> clock_unit u = true -> 0 <= n ->
  n <= (match u with UDay => 28 | _ => modulus u - 1 end) ->
  inst m + n * unit_secs u < instant (max_year + 1) 1 1 0 0 0 ->
  month_length (year m) (month m) = 31 \/
  inst m + n * unit_secs u < (day_number (year m) (month m) (month_length (year m) (month m)) + 1) * 86400 ->
  calculate md (Subtraction (Addition (Moment m) (mk u n)) (mk u n)) = Ok (Moment (whole_second m)).
Proof. exact round_clock. Qed.
Print Assumptions C24_round_clock_partial.
Theorem C24_round_months_partial : forall md m n, dt_valid m = true -> day m <= 28 -> 0 <= n -> month m + n <= 24 ->
  year m * 12 + month m + n <= max_year * 12 + 12 ->
  calculate md (Subtraction (Addition (Moment m) (Months n)) (Months n)) = Ok (Moment (whole_second m)).
Proof. exact round_months. Qed.
Print Assumptions C24_round_months_partial.
Theorem C24_round_years_partial : forall md m n, dt_valid m = true -> min_year <= year m + n <= max_year ->
  ~ (month m = 2 /\ day m = 29 /\ leap (year m + n) = false) ->
  calculate md (Subtraction (Addition (Moment m) (Years n)) (Years n)) = Ok (Moment (whole_second m)).
Proof. exact round_years. Qed.
Print Assumptions C24_round_years_partial.
Theorem C24_round_refuted :
  let undone u n m := calculate Checked (Subtraction (Addition (Moment m) (mk u n)) (mk u n)) = Ok (Moment m) in
  dt_valid (mkdt 2016 1 31 0 0 0 0) = true /\
  ~ undone UMonth 1 (mkdt 2016 1 31 0 0 0 0) /\ ~ undone USec 60 (mkdt 2016 1 31 0 0 0 0) /\
  ~ undone UDay 30 (mkdt 2016 1 31 0 0 0 0) /\ ~ undone UYear 1 (mkdt 2016 2 29 0 0 0 0).
Proof. vm_compute. repeat split; discriminate. Qed.
Print Assumptions C24_round_refuted.
Example C24_case :
  calculate Checked (Addition (Moment (mkdt 2016 1 31 20 0 0 9)) (mk UHour 23)) = Ok (Moment (mkdt 2016 2 1 19 0 0 0)) /\
  calculate Checked (Subtraction (Addition (Moment (mkdt 2016 1 31 20 0 0 9)) (mk UHour 23)) (mk UHour 23))
    = Ok (Moment (mkdt 2016 1 31 20 0 0 0)) /\
  calculate Checked (Subtraction (Addition (Moment (mkdt 2016 2 28 20 0 0 9)) (Months 22)) (Months 22))
    = Ok (Moment (mkdt 2016 2 28 20 0 0 0)) /\
  calculate Checked (Subtraction (Addition (Moment (mkdt 2016 2 29 20 0 0 9)) (Years (-404))) (Years (-404)))
    = Ok (Moment (mkdt 2016 2 29 20 0 0 0)).
Proof. vm_compute. repeat split. Qed.

(** C26. What OutOfBounds reports: the day component always holds the hour, so the statement is
    false; the partial theorems show that year, month and time of day are those of the date
    that could not be built.  Missing: the day (false), and amounts so negative or so large
    that not even the time of day is in range. *)
Theorem C26_day_is_hour_partial : forall md t y mo d h mi s, tt_ok t = true ->
  calculate md t = Err (OutOfBounds y mo d h mi s) -> d = h.
Proof. exact oob_day_is_hour. Qed.
Print Assumptions C26_day_is_hour_partial.
Theorem C26_add_clock_reports_partial : forall md m u n, dt_valid m = true -> clock_unit u = true -> 0 <= n ->
  field u m + n <= i64_max ->
  forall y mo d h mi s, calculate md (Addition (Moment m) (mk u n)) = Err (OutOfBounds y mo d h mi s) ->
  let T := sod m + n * unit_secs u in
  let e := days_before (year m) (month m) + day m + T / 86400 - year_length (year m) - 1 in
  0 <= e /\ y = wrap32 (year m + 1 + e / 360) /\ mo = e mod 360 / 30 + 1 /\
  representable y mo (e mod 30 + 1) = false /\
  h * 3600 + mi * 60 + s = T mod 86400 /\ 0 <= mi < 60 /\ 0 <= s < 60.
Proof. exact add_clock_reports. Qed.
Print Assumptions C26_add_clock_reports_partial.
Theorem C26_add_months_reports_partial : forall md m n, dt_valid m = true -> 0 <= n -> month m + n < i64_max ->
  let '(Y, Mo, D) := plus_months (year m) (month m) (day m) n in
  reports (calculate md (Addition (Moment m) (Months n))) (wrap32 Y) Mo D (sod m).
Proof. exact add_months_reports. Qed.
Print Assumptions C26_add_months_reports_partial.
Theorem C26_add_years_reports_partial : forall md m n, dt_valid m = true -> i64_min <= year m + n <= i64_max -> in_i64 n = true ->
  let '(Y, Mo, D) := in_year (wrap32 (year m + n)) (month m) (day m) in
  reports (calculate md (Addition (Moment m) (Years n))) Y Mo D (sod m).
Proof. exact add_years_reports. Qed.
Print Assumptions C26_add_years_reports_partial.
Theorem C26_sub_days_reports_partial : forall md m n, dt_valid m = true -> 0 <= n < 2147483648 -> -30 <= day m - n ->
  let '(Y, Mo, D) := back_day (year m) (month m) (day m - n) in
  reports (calculate md (Subtraction (Moment m) (Days n))) Y Mo D (sod m).
Proof. exact sub_days_reports. Qed.
Print Assumptions C26_sub_days_reports_partial.
Theorem C26_sub_months_reports_partial : forall md m n, dt_valid m = true -> 0 <= n < 2147483648 -> -11 <= month m - n ->
  let i := year m * 12 + month m - n - 1 in
  reports (calculate md (Subtraction (Moment m) (Months n))) (i / 12) (i mod 12 + 1) (day m) (sod m).
Proof. exact sub_months_reports. Qed.
Print Assumptions C26_sub_months_reports_partial.
Theorem C26_sub_years_reports_partial : forall md m n, dt_valid m = true -> in_i64 n = true -> i64_min <= year m - n <= i64_max ->
  reports (calculate md (Subtraction (Moment m) (Years n))) (wrap32 (year m - n)) (month m) (day m) (sod m).
Proof. exact sub_years_reports. Qed.
Print Assumptions C26_sub_years_reports_partial.
(** 31 March minus one month attempts 31 February 05:06:07 but reports day 5. *)
Theorem C26_reports_refuted :
  let m := mkdt 2016 3 31 5 6 7 0 in
  dt_valid m = true /\ representable 2016 2 31 = false /\
  calculate Checked (Subtraction (Moment m) (Months 1)) = Err (OutOfBounds 2016 2 5 5 6 7).
Proof. vm_compute. repeat split. Qed.
Print Assumptions C26_reports_refuted.
Example C26_case :
  calculate Checked (Addition (Moment (mkdt 2016 12 31 5 6 7 0)) (mk UDay 57)) = Ok (Moment (mkdt 2017 2 27 5 6 7 0)) /\
  calculate Checked (Addition (Moment (mkdt 2016 12 31 5 6 7 0)) (mk UDay 60)) = Err (OutOfBounds 2017 2 5 5 6 7) /\
  calculate Checked (Addition (Moment (mkdt 2016 12 30 5 6 7 0)) (Months 2)) = Err (OutOfBounds 2017 2 5 5 6 7) /\
  calculate Checked (Addition (Moment (mkdt 2016 12 30 5 6 7 0)) (Years 300000)) = Err (OutOfBounds 302016 12 5 5 6 7) /\
  calculate Checked (Subtraction (Moment (mkdt 2016 3 1 5 6 7 0)) (Days 1)) = Err (OutOfBounds 2016 2 5 5 6 7) /\
  calculate Checked (Subtraction (Moment (mkdt 2016 2 29 5 6 7 0)) (Years 1)) = Err (OutOfBounds 2015 2 5 5 6 7).
Proof. vm_compute. repeat split. Qed.
