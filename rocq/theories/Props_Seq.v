(** Properties C61-C65: collected iterators, successive additions, zero amounts, negative amounts. *)
Require Import ZArith Bool List.
From Verif Require Import Prelude Spec Chrono TimeType Iter SpecTree SpecMoment SpecIter SpecAdapt SpecSeq SeqProofs SeqProofs2 NegProofs.
Import ListNotations.
Local Open Scope Z_scope.

(** 17 November 2020, 12:30:45 *)
Definition nov17 : datetime := mkdt 2020 11 17 12 30 45 0.

(** ** C61: how many items until() and times() yield *)
Theorem C61_until : forall md m u n it ending, build m (mk u n) = Ok it -> dt_valid m = true -> clock_unit u = true -> 0 < n ->
  n * unit_secs u <= 30 * 86400 -> dt_valid ending = true -> before m ending ->
  let N := steps_before m ending (n * unit_secs u) in
  inst m + N * (n * unit_secs u) < instant (max_year + 1) 1 1 0 0 0 ->
  exists l, collects (until_next md (iter_next md) ending) it l /\ Z.of_nat (length l) = N /\
    nth_error l 0 = Some (Ok (Moment m)) /\
    forall k, (1 <= k < length l)%nat -> exists m', nth_error l k = Some (Ok (Moment m')) /\ dt_valid m' = true /\ nano m' = 0 /\ inst m' = inst m + Z.of_nat k * (n * unit_secs u).
Proof. exact @until_count. Qed.
Print Assumptions C61_until.
(** Month steps from a day that every month has, and year steps from any day but 29 February. *)
Theorem C61_until_months : forall md m n it ending, build m (Months n) = Ok it -> dt_valid m = true -> day m <= 28 -> 0 < n ->
  dt_valid ending = true -> before m ending ->
  let N := month_steps_before m ending n in
  (year m * 12 + month m - 1 + N * n) / 12 <= max_year ->
  exists l, collects (until_next md (iter_next md) ending) it l /\ Z.of_nat (length l) = N /\
    nth_error l 0 = Some (Ok (Moment m)) /\
    forall k, (1 <= k < length l)%nat -> nth_error l k = Some (Ok (Moment (in_month (year m * 12 + month m - 1 + Z.of_nat k * n) (day m) m))).
Proof. exact until_count_months. Qed.
Print Assumptions C61_until_months.
Theorem C61_until_years : forall md m n it ending, build m (Years n) = Ok it -> dt_valid m = true -> ~ (month m = 2 /\ day m = 29) -> 0 < n ->
  dt_valid ending = true -> before m ending ->
  let N := year_steps_before m ending n in
  year m + N * n <= max_year ->
  exists l, collects (until_next md (iter_next md) ending) it l /\ Z.of_nat (length l) = N /\
    nth_error l 0 = Some (Ok (Moment m)) /\
    forall k, (1 <= k < length l)%nat -> nth_error l k = Some (Ok (Moment (mkdt (year m + Z.of_nat k * n) (month m) (day m) (hour m) (minute m) (second m) 0))).
Proof. exact until_count_years. Qed.
Print Assumptions C61_until_years.
Theorem C61_until_empty : forall md m inc it ending, build m inc = Ok it -> dt_valid m = true -> dt_valid ending = true -> ~ before m ending ->
  collects (until_next md (iter_next md) ending) it nil.
Proof. exact @until_empty. Qed.
Print Assumptions C61_until_empty.
Theorem C61_times : forall md it n, in_i64 n = true -> 0 <= n ->
  exists l, collects (times_next md (iter_next md)) (times_new it n) l /\ Z.of_nat (length l) = n.
Proof. exact times_count. Qed.
Print Assumptions C61_times.
(** So [length l] above is the length of the collected vector. *)
Theorem C61_unique : forall S (nx : next_fn S) s l1 l2, collects nx s l1 -> collects nx s l2 -> l1 = l2.
Proof. exact @collects_unique. Qed.
Print Assumptions C61_unique.

Example C61_until_case :
  let it := mkiter (Moment nov17) (Hours 5) false in
  let e := mkdt 2020 11 18 3 30 45 1 in
  build nov17 (Hours 5) = Ok it /\ steps_before nov17 e 18000 = 4 /\ before nov17 e /\
  length (items (until_next Checked (iter_next Checked) e) 4 it) = 4%nat /\
  nth_item (until_next Checked (iter_next Checked) e) 3 it = Some (Ok (Moment (mkdt 2020 11 18 3 30 45 0))) /\
  nth_item (until_next Checked (iter_next Checked) e) 4 it = None.
Proof. split; [reflexivity|]. split; [reflexivity|]. split; [left; vm_compute; reflexivity|]. repeat split; vm_compute; reflexivity. Qed.
(** The same end without its nanosecond yields one item fewer. *)
Example C61_until_exact_end :
  let it := mkiter (Moment nov17) (Hours 5) false in
  let e := mkdt 2020 11 18 3 30 45 0 in
  steps_before nov17 e 18000 = 3 /\ nth_item (until_next Checked (iter_next Checked) e) 2 it = Some (Ok (Moment (mkdt 2020 11 17 22 30 45 0))) /\
  nth_item (until_next Checked (iter_next Checked) e) 3 it = None.
Proof. repeat split; vm_compute; reflexivity. Qed.
(** Every 5 months from 17 November 2020: 17 April 2021, 17 September 2021, 17 February 2022 12:30:45 (excluded or not). *)
Example C61_until_months_case :
  let it := mkiter (Moment nov17) (Months 5) false in
  month_steps_before nov17 (mkdt 2022 2 17 12 30 45 0) 5 = 3 /\ month_steps_before nov17 (mkdt 2022 2 17 12 30 46 0) 5 = 4 /\
  nth_item (until_next Checked (iter_next Checked) (mkdt 2022 2 17 12 30 45 0)) 2 it = Some (Ok (Moment (mkdt 2021 9 17 12 30 45 0))) /\
  nth_item (until_next Checked (iter_next Checked) (mkdt 2022 2 17 12 30 45 0)) 3 it = None /\
  nth_item (until_next Checked (iter_next Checked) (mkdt 2022 2 17 12 30 46 0)) 3 it = Some (Ok (Moment (mkdt 2022 2 17 12 30 45 0))).
Proof. repeat split; vm_compute; reflexivity. Qed.
Example C61_until_years_case :
  let it := mkiter (Moment nov17) (Years 100) false in
  year_steps_before nov17 (mkdt 2320 11 17 12 30 45 0) 100 = 3 /\ year_steps_before nov17 (mkdt 2320 11 18 0 0 0 0) 100 = 4 /\
  nth_item (until_next Checked (iter_next Checked) (mkdt 2320 11 17 12 30 45 0)) 3 it = None /\
  nth_item (until_next Checked (iter_next Checked) (mkdt 2320 11 18 0 0 0 0)) 3 it = Some (Ok (Moment (mkdt 2320 11 17 12 30 45 0))).
Proof. repeat split; vm_compute; reflexivity. Qed.
Example C61_until_empty_case : ~ before nov17 nov17 /\ nth_item (until_next Checked (iter_next Checked) nov17) 0 (mkiter (Moment nov17) (Hours 5) false) = None.
Proof. split; [intros [H|[_ H]]; vm_compute in H; discriminate|vm_compute; reflexivity]. Qed.
Example C61_times_case :
  let s := times_new (mkiter (Moment nov17) (Months 1) false) 2 in
  items (times_next Checked (iter_next Checked)) 3 s = [Some (Ok (Moment nov17)); Some (Ok (Moment (mkdt 2020 12 17 12 30 45 0))); None].
Proof. vm_compute. reflexivity. Qed.

(** ** C62: adding twice *)
(** Full statement, refuted below: m + a + b evaluates like m + (a + b) for all amounts a, b. *)
Theorem C62_clock_partial : forall md m t1 t2, dt_valid m = true -> tt_ok t1 = true -> tt_ok t2 = true -> amount_only t1 = true -> amount_only t2 = true ->
  abs_secs t1 + abs_secs t2 <= i64_max -> clock_unit (finest t1) = true -> clock_unit (finest t2) = true -> 0 <= secs t1 -> 0 <= secs t2 ->
  inst m + secs t1 + secs t2 < instant (year m + 1) 1 31 0 0 0 ->
  inst m + secs t1 + secs t2 < instant (max_year + 1) 1 1 0 0 0 ->
  exists m', calculate md (Addition (Addition (Moment m) t1) t2) = Ok (Moment m') /\ dt_valid m' = true /\ nano m' = 0 /\
    inst m' = inst m + secs t1 + secs t2 /\ calculate md (Addition (Moment m) (Addition t1 t2)) = Ok (Moment m').
Proof. exact seq_clock. Qed.
Print Assumptions C62_clock_partial.
Theorem C62_months_partial : forall md m a b, dt_valid m = true -> day m <= 28 -> 0 <= a -> 0 <= b -> in_i64 b = true ->
  year m * 12 + month m + a + b <= max_year * 12 + 12 ->
  calculate md (Addition (Addition (Moment m) (Months a)) (Months b)) = calculate md (Addition (Moment m) (Months (a + b))) /\
  exists m', calculate md (Addition (Moment m) (Months (a + b))) = Ok (Moment m').
Proof. exact seq_months. Qed.
Print Assumptions C62_months_partial.
Theorem C62_years_partial : forall md m a b, dt_valid m = true -> ~ (month m = 2 /\ day m = 29) ->
  min_year <= year m + a <= max_year -> min_year <= year m + a + b <= max_year ->
  calculate md (Addition (Addition (Moment m) (Years a)) (Years b)) = calculate md (Addition (Moment m) (Years (a + b))) /\
  exists m', calculate md (Addition (Moment m) (Years (a + b))) = Ok (Moment m').
Proof. exact seq_years. Qed.
Print Assumptions C62_years_partial.
(** 31 January 2021 + 1 month + 1 month is 3 April, + (1 month + 1 month) is 31 March; 29 February 2020 + 1 year
    + 3 years is 1 March 2024, + (1 year + 3 years) is 29 February 2024; 17 January 2020 + 360 days + 360 days is
    6 January 2022, + (360 days + 360 days) is 11 January 2022. *)
Theorem C62_sequence_refuted :
  calculate Checked (Addition (Addition (Moment (mkdt 2021 1 31 0 0 0 0)) (Months 1)) (Months 1)) = Ok (Moment (mkdt 2021 4 3 0 0 0 0)) /\
  calculate Checked (Addition (Moment (mkdt 2021 1 31 0 0 0 0)) (Addition (Months 1) (Months 1))) = Ok (Moment (mkdt 2021 3 31 0 0 0 0)) /\
  calculate Checked (Addition (Addition (Moment (mkdt 2020 2 29 0 0 0 0)) (Years 1)) (Years 3)) = Ok (Moment (mkdt 2024 3 1 0 0 0 0)) /\
  calculate Checked (Addition (Moment (mkdt 2020 2 29 0 0 0 0)) (Addition (Years 1) (Years 3))) = Ok (Moment (mkdt 2024 2 29 0 0 0 0)) /\
  calculate Checked (Addition (Addition (Moment (mkdt 2020 1 17 0 0 0 0)) (Days 360)) (Days 360)) = Ok (Moment (mkdt 2022 1 6 0 0 0 0)) /\
  calculate Checked (Addition (Moment (mkdt 2020 1 17 0 0 0 0)) (Addition (Days 360) (Days 360))) = Ok (Moment (mkdt 2022 1 11 0 0 0 0)).
Proof. repeat split; vm_compute; reflexivity. Qed.
Print Assumptions C62_sequence_refuted.
Example C62_clock_case :
  calculate Checked (Addition (Addition (Moment nov17) (Days 20)) (Addition (Hours 30) (Minutes 45))) = Ok (Moment (mkdt 2020 12 8 19 15 45 0)) /\
  calculate Checked (Addition (Moment nov17) (Addition (Days 20) (Addition (Hours 30) (Minutes 45)))) = Ok (Moment (mkdt 2020 12 8 19 15 45 0)) /\
  secs (Days 20) = 1728000 /\ secs (Addition (Hours 30) (Minutes 45)) = 110700.
Proof. repeat split; vm_compute; reflexivity. Qed.
Example C62_months_case :
  calculate Checked (Addition (Addition (Moment nov17) (Months 20)) (Months 5)) = Ok (Moment (mkdt 2022 12 17 12 30 45 0)).
Proof. vm_compute. reflexivity. Qed.
Example C62_years_case :
  calculate Checked (Addition (Addition (Moment nov17) (Years 20)) (Years (-30))) = Ok (Moment (mkdt 2010 11 17 12 30 45 0)).
Proof. vm_compute. reflexivity. Qed.

(** ** C63: a zero amount of any shape only drops the sub-second part *)
Theorem C63_zero : forall md m t, dt_valid m = true -> tt_ok t = true -> amount_only t = true -> abs_secs t <= i64_max -> secs t = 0 ->
  calculate md (Addition (Moment m) t) = Ok (Moment (whole_second m)) /\ calculate md (Subtraction (Moment m) t) = Ok (Moment (whole_second m)).
Proof. exact zero_tree. Qed.
Print Assumptions C63_zero.
Example C63_zero_case :
  let t := Subtraction (Addition (Hours 23) (Days 1)) (Minutes 2820) in
  secs t = 0 /\ calculate Checked (Addition (Moment (mkdt 2020 12 31 23 59 59 999999999)) t) = Ok (Moment (mkdt 2020 12 31 23 59 59 0)).
Proof. split; vm_compute; reflexivity. Qed.

(** ** C64: negative amounts *)
Theorem C64_add_clock : forall md m u n, dt_valid m = true -> clock_unit u = true -> -2147483648 <= n < 0 ->
  let T := sod m + n * unit_secs u in
  let D := day m + T / 86400 in
  let r := calculate md (Addition (Moment m) (mk u n)) in
  (no_borrow u m T = true -> 1 <= D -> r = Ok (Moment (at_time (year m) (month m) D (T mod 86400)))) /\
  (no_borrow u m T = false \/ D < 1 -> oob r).
Proof. exact add_negative_complete. Qed.
Print Assumptions C64_add_clock.
Theorem C64_add_months : forall md m n, dt_valid m = true -> -2147483648 <= n < 0 ->
  let M := month m + n in
  let r := calculate md (Addition (Moment m) (Months n)) in
  (1 <= M -> day m <= month_length (year m) M -> r = Ok (Moment (mkdt (year m) M (day m) (hour m) (minute m) (second m) 0))) /\
  (1 <= M -> month_length (year m) M < day m ->
     r = Ok (Moment (mkdt (year m) (M + 1) (day m - month_length (year m) M) (hour m) (minute m) (second m) 0))) /\
  (M = 0 -> day m = 31 -> r = Ok (Moment (mkdt (year m) 1 1 (hour m) (minute m) (second m) 0))) /\
  (M <= 0 -> M < 0 \/ day m <= 30 -> oob r).
Proof. exact add_months_negative. Qed.
Print Assumptions C64_add_months.
Theorem C64_sub_clock : forall md m u n, dt_valid m = true -> clock_unit u = true -> -2147483648 <= n < 0 ->
  let x := field u m - n in
  let r := calculate md (Subtraction (Moment m) (mk u n)) in
  (x < (match u with UDay => month_length (year m) (month m) + 1 | _ => modulus u end) ->
     exists m', r = Ok (Moment m') /\ dt_valid m' = true /\ nano m' = 0 /\ inst m' = inst m - n * unit_secs u) /\
  ((match u with UDay => month_length (year m) (month m) + 1 | _ => modulus u end) <= x -> oob r).
Proof. exact sub_negative_complete. Qed.
Print Assumptions C64_sub_clock.
(** Both branches of each: -45 s and -105 s reach the start of a minute, -46 s does not. *)
Example C64_add_clock_case :
  no_borrow USec nov17 (sod nov17 - 105) = true /\ no_borrow USec nov17 (sod nov17 - 46) = false /\
  calculate Checked (Addition (Moment nov17) (Seconds (-105))) = Ok (Moment (mkdt 2020 11 17 12 29 0 0)) /\
  calculate Checked (Addition (Moment nov17) (Seconds (-46))) = Err (OutOfBounds 2020 11 12 12 30 4294967295) /\
  calculate Checked (Addition (Moment nov17) (Hours (-36))) = Ok (Moment (mkdt 2020 11 16 0 30 45 0)) /\
  calculate Checked (Addition (Moment nov17) (Days (-17))) = Err (OutOfBounds 2020 11 12 12 30 45).
Proof. repeat split; vm_compute; reflexivity. Qed.
Example C64_add_months_case :
  calculate Checked (Addition (Moment nov17) (Months (-10))) = Ok (Moment (mkdt 2020 1 17 12 30 45 0)) /\
  calculate Checked (Addition (Moment (mkdt 2021 3 31 0 0 0 0)) (Months (-1))) = Ok (Moment (mkdt 2021 3 3 0 0 0 0)) /\
  calculate Checked (Addition (Moment (mkdt 2021 3 31 0 0 0 0)) (Months (-3))) = Ok (Moment (mkdt 2021 1 1 0 0 0 0)) /\
  calculate Checked (Addition (Moment nov17) (Months (-11))) = Err (OutOfBounds 2020 0 12 12 30 45).
Proof. repeat split; vm_compute; reflexivity. Qed.
Example C64_sub_clock_case :
  calculate Checked (Subtraction (Moment nov17) (Minutes (-29))) = Ok (Moment (mkdt 2020 11 17 12 59 45 0)) /\
  calculate Checked (Subtraction (Moment nov17) (Minutes (-30))) = Err (OutOfBounds 2020 11 12 12 60 45).
Proof. repeat split; vm_compute; reflexivity. Qed.

(** ** C65: subtracting n against adding -n *)
(** Full statement, refuted below: m - n evaluates like m + (-n). *)
Theorem C65_within_field_partial : forall md m u n, dt_valid m = true -> clock_unit u = true -> 0 < n ->
  n <= (match u with UDay => day m - 1 | _ => field u m end) ->
  exists m', calculate md (Subtraction (Moment m) (mk u n)) = Ok (Moment m') /\
    calculate md (Addition (Moment m) (mk u (- n))) = Ok (Moment m') /\ inst m' = inst m - n * unit_secs u.
Proof. exact sub_is_add_opposite. Qed.
Print Assumptions C65_within_field_partial.
Theorem C65_months_partial : forall md m n, dt_valid m = true -> 0 < n < month m ->
  calculate md (Subtraction (Moment m) (Months n)) = calculate md (Addition (Moment m) (Months (- n))) <->
  day m <= month_length (year m) (month m - n).
Proof. exact sub_is_add_months. Qed.
Print Assumptions C65_months_partial.
Theorem C65_years_partial : forall md m n, dt_valid m = true -> min_year <= year m - n <= max_year ->
  calculate md (Subtraction (Moment m) (Years n)) = calculate md (Addition (Moment m) (Years (- n))) <->
  ~ (month m = 2 /\ day m = 29 /\ leap (year m - n) = false).
Proof. exact sub_is_add_years. Qed.
Print Assumptions C65_years_partial.
(** The only successful results that differ are those where the field drops by exactly its size below zero. *)
Theorem C65_both_succeed_partial : forall md m u n m1 m2, dt_valid m = true -> clock_unit u = true -> 0 < n < 2147483648 ->
  (u <> UDay -> field u m - n <> - modulus u) ->
  calculate md (Subtraction (Moment m) (mk u n)) = Ok (Moment m1) -> calculate md (Addition (Moment m) (mk u (- n))) = Ok (Moment m2) -> inst m1 = inst m2.
Proof. exact sub_add_agree. Qed.
Print Assumptions C65_both_succeed_partial.
(** 10 s before 12:30:05 is an error as an addition; 60 s before 12:05:00 differ by a minute. *)
Theorem C65_opposite_refuted :
  calculate Checked (Subtraction (Moment (mkdt 2020 11 17 12 30 5 0)) (Seconds 10)) = Ok (Moment (mkdt 2020 11 17 12 29 55 0)) /\
  oob (calculate Checked (Addition (Moment (mkdt 2020 11 17 12 30 5 0)) (Seconds (-10)))) /\
  calculate Checked (Subtraction (Moment (mkdt 2020 11 17 12 5 0 0)) (Seconds 60)) = Ok (Moment (mkdt 2020 11 17 12 3 0 0)) /\
  calculate Checked (Addition (Moment (mkdt 2020 11 17 12 5 0 0)) (Seconds (-60))) = Ok (Moment (mkdt 2020 11 17 12 4 0 0)).
Proof.
  split; [vm_compute; reflexivity|]. split.
  - exists 2020, 11, 12, 12, 30, 4294967291. vm_compute. reflexivity.
  - split; vm_compute; reflexivity.
Qed.
Print Assumptions C65_opposite_refuted.
Example C65_within_field_case :
  calculate Checked (Subtraction (Moment nov17) (Minutes 30)) = Ok (Moment (mkdt 2020 11 17 12 0 45 0)) /\
  calculate Checked (Addition (Moment nov17) (Minutes (-30))) = Ok (Moment (mkdt 2020 11 17 12 0 45 0)).
Proof. split; vm_compute; reflexivity. Qed.
Example C65_months_case :
  calculate Checked (Subtraction (Moment nov17) (Months 9)) = Ok (Moment (mkdt 2020 2 17 12 30 45 0)) /\
  calculate Checked (Addition (Moment nov17) (Months (-9))) = Ok (Moment (mkdt 2020 2 17 12 30 45 0)) /\
  oob (calculate Checked (Subtraction (Moment (mkdt 2020 3 30 0 0 0 0)) (Months 1))) /\
  calculate Checked (Addition (Moment (mkdt 2020 3 30 0 0 0 0)) (Months (-1))) = Ok (Moment (mkdt 2020 3 1 0 0 0 0)).
Proof.
  split; [vm_compute; reflexivity|]. split; [vm_compute; reflexivity|]. split; [|vm_compute; reflexivity].
  exists 2020, 2, 0, 0, 0, 0. vm_compute. reflexivity.
Qed.
Example C65_years_case :
  oob (calculate Checked (Subtraction (Moment (mkdt 2020 2 29 0 0 0 0)) (Years 1))) /\
  calculate Checked (Addition (Moment (mkdt 2020 2 29 0 0 0 0)) (Years (-1))) = Ok (Moment (mkdt 2019 3 1 0 0 0 0)) /\
  calculate Checked (Subtraction (Moment nov17) (Years 3)) = calculate Checked (Addition (Moment nov17) (Years (-3))).
Proof. split; [exists 2019, 2, 0, 0, 0, 0; vm_compute; reflexivity|]. split; vm_compute; reflexivity. Qed.
Example C65_both_succeed_case :
  calculate Checked (Subtraction (Moment nov17) (Minutes 30)) = calculate Checked (Addition (Moment nov17) (Minutes (-30))) /\
  (field UMin nov17 - 30 <> - modulus UMin).
Proof. split; [vm_compute; reflexivity|vm_compute; discriminate]. Qed.
