(** Exact conditions for C11, C15, C22, C24, C18, C29, C40, C62 and C87, whose statements are false in general (witnesses in Props_Add.v, Props_Sub.v,
    Props_End.v, Props_Iter.v, Props_Seq.v). *)
Require Import ZArith Bool List Lia.
From Verif Require Import Prelude Spec Chrono TimeType Iter SpecTree SpecMoment SpecIter SpecExact ExactProofs ExactProofs2 ExactProofs3 ExactProofs4 ExactProofs5 ExactProofs6 ExactProofs7.
Local Open Scope Z_scope.

(** C11 (and C10). Adding clock units is exact if and only if the target lies before 31 January of the following year, in March of that
    year if it is a leap year, or in April or May if not; and it can be represented. *)
Theorem C11_exactly_partial : forall md m u n, dt_valid m = true -> clock_unit u = true -> 0 <= n -> n * unit_secs u <= span32 ->
  ((exists m', calculate md (Addition (Moment m) (mk u n)) = Ok (Moment m') /\ inst m' = inst m + n * unit_secs u) <->
   lands (year m + 1) (days_past u n m) /\ inst m + n * unit_secs u < instant (max_year + 1) 1 1 0 0 0).
Proof. exact add_exact_iff. Qed.
Print Assumptions C11_exactly_partial.
Example C11_exactly_case : let m := mkdt 2015 12 31 7 0 0 0 in dt_valid m = true /\ 91 * unit_secs UDay <= span32 /\
  days_past UDay 61 m = 60 /\ calculate Checked (Addition (Moment m) (Days 61)) = Ok (Moment (mkdt 2016 3 1 7 0 0 0)) /\ leap 2016 = true /\
  inst (mkdt 2016 3 1 7 0 0 0) = inst m + 61 * 86400 /\
  days_past UDay 91 m = 90 /\ calculate Checked (Addition (Moment m) (Days 91)) = Ok (Moment (mkdt 2016 4 1 7 0 0 0)) /\
  inst (mkdt 2016 4 1 7 0 0 0) = inst m + 91 * 86400 + 86400.
Proof. vm_compute. repeat split. discriminate. Qed.

(** C15. A sum beyond the last year succeeds if and only if the year aimed at, less a multiple of 2^32, can be represented and has such a day. *)
Theorem C15_exactly_partial : forall md m u n, dt_valid m = true -> in_i64 n = true -> 0 <= n -> field u m + n < i64_max -> beyond u n m ->
  ((exists v, calculate md (Addition (Moment m) (mk u n)) = Ok v) <-> comes_round u n m).
Proof. exact beyond_exact. Qed.
Print Assumptions C15_exactly_partial.
Example C15_exactly_case : let m := mkdt 2016 2 29 1 2 3 0 in let days := 307 + 360 * 4294967295 in
  dt_valid m = true /\ field UDay m + days < i64_max /\ beyond UDay days m /\ comes_round UDay days m /\
  beyond UYear 2147483648 m /\ ~ comes_round UYear 2147483648 m /\
  beyond UMonth 51539607552 m /\ comes_round UMonth 51539607552 m /\
  beyond UYear 4294967297 m /\ comes_round UYear 4294967297 m /\
  calculate Checked (Addition (Moment m) (mk UYear 4294967297)) = Ok (Moment (mkdt 2017 3 1 1 2 3 0)).
Proof.
  cbv zeta. refine (conj _ (conj _ (conj _ (conj _ (conj _ (conj _ (conj _ (conj _ (conj _ (conj _ _)))))))))).
  - vm_compute. reflexivity.
  - vm_compute. reflexivity.
  - vm_compute. discriminate.
  - unfold comes_round. replace (aim _ _ _) with (4294969312, 1, 1) by (vm_compute; reflexivity). exists 1. vm_compute. repeat split; discriminate.
  - vm_compute. reflexivity.
  - unfold comes_round. replace (aim _ _ _) with (2147485664, 2, 29) by (vm_compute; reflexivity). intros (k & Hk & Hr & _).
    unfold min_year, max_year in Hr. lia.
  - vm_compute. reflexivity.
  - unfold comes_round. replace (aim _ _ _) with (4294969312, 2, 29) by (vm_compute; reflexivity). exists 1. vm_compute. repeat split; discriminate.
  - vm_compute. reflexivity.
  - unfold comes_round. replace (aim _ _ _) with (4294969313, 2, 29) by (vm_compute; reflexivity). exists 1. vm_compute. repeat split; discriminate.
  - vm_compute. reflexivity.
Qed.

(** C22. *)
Theorem C22_exactly_partial : forall md m u n m', dt_valid m = true -> clock_unit u = true -> 0 <= n < 2147483648 ->
  calculate md (Subtraction (Moment m) (mk u n)) = Ok (Moment m') ->
  (inst m' = inst m - n * unit_secs u <-> sub_exact u n m).
Proof. exact sub_exact_iff. Qed.
Print Assumptions C22_exactly_partial.
(** 24 hours before 1 May 00:30: the two errors cancel. On 3 May the result is a day too early, on 2 May there is none. *)
Example C22_exactly_case : let m d := mkdt 2016 5 d 0 30 0 0 in dt_valid (m 1) = true /\ sub_exact UHour 24 (m 1) /\ ~ sub_exact UHour 24 (m 3) /\
  calculate Checked (Subtraction (Moment (m 1)) (Hours 24)) = Ok (Moment (mkdt 2016 4 30 0 30 0 0)) /\
  calculate Checked (Subtraction (Moment (m 2)) (Hours 24)) = Err (OutOfBounds 2016 4 0 0 30 0) /\
  calculate Checked (Subtraction (Moment (m 3)) (Hours 24)) = Ok (Moment (m 1)) /\
  sub_exact UDay 3 (mkdt 2016 4 3 0 0 0 0) /\ ~ sub_exact UDay 5 (mkdt 2016 3 3 0 0 0 0).
Proof.
  cbv zeta. split; [reflexivity|]. split; [split; [reflexivity|]; split; [vm_compute; reflexivity|reflexivity]|]. split; [intros (_ & C & _); revert C; vm_compute; discriminate|].
  split; [vm_compute; reflexivity|]. split; [vm_compute; reflexivity|]. split; [vm_compute; reflexivity|]. split; [right; reflexivity|].
  intros [C|C]; revert C; vm_compute; [intro C; apply C; reflexivity|discriminate].
Qed.

(** C24. Subtracting what was added gives the moment back, without its sub-seconds, if and only if [undone]. *)
Theorem C24_exactly_partial : forall md m u n, dt_valid m = true -> 0 <= n < 2147483648 ->
  (calculate md (Subtraction (Addition (Moment m) (mk u n)) (mk u n)) = Ok (Moment (whole_second m)) <-> undone u n m).
Proof. exact undo_exact. Qed.
Print Assumptions C24_exactly_partial.
(** 30 hours from 30 April 00:30 and back; from 29 April it is 28 April. 56 days from 5 December but not 57. 118 seconds from 01:00:01 but
    not 119 from 01:00:00. 12 months from 30 December but not from 31 December. *)
Example C24_exactly_case : let there u n m := calculate Checked (Subtraction (Addition (Moment m) (mk u n)) (mk u n)) in
  dt_valid (mkdt 2016 4 30 0 30 0 9) = true /\ undone UHour 30 (mkdt 2016 4 30 0 30 0 9) /\
  there UHour 30 (mkdt 2016 4 30 0 30 0 9) = Ok (Moment (mkdt 2016 4 30 0 30 0 0)) /\ there UHour 30 (mkdt 2016 4 29 0 30 0 9) = Ok (Moment (mkdt 2016 4 28 0 30 0 0)) /\
  undone UDay 56 (mkdt 2016 12 5 0 30 0 9) /\ ~ undone UDay 57 (mkdt 2016 12 5 0 30 0 9) /\
  there UDay 56 (mkdt 2016 12 5 0 30 0 9) = Ok (Moment (mkdt 2016 12 5 0 30 0 0)) /\ there UDay 57 (mkdt 2016 12 5 0 30 0 9) = Err (OutOfBounds 2016 12 0 0 30 0) /\
  there USec 119 (mkdt 2016 3 5 1 0 0 9) = Ok (Moment (mkdt 2016 3 5 0 59 0 0)) /\ there USec 118 (mkdt 2016 3 5 1 0 1 9) = Ok (Moment (mkdt 2016 3 5 1 0 1 0)) /\
  undone UMonth 12 (mkdt 2016 12 30 0 0 0 0) /\ ~ undone UMonth 12 (mkdt 2016 12 31 0 0 0 0) /\
  there UMonth 12 (mkdt 2016 12 31 0 0 0 0) = Ok (Moment (mkdt 2017 1 1 0 0 0 0)).
Proof.
  cbv zeta. split; [reflexivity|]. split; [right; repeat split; vm_compute; discriminate|]. split; [vm_compute; reflexivity|]. split; [vm_compute; reflexivity|].
  split; [right; split; [reflexivity|]; split; [vm_compute; discriminate|intros _; vm_compute; reflexivity]|]. split; [intros [C|(_ & C & _)]; revert C; vm_compute; intro C; apply C; reflexivity|].
  split; [vm_compute; reflexivity|]. split; [vm_compute; reflexivity|]. split; [vm_compute; reflexivity|]. split; [vm_compute; reflexivity|].
  split; [right; repeat split; vm_compute; discriminate|]. split; [intros [(C & _)|(_ & _ & C & _)]; revert C; vm_compute; intro C; apply C; reflexivity|vm_compute; reflexivity].
Qed.

(** C29. The end of a period lies before the moment if and only if it is a year or a month and the moment is on the last day after midnight. *)
Theorem C29_exactly_partial : forall md k t m e, tt_ok t = true -> calculate md t = Ok (Moment m) -> calculate md (end_of k t) = Ok (Moment e) ->
  (inst e < inst m <-> 0 < sod m /\ match k with PYear => month m = 12 /\ day m = 31 | PMonth => day m = month_length (year m) (month m) | _ => False end).
Proof. exact end_back. Qed.
Print Assumptions C29_exactly_partial.
Example C29_exactly_case : let t := Addition (Moment (mkdt 2016 2 28 12 0 0 0)) (Days 1) in tt_ok t = true /\ calculate Checked t = Ok (Moment (mkdt 2016 2 29 12 0 0 0)) /\
  calculate Checked (end_of PMonth t) = Ok (Moment (mkdt 2016 2 29 0 0 0 0)) /\ inst (mkdt 2016 2 29 0 0 0 0) < inst (mkdt 2016 2 29 12 0 0 0) /\
  calculate Checked (end_of PYear t) = Ok (Moment (mkdt 2016 12 31 0 0 0 0)).
Proof. vm_compute. repeat split. Qed.

(** C40. One rollback undoes one step if and only if [undone]. *)
Theorem C40_rollback_exactly_partial : forall md m u n v it', dt_valid m = true -> 0 <= n < 2147483648 ->
  iter_next md (at_moment u n m true) = (Some (Ok v), it') ->
  (rollback md it' = (Ok tt, at_moment u n (whole_second m) true) <-> undone u n m).
Proof. exact rollback_exact. Qed.
Print Assumptions C40_rollback_exactly_partial.
Example C40_rollback_exactly_case : let m d := mkdt 2016 12 d 8 0 0 0 in dt_valid (m 31) = true /\
  (exists it', iter_next Checked (at_moment UMonth 1 (m 31) true) = (Some (Ok (Moment (mkdt 2017 2 1 8 0 0 0))), it') /\
     rollback Checked it' = (Ok tt, at_moment UMonth 1 (mkdt 2017 1 1 8 0 0 0) true)) /\ ~ undone UMonth 1 (m 31) /\
  (exists it', iter_next Checked (at_moment UMonth 1 (m 30) true) = (Some (Ok (Moment (mkdt 2017 1 30 8 0 0 0))), it') /\
     rollback Checked it' = (Ok tt, at_moment UMonth 1 (m 30) true)) /\ undone UMonth 1 (m 30).
Proof.
  cbv zeta. split; [reflexivity|]. split; [eexists; split; [vm_compute; reflexivity|vm_compute; reflexivity]|]. split; [intros [(C & _)|(_ & _ & C & _)]; revert C; vm_compute; intro C; apply C; reflexivity|].
  split; [eexists; split; [vm_compute; reflexivity|vm_compute; reflexivity]|]. right. repeat split; vm_compute; discriminate.
Qed.

(** C62. Years. *)
Theorem C62_years_exactly_partial : forall md m a b, dt_valid m = true -> min_year <= year m + a <= max_year -> min_year <= year m + a + b <= max_year ->
  (calculate md (Addition (Addition (Moment m) (Years a)) (Years b)) = calculate md (Addition (Moment m) (Years (a + b))) <->
   ~ (month m = 2 /\ day m = 29 /\ leap (year m + a) = false /\ leap (year m + a + b) = true)).
Proof. exact years_twice. Qed.
Print Assumptions C62_years_exactly_partial.
Example C62_years_exactly_case : let m := mkdt 2016 2 29 1 0 0 0 in dt_valid m = true /\ leap (2016 + 1) = false /\ leap (2016 + 1 + 2) = false /\
  calculate Checked (Addition (Addition (Moment m) (Years 1)) (Years 2)) = Ok (Moment (mkdt 2019 3 1 1 0 0 0)) /\
  calculate Checked (Addition (Moment m) (Years (1 + 2))) = Ok (Moment (mkdt 2019 3 1 1 0 0 0)) /\
  calculate Checked (Addition (Addition (Moment m) (Years 1)) (Years 3)) = Ok (Moment (mkdt 2020 3 1 1 0 0 0)) /\
  calculate Checked (Addition (Moment m) (Years (1 + 3))) = Ok (Moment (mkdt 2020 2 29 1 0 0 0)).
Proof. vm_compute. repeat split. Qed.
(** Months. *)
Theorem C62_months_exactly_partial : forall md m a b, dt_valid m = true -> 0 <= a -> 0 <= b -> month_index m + a + b + 2 <= 12 * max_year + 11 ->
  (calculate md (Addition (Addition (Moment m) (Months a)) (Months b)) = calculate md (Addition (Moment m) (Months (a + b))) <-> months_join a b m).
Proof. exact months_twice. Qed.
Print Assumptions C62_months_exactly_partial.
(** From 31 January 2021: by way of April and then June equal, by way of April and then July not; from 30 October 2020 by way of February fails. *)
Example C62_months_exactly_case : let m := mkdt 2021 1 31 5 0 0 0 in let o := mkdt 2020 10 30 5 0 0 0 in
  dt_valid m = true /\ month_index m + 3 + 3 + 2 <= 12 * max_year + 11 /\ spill UMonth 3 m = 1 /\ spill UMonth (3 + 2) m = 1 /\ spill UMonth (3 + 3) m = 0 /\
  calculate Checked (Addition (Addition (Moment m) (Months 3)) (Months 2)) = Ok (Moment (mkdt 2021 7 1 5 0 0 0)) /\
  calculate Checked (Addition (Moment m) (Months (3 + 2))) = Ok (Moment (mkdt 2021 7 1 5 0 0 0)) /\
  calculate Checked (Addition (Addition (Moment m) (Months 3)) (Months 3)) = Ok (Moment (mkdt 2021 8 1 5 0 0 0)) /\
  calculate Checked (Addition (Moment m) (Months (3 + 3))) = Ok (Moment (mkdt 2021 7 31 5 0 0 0)) /\
  index_length (month_index o + 4) = 28 /\
  calculate Checked (Addition (Addition (Moment o) (Months 4)) (Months 1)) = Err (OutOfBounds 2021 2 5 5 0 0) /\
  calculate Checked (Addition (Moment o) (Months (4 + 1))) = Ok (Moment (mkdt 2021 3 30 5 0 0 0)).
Proof. vm_compute. repeat split. discriminate. Qed.

(** C18. Adding months or years reverses the order of two moments if and only if the first goes past the end of a month and the second is
    on the first days of the month after that of the first. *)
Theorem C18_exactly_partial : forall md u n m1 m2 m1' m2', dt_valid m1 = true -> dt_valid m2 = true -> clock_unit u = false -> 0 <= n -> n * unit_secs u <= span32 ->
  calculate md (Addition (Moment m1) (mk u n)) = Ok (Moment m1') -> calculate md (Addition (Moment m2) (mk u n)) = Ok (Moment m2') ->
  inst m1 <= inst m2 ->
  (inst m2' < inst m1' <-> month_index m2 = month_index m1 + 1 /\ (day m2 < spill u n m1 \/ (day m2 = spill u n m1 /\ sod m2 < sod m1))).
Proof. exact order_exact. Qed.
Print Assumptions C18_exactly_partial.
Example C18_exactly_case : let m1 := mkdt 2021 1 31 5 0 0 0 in let m2 d := mkdt 2021 2 d 4 0 0 0 in
  dt_valid m1 = true /\ dt_valid (m2 3) = true /\ inst m1 <= inst (m2 3) /\ spill UMonth 1 m1 = 3 /\
  calculate Checked (Addition (Moment m1) (mk UMonth 1)) = Ok (Moment (mkdt 2021 3 3 5 0 0 0)) /\
  calculate Checked (Addition (Moment (m2 3)) (mk UMonth 1)) = Ok (Moment (mkdt 2021 3 3 4 0 0 0)) /\
  calculate Checked (Addition (Moment (m2 4)) (mk UMonth 1)) = Ok (Moment (mkdt 2021 3 4 4 0 0 0)).
Proof. vm_compute. repeat split. discriminate. Qed.
(** Clock units can only reverse the order of moments of different years. *)
Theorem C18_same_year_partial : forall md u n m1 m2 m1' m2', dt_valid m1 = true -> dt_valid m2 = true -> clock_unit u = true -> 0 <= n -> n * unit_secs u <= span32 ->
  calculate md (Addition (Moment m1) (mk u n)) = Ok (Moment m1') -> calculate md (Addition (Moment m2) (mk u n)) = Ok (Moment m2') ->
  year m1 = year m2 -> inst m1 <= inst m2 -> inst m1' <= inst m2'.
Proof. exact same_year_order. Qed.
Print Assumptions C18_same_year_partial.
Example C18_same_year_case : let m1 := mkdt 2016 2 1 5 0 0 0 in let m2 := mkdt 2016 12 31 4 0 0 0 in
  dt_valid m1 = true /\ dt_valid m2 = true /\ inst m1 <= inst m2 /\ 400 * unit_secs UDay <= span32 /\
  calculate Checked (Addition (Moment m1) (mk UDay 400)) = Ok (Moment (mkdt 2017 3 6 5 0 0 0)) /\
  calculate Checked (Addition (Moment m2) (mk UDay 400)) = Ok (Moment (mkdt 2018 2 10 4 0 0 0)).
Proof. vm_compute. repeat split; discriminate. Qed.

(** C87. Subtracting one amount after the other, where everything succeeds, is subtracting the sum if and only if the fields drop to exactly their
    size below zero as often. *)
Theorem C87_exactly_partial : forall md m u a b m1 v w, dt_valid m = true -> 0 <= a -> 0 <= b -> a + b < 2147483648 ->
  calculate md (Subtraction (Moment m) (mk u a)) = Ok (Moment m1) ->
  calculate md (Subtraction (Subtraction (Moment m) (mk u a)) (mk u b)) = Ok v ->
  calculate md (Subtraction (Moment m) (mk u (a + b))) = Ok w ->
  (v = w <-> skip_count u a m + skip_count u b m1 = skip_count u (a + b) m).
Proof. exact sub_twice. Qed.
Print Assumptions C87_exactly_partial.
Example C87_exactly_case : let m := mkdt 2016 5 2 0 5 0 0 in dt_valid m = true /\
  calculate Checked (Subtraction (Moment m) (mk UDay 31)) = Ok (Moment (mkdt 2016 4 2 0 5 0 0)) /\
  calculate Checked (Subtraction (Subtraction (Moment m) (mk UDay 31)) (mk UDay 1)) = Ok (Moment (mkdt 2016 4 1 0 5 0 0)) /\
  calculate Checked (Subtraction (Moment m) (mk UDay (31 + 1))) = Ok (Moment (mkdt 2016 4 1 0 5 0 0)) /\
  skip_count USec 30 m = 0 /\ skip_count USec 30 (mkdt 2016 5 2 0 4 30 0) = 0 /\ skip_count USec (30 + 30) m = 1.
Proof. vm_compute. repeat split. Qed.
(** Days, months and years: always. *)
Theorem C87_dates_partial : forall md m u a b v w, u = UDay \/ u = UMonth \/ u = UYear -> dt_valid m = true -> 0 <= a -> 0 <= b -> a + b < 2147483648 ->
  calculate md (Subtraction (Subtraction (Moment m) (mk u a)) (mk u b)) = Ok v ->
  calculate md (Subtraction (Moment m) (mk u (a + b))) = Ok w -> v = w.
Proof. exact sub_twice_dates. Qed.
Print Assumptions C87_dates_partial.
Example C87_dates_case : let m := mkdt 2016 5 31 0 5 0 0 in dt_valid m = true /\
  calculate Checked (Subtraction (Subtraction (Moment m) (mk UMonth 2)) (mk UMonth 5)) = Ok (Moment (mkdt 2015 10 31 0 5 0 0)) /\
  calculate Checked (Subtraction (Moment m) (mk UMonth (2 + 5))) = Ok (Moment (mkdt 2015 10 31 0 5 0 0)).
Proof. vm_compute. repeat split. Qed.
Theorem C87_twice_refuted : let m := mkdt 2016 5 2 0 5 0 0 in dt_valid m = true /\
  calculate Checked (Subtraction (Subtraction (Moment m) (Seconds 30)) (Seconds 30)) = Ok (Moment (mkdt 2016 5 2 0 4 0 0)) /\
  calculate Checked (Subtraction (Moment m) (Seconds 60)) = Ok (Moment (mkdt 2016 5 2 0 3 0 0)).
Proof. vm_compute. repeat split. Qed.
Print Assumptions C87_twice_refuted.
