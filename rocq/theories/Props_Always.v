(** Which steps are right from every moment (C125). *)
Require Import ZArith Bool List Lia.
From Verif Require Import Prelude Spec Chrono TimeType Iter SpecTree SpecMoment SpecIter SpecExact AlwaysProofs.
Import ListNotations.
Local Open Scope Z_scope.

(** C125. An amount in seconds, minutes, hours or days is added exactly to every moment, as far as the sum is representable, if and only if
    it is at most 30 days. *)
Theorem C125_add : forall md u n, clock_unit u = true -> 0 <= n -> n * unit_secs u < instant (max_year + 1) 1 1 0 0 0 - instant (min_year + 1) 1 1 0 0 0 ->
  ((forall m, dt_valid m = true -> inst m + n * unit_secs u < instant (max_year + 1) 1 1 0 0 0 ->
      exists x, calculate md (Addition (Moment m) (mk u n)) = Ok (Moment x) /\ inst x = inst m + n * unit_secs u) <->
   n * unit_secs u <= 30 * 86400).
Proof. exact always_add. Qed.
Print Assumptions C125_add.
(** The items of every iteration by this step are at whole numbers of steps from the start if and only if it is at most 30 days. *)
Theorem C125_iter : forall md u n, clock_unit u = true -> 0 <= n -> n * unit_secs u < instant (max_year + 1) 1 1 0 0 0 - instant (min_year + 1) 1 1 0 0 0 ->
  ((forall m it k, build m (mk u n) = Ok it -> dt_valid m = true -> inst m + Z.of_nat k * (n * unit_secs u) < instant (max_year + 1) 1 1 0 0 0 ->
      exists x, nth_item (iter_next md) k it = Some (Ok (Moment x)) /\ inst x = inst m + Z.of_nat k * (n * unit_secs u)) <->
   n * unit_secs u <= 30 * 86400).
Proof. exact always_iter. Qed.
Print Assumptions C125_iter.
(** No amount but zero is subtracted exactly from every moment. *)
Theorem C125_sub : forall md u n, clock_unit u = true -> 0 <= n < 2147483648 -> n * unit_secs u <= instant max_year 3 1 0 0 0 - instant min_year 1 1 0 0 0 ->
  ((forall m, dt_valid m = true -> instant min_year 1 1 0 0 0 <= inst m - n * unit_secs u ->
      exists x, calculate md (Subtraction (Moment m) (mk u n)) = Ok (Moment x) /\ inst x = inst m - n * unit_secs u) <-> n = 0).
Proof. exact always_sub. Qed.
Print Assumptions C125_sub.
(** Months are added to every moment on the [d]th of a month, keeping the day, if and only if every month has that day, or they are whole
    years from the 30th, or whole cycles of 400 years from the 29th. *)
Theorem C125_months : forall md n d, 0 <= n <= 12 * 500000 -> 1 <= d <= 31 ->
  ((forall m, dt_valid m = true -> day m = d -> month_index m + n < 12 * max_year + 11 ->
      exists x, calculate md (Addition (Moment m) (Months n)) = Ok (Moment x) /\ month_index x = month_index m + n /\ day x = d) <->
   d <= 28 \/ n = 0 \/ (d = 30 /\ (12 | n)) \/ (d = 29 /\ (4800 | n))).
Proof. exact always_months. Qed.
Print Assumptions C125_months.
(** Months are subtracted from every moment on the [d]th of a month, keeping the day, if and only if they are at most twelve and every month has
    that day, or exactly twelve from the 30th or 31st. *)
Theorem C125_sub_months : forall md n d, 0 <= n <= 12 * 500000 -> 1 <= d <= 31 ->
  ((forall m, dt_valid m = true -> day m = d -> 12 * min_year <= month_index m - n ->
      exists x, calculate md (Subtraction (Moment m) (Months n)) = Ok (Moment x) /\ month_index x = month_index m - n /\ day x = d) <->
   n = 0 \/ (n <= 12 /\ d <= 28) \/ (n = 12 /\ 30 <= d)).
Proof. exact always_sub_months. Qed.
Print Assumptions C125_sub_months.
(** Years, of either sign, are added to a date of every year, keeping the date, if and only if it is not 29 February or they are whole cycles
    of 400 years. *)
Theorem C125_years : forall md n mo d, -500000 <= n <= 500000 ->
  (exists y, date_exists y mo d = true) ->
  ((forall m, dt_valid m = true -> month m = mo -> day m = d -> min_year <= year m + n <= max_year ->
      exists x, calculate md (Addition (Moment m) (Years n)) = Ok (Moment x) /\ year x = year m + n /\ month x = mo /\ day x = d) <->
   ~ (mo = 2 /\ d = 29) \/ (400 | n)).
Proof. exact always_years. Qed.
Print Assumptions C125_years.

(** 30 days and one second more, from the last second of 2015; one second less than 1 March 2015. *)
Example C125_clock_case : let m := mkdt 2015 12 31 23 59 59 0 in let s := mkdt 2015 3 1 0 0 0 0 in
  dt_valid m = true /\ dt_valid s = true /\ 2592001 * unit_secs USec < instant (max_year + 1) 1 1 0 0 0 - instant (min_year + 1) 1 1 0 0 0 /\
  calculate Checked (Addition (Moment m) (Seconds 2592000)) = Ok (Moment (mkdt 2016 1 30 23 59 59 0)) /\
  inst (mkdt 2016 1 30 23 59 59 0) = inst m + 2592000 /\
  calculate Checked (Addition (Moment m) (Seconds 2592001)) = Ok (Moment (mkdt 2016 2 1 0 0 0 0)) /\
  inst (mkdt 2016 2 1 0 0 0 0) = inst m + 2592001 + 86400 /\
  build m (Seconds 2592001) = Ok (mkiter (Moment m) (Seconds 2592001) false) /\
  nth_item (iter_next Checked) 1 (mkiter (Moment m) (Seconds 2592001) false) = Some (Ok (Moment (mkdt 2016 2 1 0 0 0 0))) /\
  (forall v, calculate Checked (Subtraction (Moment s) (Seconds 1)) <> Ok v).
Proof. vm_compute. repeat split; discriminate. Qed.
(** Twelve months from the 30th and 31st of March, from 29 February, and 4800 months from there; twelve months back. *)
Example C125_months_case : let at_ y mo d := mkdt y mo d 9 0 0 0 in
  dt_valid (at_ 2015 3 31) = true /\ (12 | 12) /\ (4800 | 4800) /\
  calculate Checked (Addition (Moment (at_ 2015 3 30)) (Months 12)) = Ok (Moment (at_ 2016 3 30)) /\
  calculate Checked (Addition (Moment (at_ 2015 3 31)) (Months 12)) = Ok (Moment (at_ 2016 4 1)) /\
  (forall v, calculate Checked (Addition (Moment (at_ 2016 2 29)) (Months 12)) <> Ok v) /\
  calculate Checked (Addition (Moment (at_ 2016 2 29)) (Months 4800)) = Ok (Moment (at_ 2416 2 29)) /\
  calculate Checked (Subtraction (Moment (at_ 2015 3 31)) (Months 12)) = Ok (Moment (at_ 2014 3 31)) /\
  (forall v, calculate Checked (Subtraction (Moment (at_ 2015 3 31)) (Months 1)) <> Ok v) /\
  (forall v, calculate Checked (Subtraction (Moment (at_ 2015 1 1)) (Months 13)) <> Ok v).
Proof.
  cbv zeta. split; [reflexivity|]. split; [exists 1; reflexivity|]. split; [exists 1; reflexivity|]. vm_compute. repeat split; discriminate.
Qed.
(** 96, 100 and 400 years from 29 February 2004, and 400 years before. *)
Example C125_years_case : let at_ y mo d := mkdt y mo d 9 0 0 0 in date_exists 2004 2 29 = true /\ dt_valid (at_ 2004 2 29) = true /\ (400 | -400) /\
  calculate Checked (Addition (Moment (at_ 2004 2 29)) (Years 96)) = Ok (Moment (at_ 2100 3 1)) /\
  calculate Checked (Addition (Moment (at_ 2004 2 29)) (Years 100)) = Ok (Moment (at_ 2104 2 29)) /\
  calculate Checked (Addition (Moment (at_ 2000 2 29)) (Years 100)) = Ok (Moment (at_ 2100 3 1)) /\
  calculate Checked (Addition (Moment (at_ 2000 2 29)) (Years (-400))) = Ok (Moment (at_ 1600 2 29)) /\
  calculate Checked (Addition (Moment (at_ 2003 2 28)) (Years 1)) = Ok (Moment (at_ 2004 2 28)).
Proof. cbv zeta. split; [reflexivity|]. split; [reflexivity|]. split; [exists (-1); reflexivity|]. vm_compute. repeat split. Qed.
