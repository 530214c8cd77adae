(** Which iterations stay right for good (C126). *)
Require Import ZArith Bool List Lia.
From Verif Require Import Prelude Spec Chrono TimeType Iter SpecTree SpecMoment SpecIter SpecExact SpecForever SoonerProofs ForeverProofs ForeverProofs2.
Import ListNotations.
Local Open Scope Z_scope.

(** C126. From every single start up to the year 50000, all items of an iteration by whole days, given in any clock unit, are exact if and
    only if the step is at most 30 days. *)
Theorem C126_days : forall md m u n d it, build m (mk u n) = Ok it -> dt_valid m = true -> clock_unit u = true -> n * unit_secs u = d * 86400 ->
  year m <= 50000 -> 0 <= d <= 70000000 ->
  ((forall k, inst m + Z.of_nat k * (d * 86400) < instant (max_year + 1) 1 1 0 0 0 ->
      exists x, nth_item (iter_next md) k it = Some (Ok (Moment x)) /\ inst x = inst m + Z.of_nat k * (d * 86400)) <-> d <= 30).
Proof. exact forever_days. Qed.
Print Assumptions C126_days.
(** With a longer step an item within one cycle of the calendar is off. *)
Theorem C126_off : forall md m u n d it, build m (mk u n) = Ok it -> dt_valid m = true -> clock_unit u = true -> n * unit_secs u = d * 86400 ->
  year m <= 50000 -> 31 <= d <= 70000000 ->
  exists k, Z.of_nat k <= 146097 /\ inst m + Z.of_nat k * (d * 86400) < instant (max_year + 1) 1 1 0 0 0 /\
    forall x, nth_item (iter_next md) k it = Some (Ok (Moment x)) -> inst x <> inst m + Z.of_nat k * (d * 86400).
Proof. exact sooner. Qed.
Print Assumptions C126_off.
(** All items of an iteration by years keep the date if and only if it is not 29 February or none of the years is common. *)
Theorem C126_years : forall md m n it, build m (Years n) = Ok it -> dt_valid m = true -> 0 <= n <= 2000 -> year m <= 50000 ->
  ((forall k, year m + Z.of_nat k * n <= max_year ->
      exists x, nth_item (iter_next md) k it = Some (Ok (Moment x)) /\ year x = year m + Z.of_nat k * n /\ month x = month m /\ day x = day m) <->
   ~ (month m = 2 /\ day m = 29) \/ stays_leap (year m) n).
Proof. exact forever_years. Qed.
Print Assumptions C126_years.
(** All items of an iteration by months keep the day if and only if every month has it, or the step is zero, or it is at most the 30th and no step
    leads to February, or it is the 29th and every February met is of a leap year. *)
Theorem C126_months : forall md m n it, build m (Months n) = Ok it -> dt_valid m = true -> 0 <= n <= 2000 -> year m <= 50000 ->
  ((forall k, month_index m + Z.of_nat k * n < 12 * max_year + 11 ->
      exists x, nth_item (iter_next md) k it = Some (Ok (Moment x)) /\ month_index x = month_index m + Z.of_nat k * n /\ day x = day m) <->
   day m <= 28 \/ n = 0 \/ (day m <= 30 /\ ~ (Z.gcd n 12 | month m - 2)) \/
   (day m = 29 /\ forall k, (k < 12)%nat -> (month_index m + Z.of_nat k * n) mod 12 = 1 -> stays_leap ((month_index m + Z.of_nat k * n) / 12) (n / Z.gcd n 12))).
Proof. exact forever_months. Qed.
Print Assumptions C126_months.
(** The condition on years is what its name says. *)
Theorem C126_leap : forall y q, stays_leap y q <-> forall t, 0 <= t -> leap (y + t * q) = true.
Proof. exact stays_leap_spec. Qed.
Print Assumptions C126_leap.

(** Every 31 days, as 744 hours, from 1 January 2015: 107 items are right, the one of 31 January 2024 is not. *)
Example C126_days_case : let m := mkdt 2015 1 1 0 0 0 0 in let it := mkiter (Moment m) (Hours 744) false in
  build m (mk UHour 744) = Ok it /\ dt_valid m = true /\ 744 * unit_secs UHour = 31 * 86400 /\
  forallb (fun k => match nth_item (iter_next Checked) k it with Some (Ok (Moment x)) => inst x =? inst m + Z.of_nat k * (31 * 86400) | _ => false end) (seq 0 107) = true /\
  inst m + 107 * (31 * 86400) = instant 2024 1 31 0 0 0 /\
  nth_item (iter_next Checked) 107 it = Some (Ok (Moment (mkdt 2024 2 1 0 0 0 0))).
Proof. vm_compute. repeat split. Qed.
(** Yearly steps from 29 February: 4 years from 2000 meet 2100; 16 years from 2000 and 20 years from 2004 never meet a common year. *)
Example C126_years_case : let m y := mkdt y 2 29 9 0 0 0 in let it y n := mkiter (Moment (m y)) (Years n) false in
  build (m 2000) (Years 16) = Ok (it 2000 16) /\ dt_valid (m 2000) = true /\ dt_valid (m 2004) = true /\ stays_leap 2000 16 /\ stays_leap 2004 20 /\ ~ stays_leap 2000 4 /\
  nth_item (iter_next Checked) 25 (it 2000 4) = Some (Ok (Moment (mkdt 2100 3 1 9 0 0 0))) /\
  nth_item (iter_next Checked) 25 (it 2000 16) = Some (Ok (Moment (mkdt 2400 2 29 9 0 0 0))) /\
  nth_item (iter_next Checked) 5 (it 2004 20) = Some (Ok (Moment (mkdt 2104 2 29 9 0 0 0))).
Proof.
  cbv zeta. split; [vm_compute; reflexivity|]. split; [vm_compute; reflexivity|]. split; [vm_compute; reflexivity|].
  split; [apply stays_leap_iff; vm_compute; reflexivity|]. split; [apply stays_leap_iff; vm_compute; reflexivity|].
  split; [rewrite stays_leap_iff; vm_compute; discriminate|]. vm_compute. repeat split.
Qed.
(** Steps of 2 months from 30 January never lead to February, steps of 5 months do; 192 months are 16 years. *)
Example C126_months_case : let m y mo d := mkdt y mo d 9 0 0 0 in let it x n := mkiter (Moment x) (Months n) false in
  build (m 2015 1 30) (Months 2) = Ok (it (m 2015 1 30) 2) /\ dt_valid (m 2015 1 30) = true /\ ~ (Z.gcd 2 12 | 1 - 2) /\ (Z.gcd 5 12 | 1 - 2) /\
  nth_item (iter_next Checked) 6 (it (m 2015 1 30) 2) = Some (Ok (Moment (m 2016 1 30))) /\
  nth_item (iter_next Checked) 5 (it (m 2015 1 30) 5) = Some (Err (OutOfBounds 2017 2 9 9 0 0)) /\
  nth_item (iter_next Checked) 25 (it (m 2000 2 29) 192) = Some (Ok (Moment (m 2400 2 29))).
Proof.
  cbv zeta. split; [vm_compute; reflexivity|]. split; [vm_compute; reflexivity|].
  split; [intros [c C]; change (Z.gcd 2 12) with 2 in C; lia|]. split; [exists (-1); vm_compute; reflexivity|]. vm_compute. repeat split.
Qed.
(** All leap: 2000, 2016, 2032 ... *)
Example C126_leap_case : stays_leap 2000 16 /\ leap (2000 + 7 * 16) = true /\ leap (2000 + 25 * 4) = false.
Proof. split; [apply stays_leap_iff; vm_compute; reflexivity|]. vm_compute. split; reflexivity. Qed.
