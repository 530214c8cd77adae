(** Every so-manieth item of an iteration (C124). *)
Require Import ZArith Bool List Lia.
From Verif Require Import Prelude Spec Chrono TimeType Iter SpecTree SpecMoment SpecIter SpecExact StrideProofs.
Import ListNotations.
Local Open Scope Z_scope.

(** C124. If a step by clock units is [k] times another one, in the same or other units, then the items of the longer step are every [k]th
    item of the shorter one; one exists exactly if the other does. *)
Theorem C124_clock : forall md m u n v p it it' k j x, build m (mk u n) = Ok it -> build m (mk v p) = Ok it' -> dt_valid m = true -> nano m = 0 ->
  clock_unit u = true -> clock_unit v = true -> 0 <= n -> n * unit_secs u <= 30 * 86400 -> 0 <= p -> p * unit_secs v <= 30 * 86400 ->
  p * unit_secs v = Z.of_nat k * (n * unit_secs u) ->
  (nth_item (iter_next md) j it' = Some (Ok (Moment x)) <-> nth_item (iter_next md) (j * k) it = Some (Ok (Moment x))).
Proof. exact stride_clock. Qed.
Print Assumptions C124_clock.
(** No other steps have this relation: if the first item after the start is the [k]th of the other iteration, the step is [k] times the other. *)
Theorem C124_needed : forall md m u n v p it it' k x, build m (mk u n) = Ok it -> build m (mk v p) = Ok it' -> dt_valid m = true -> nano m = 0 ->
  clock_unit u = true -> clock_unit v = true -> 0 <= n -> n * unit_secs u <= 30 * 86400 -> 0 <= p -> p * unit_secs v <= 30 * 86400 ->
  nth_item (iter_next md) 1 it' = Some (Ok (Moment x)) -> nth_item (iter_next md) k it = Some (Ok (Moment x)) -> p * unit_secs v = Z.of_nat k * (n * unit_secs u).
Proof. exact stride_needed. Qed.
Print Assumptions C124_needed.
(** Months, from a day that every month has. *)
Theorem C124_months : forall md m n p it it' k j x, build m (Months n) = Ok it -> build m (Months p) = Ok it' -> dt_valid m = true -> nano m = 0 -> day m <= 28 ->
  0 < n -> n * unit_secs UMonth <= span32 -> 0 < p -> p * unit_secs UMonth <= span32 -> p = Z.of_nat k * n ->
  (nth_item (iter_next md) j it' = Some (Ok (Moment x)) <-> nth_item (iter_next md) (j * k) it = Some (Ok (Moment x))).
Proof. exact stride_months. Qed.
Print Assumptions C124_months.
(** Years, from a day that every year has. *)
Theorem C124_years : forall md m n p it it' k j x, build m (Years n) = Ok it -> build m (Years p) = Ok it' -> dt_valid m = true -> nano m = 0 -> ~ (month m = 2 /\ day m = 29) ->
  0 < n -> n * unit_secs UYear <= span32 -> 0 < p -> p * unit_secs UYear <= span32 -> p = Z.of_nat k * n ->
  (nth_item (iter_next md) j it' = Some (Ok (Moment x)) <-> nth_item (iter_next md) (j * k) it = Some (Ok (Moment x))).
Proof. exact stride_years. Qed.
Print Assumptions C124_years.
(** Years of 12 months. *)
Theorem C124_mixed : forall md m n p it it' k j x, build m (Months n) = Ok it -> build m (Years p) = Ok it' -> dt_valid m = true -> nano m = 0 -> day m <= 28 ->
  0 < n -> n * unit_secs UMonth <= span32 -> 0 < p -> p * unit_secs UYear <= span32 -> 12 * p = Z.of_nat k * n ->
  (nth_item (iter_next md) j it' = Some (Ok (Moment x)) <-> nth_item (iter_next md) (j * k) it = Some (Ok (Moment x))).
Proof. exact stride_mixed. Qed.
Print Assumptions C124_mixed.

(** Every 8 hours and daily from the evening of 27 February 2016. *)
Example C124_clock_case : let m := mkdt 2016 2 27 20 0 0 0 in let it := mkiter (Moment m) (Hours 8) false in let it' := mkiter (Moment m) (Days 1) false in
  build m (mk UHour 8) = Ok it /\ build m (mk UDay 1) = Ok it' /\ dt_valid m = true /\ 1 * unit_secs UDay = Z.of_nat 3 * (8 * unit_secs UHour) /\
  nth_item (iter_next Checked) 4 it' = Some (Ok (Moment (mkdt 2016 3 2 20 0 0 0))) /\
  nth_item (iter_next Checked) (4 * 3) it = Some (Ok (Moment (mkdt 2016 3 2 20 0 0 0))) /\
  nth_item (iter_next Checked) 1 it' = nth_item (iter_next Checked) 3 it.
Proof. vm_compute. repeat split. Qed.
(** Every four months, yearly and every other year from 28 November 2015. *)
Example C124_months_case : let m := mkdt 2015 11 28 20 0 0 0 in let it u n := mkiter (Moment m) (mk u n) false in
  build m (Months 4) = Ok (it UMonth 4) /\ build m (Months 12) = Ok (it UMonth 12) /\ build m (Years 1) = Ok (it UYear 1) /\ build m (Years 2) = Ok (it UYear 2) /\
  dt_valid m = true /\ 12 * unit_secs UMonth <= span32 /\ 2 * unit_secs UYear <= span32 /\ 12 = Z.of_nat 3 * 4 /\ 12 * 2 = Z.of_nat 6 * 4 /\ 2 = Z.of_nat 2 * 1 /\
  nth_item (iter_next Checked) 2 (it UMonth 12) = Some (Ok (Moment (mkdt 2017 11 28 20 0 0 0))) /\
  nth_item (iter_next Checked) (2 * 3) (it UMonth 4) = Some (Ok (Moment (mkdt 2017 11 28 20 0 0 0))) /\
  nth_item (iter_next Checked) 1 (it UYear 2) = Some (Ok (Moment (mkdt 2017 11 28 20 0 0 0))) /\
  nth_item (iter_next Checked) (1 * 2) (it UYear 1) = Some (Ok (Moment (mkdt 2017 11 28 20 0 0 0))) /\
  nth_item (iter_next Checked) (1 * 6) (it UMonth 4) = Some (Ok (Moment (mkdt 2017 11 28 20 0 0 0))).
Proof. vm_compute. repeat split; discriminate. Qed.
(** Other days: yearly from 29 February 2016 leads to 1 March for good, every four years stays; monthly from 31 January goes on from 3 March. *)
Example C124_other_days_case : let m := mkdt 2016 2 29 20 0 0 0 in let e := mkdt 2015 1 31 20 0 0 0 in let it a u n := mkiter (Moment a) (mk u n) false in
  nth_item (iter_next Checked) 4 (it m UYear 1) = Some (Ok (Moment (mkdt 2020 3 1 20 0 0 0))) /\
  nth_item (iter_next Checked) 1 (it m UYear 4) = Some (Ok (Moment (mkdt 2020 2 29 20 0 0 0))) /\
  nth_item (iter_next Checked) 2 (it e UMonth 1) = Some (Ok (Moment (mkdt 2015 4 3 20 0 0 0))) /\
  nth_item (iter_next Checked) 1 (it e UMonth 2) = Some (Ok (Moment (mkdt 2015 3 31 20 0 0 0))).
Proof. vm_compute. repeat split. Qed.
