(** How far sums and differences with moments are off (C121). *)
Require Import ZArith Bool List Lia.
From Verif Require Import Prelude Spec Chrono TimeType Iter SpecTree SpecMoment SpecIter SpecExact SpecTwice SpecOff OffProofs.
Local Open Scope Z_scope.

(** C121. A moment plus seconds, minutes, hours or days is late by [late] days. *)
Theorem C121_add : forall md m u n x, dt_valid m = true -> clock_unit u = true -> 0 <= n -> n * unit_secs u <= span32 ->
  calculate md (Addition (Moment m) (mk u n)) = Ok (Moment x) -> inst x = inst m + n * unit_secs u + 86400 * late m x /\ year m <= year x.
Proof. exact add_off. Qed.
Print Assumptions C121_add.
(** So it is exact within the year, and at most a day early or 5 days late in the next; each further year makes it 5 or 6 days later. *)
Theorem C121_add_range : forall md m u n x, dt_valid m = true -> clock_unit u = true -> 0 <= n -> n * unit_secs u <= span32 ->
  calculate md (Addition (Moment m) (mk u n)) = Ok (Moment x) ->
  year x = year m /\ inst x = inst m + n * unit_secs u \/
  (let q := year x - year m - 1 in 0 <= q /\ 86400 * (5 * q - 1) <= inst x - (inst m + n * unit_secs u) <= 86400 * (6 * q + 5)).
Proof. exact add_off_range. Qed.
Print Assumptions C121_add_range.
(** A moment less seconds, minutes, hours or days is late by [sub_late] seconds. *)
Theorem C121_sub : forall md m u n x, dt_valid m = true -> clock_unit u = true -> 0 <= n < 2147483648 ->
  calculate md (Subtraction (Moment m) (mk u n)) = Ok (Moment x) -> inst x = inst m - n * unit_secs u + sub_late u n m.
Proof. exact sub_off. Qed.
Print Assumptions C121_sub.
(** So it is at most a day early or 3 days late. *)
Theorem C121_sub_range : forall md m u n x, dt_valid m = true -> clock_unit u = true -> 0 <= n < 2147483648 ->
  calculate md (Subtraction (Moment m) (mk u n)) = Ok (Moment x) -> -86400 <= inst x - (inst m - n * unit_secs u) <= 86400 * 3.
Proof. exact sub_off_range. Qed.
Print Assumptions C121_sub_range.
(** A moment plus whole weeks, in days, is of the same weekday exactly if it is late by whole weeks. *)
Theorem C121_weeks_add : forall md m w x, dt_valid m = true -> 0 <= w -> 7 * w * 86400 <= span32 ->
  calculate md (Addition (Moment m) (Days (7 * w))) = Ok (Moment x) -> (weekday_of x = weekday_of m <-> (7 | late m x)).
Proof. exact week_add. Qed.
Print Assumptions C121_weeks_add.
(** A moment less whole weeks, in days, is of the same weekday exactly if the month is not left or the month before it has 31 days. *)
Theorem C121_weeks_sub : forall md m w x, dt_valid m = true -> 0 <= w -> 7 * w < 2147483648 ->
  calculate md (Subtraction (Moment m) (Days (7 * w))) = Ok (Moment x) ->
  (weekday_of x = weekday_of m <-> 7 * w < day m \/ (let '(y, mo) := prev_month (year m) (month m) in month_length y mo) = 31).
Proof. exact week_sub. Qed.
Print Assumptions C121_weeks_sub.
(** An iteration by steps of at most 30 days and the sum of as many steps at once: the sum is off by as much from the item. *)
Theorem C121_iteration : forall md m u n it k y, build m (mk u n) = Ok it -> dt_valid m = true -> clock_unit u = true -> 0 <= n -> n * unit_secs u <= 30 * 86400 ->
  (1 <= k)%nat -> inst m + Z.of_nat k * n * unit_secs u < instant (max_year + 1) 1 1 0 0 0 -> calculate md (Addition (Moment m) (mk u (Z.of_nat k * n))) = Ok (Moment y) ->
  exists x, nth_item (iter_next md) k it = Some (Ok (Moment x)) /\ inst y = inst x + 86400 * late m y.
Proof. exact iter_off. Qed.
Print Assumptions C121_iteration.
(** 43 steps of 7 days are 28 October 2017, 301 days at once are 1 November. *)
Example C121_iteration_case : let m := mkdt 2016 12 31 7 0 0 0 in build m (Days 7) = Ok (mkiter (Moment m) (Days 7) false) /\
  nth_item (iter_next Checked) 43 (mkiter (Moment m) (Days 7) false) = Some (Ok (Moment (mkdt 2017 10 28 7 0 0 0))) /\
  calculate Checked (Addition (Moment m) (Days (Z.of_nat 43 * 7))) = Ok (Moment (mkdt 2017 11 1 7 0 0 0)) /\ late m (mkdt 2017 11 1 7 0 0 0) = 4.
Proof. vm_compute. repeat split. Qed.

(** From 31 December 2016: 30 days exact, 63 days a day early, 301 days 4 days late, 364 days 5 days late, 574 days 7 days late. *)
Example C121_add_case : let m := mkdt 2016 12 31 7 0 0 0 in let at_ y mo d := mkdt y mo d 7 0 0 0 in
  dt_valid m = true /\ 574 * unit_secs UDay <= span32 /\
  calculate Checked (Addition (Moment m) (Days 30)) = Ok (Moment (at_ 2017 1 30)) /\ late m (at_ 2017 1 30) = 0 /\
  calculate Checked (Addition (Moment m) (Days 63)) = Ok (Moment (at_ 2017 3 3)) /\ late m (at_ 2017 3 3) = -1 /\
  calculate Checked (Addition (Moment m) (Days 301)) = Ok (Moment (at_ 2017 11 1)) /\ late m (at_ 2017 11 1) = 4 /\
  calculate Checked (Addition (Moment m) (Hours 8736)) = Ok (Moment (at_ 2018 1 4)) /\ late m (at_ 2018 1 4) = 5 /\
  calculate Checked (Addition (Moment m) (Days 574)) = Ok (Moment (at_ 2018 8 4)) /\ late m (at_ 2018 8 4) = 7 /\
  inst (at_ 2018 8 4) = inst m + 574 * 86400 + 86400 * 7 /\ weekday_of m = 5 /\ weekday_of (at_ 2018 8 4) = 5 /\ weekday_of (at_ 2017 3 3) = 4.
Proof. vm_compute. repeat split; discriminate. Qed.
(** From midnight and 3 o'clock on 3 March 2015: 24 hours from midnight are two days, 7 days 3 days late; from 3 May 7 days are a day late; from 20 March 14 days are exact. *)
Example C121_sub_case : let m := mkdt 2015 3 3 0 0 0 0 in let l := mkdt 2015 3 3 3 0 0 0 in let k := mkdt 2015 5 3 3 0 0 0 in let j := mkdt 2015 3 20 3 0 0 0 in
  dt_valid m = true /\ dt_valid l = true /\
  calculate Checked (Subtraction (Moment m) (Hours 24)) = Ok (Moment (mkdt 2015 3 1 0 0 0 0)) /\ sub_late UHour 24 m = -86400 /\
  calculate Checked (Subtraction (Moment l) (Days 7)) = Ok (Moment (mkdt 2015 2 27 3 0 0 0)) /\ sub_late UDay 7 l = 3 * 86400 /\
  weekday_of l = 1 /\ weekday_of (mkdt 2015 2 27 3 0 0 0) = 4 /\
  calculate Checked (Subtraction (Moment k) (Days 7)) = Ok (Moment (mkdt 2015 4 27 3 0 0 0)) /\ sub_late UDay 7 k = 86400 /\
  calculate Checked (Subtraction (Moment j) (Days 14)) = Ok (Moment (mkdt 2015 3 6 3 0 0 0)) /\ sub_late UDay 14 j = 0 /\
  weekday_of j = 4 /\ weekday_of (mkdt 2015 3 6 3 0 0 0) = 4.
Proof. vm_compute. repeat split; discriminate. Qed.
