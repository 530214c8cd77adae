(** The moments an addition can reach (C115). *)
Require Import ZArith Bool List Lia.
From Verif Require Import Prelude Spec Chrono TimeType SpecTree SpecMoment SpecExact SpecReach ReachProofs.
Local Open Scope Z_scope.

(** C115. Every moment is reached from every earlier one by two additions of seconds. *)
Theorem C115_two : forall md m m', dt_valid m = true -> dt_valid m' = true -> nano m' = 0 -> inst m <= inst m' ->
  exists a b, 0 <= a /\ 0 <= b /\ calculate md (Addition (Addition (Moment m) (Seconds a)) (Seconds b)) = Ok (Moment m').
Proof. exact reach_two. Qed.
Print Assumptions C115_two.
(** 31 January 2017 at 9 o'clock from 31 December 2016 at 10: 14 hours, and 30 days and 9 hours. *)
Example C115_two_case : let m := mkdt 2016 12 31 10 0 0 0 in let m' := mkdt 2017 1 31 9 0 0 0 in dt_valid m = true /\ dt_valid m' = true /\ inst m <= inst m' /\
  calculate Checked (Addition (Addition (Moment m) (Seconds 50400)) (Seconds 2624400)) = Ok (Moment m') /\
  calculate Checked (Addition (Moment m) (Seconds (50400 + 2624400))) = Ok (Moment (mkdt 2017 2 1 9 0 0 0)).
Proof. vm_compute. repeat split; discriminate. Qed.

(** By one addition exactly those of the same year, and those that are not on a 31st, if the smaller fields agree. *)
Theorem C115_one : forall md m u m', dt_valid m = true -> dt_valid m' = true -> nano m' = 0 -> inst m <= inst m' -> clock_unit u = true ->
  ((exists n, 0 <= n /\ field u m + n <= i64_max /\ calculate md (Addition (Moment m) (mk u n)) = Ok (Moment m')) <->
   on_way m m' /\ (sod m' - sod m) mod unit_secs u = 0).
Proof. exact reach_some. Qed.
Print Assumptions C115_one.
(** From 31 December 2016 at 10, hours reach 30 January at 9, and no amount of seconds reaches the 31st. *)
Example C115_one_case : let m := mkdt 2016 12 31 10 0 0 0 in dt_valid m = true /\ dt_valid (mkdt 2017 1 30 9 0 0 0) = true /\
  inst m <= inst (mkdt 2017 1 30 9 0 0 0) /\ on_way m (mkdt 2017 1 30 9 0 0 0) /\ ~ on_way m (mkdt 2017 1 31 9 0 0 0) /\
  (sod (mkdt 2017 1 30 9 0 0 0) - sod m) mod unit_secs UHour = 0 /\
  calculate Checked (Addition (Moment m) (Hours 719)) = Ok (Moment (mkdt 2017 1 30 9 0 0 0)).
Proof. unfold on_way. vm_compute. repeat split; try discriminate; [right; discriminate|]. intros [H|H]; [discriminate H|apply H; reflexivity]. Qed.

(** The amount that has to be added, exactly. *)
Theorem C115_amount : forall md m u n m', dt_valid m = true -> clock_unit u = true -> 0 <= n -> n * unit_secs u <= span32 ->
  (calculate md (Addition (Moment m) (mk u n)) = Ok (Moment m') <->
   dt_valid m' = true /\ nano m' = 0 /\ inst m <= inst m' /\ on_way m m' /\ n * unit_secs u = way m m').
Proof. exact reach_iff. Qed.
Print Assumptions C115_amount.
Theorem C115_amount_tree : forall md m t m', dt_valid m = true -> tt_ok t = true -> amount_only t = true -> abs_secs t <= i64_max ->
  clock_unit (finest t) = true -> 0 <= secs t <= span32 ->
  (calculate md (Addition (Moment m) t) = Ok (Moment m') <->
   dt_valid m' = true /\ nano m' = 0 /\ inst m <= inst m' /\ on_way m m' /\ secs t = way m m').
Proof. exact reach_tree. Qed.
Print Assumptions C115_amount_tree.
(** Within 2016, which is a leap year; and to 2019, 1 + 720 + 30 + 4 days from 30 December 2016. *)
Example C115_amount_case : let m := mkdt 2016 12 30 5 0 0 0 in let m' := mkdt 2019 2 5 5 0 0 0 in dt_valid m = true /\ dt_valid m' = true /\ inst m <= inst m' /\
  on_way m m' /\ way m m' = 86400 * (1 + 720 + 30 + 5) /\ way (mkdt 2016 2 1 5 0 0 0) (mkdt 2016 3 1 6 0 0 0) = 86400 * 29 + 3600 /\
  calculate Checked (Addition (Moment m) (mk UDay 756)) = Ok (Moment m') /\
  secs (Addition (Days 755) (Hours 24)) = way m m' /\ calculate Checked (Addition (Moment m) (Addition (Days 755) (Hours 24))) = Ok (Moment m').
Proof. unfold on_way. vm_compute. repeat split; try discriminate. right. discriminate. Qed.

(** The moments reached by adding months, and by adding years. *)
Theorem C115_months : forall md m m', dt_valid m = true -> dt_valid m' = true -> nano m' = 0 ->
  ((exists n, 0 <= n <= 2147483648 /\ calculate md (Addition (Moment m) (Months n)) = Ok (Moment m')) <->
   month_index m <= month_index m' /\ sod m' = sod m /\ month_day m m').
Proof. exact reach_months. Qed.
Print Assumptions C115_months.
Theorem C115_years : forall md m m', dt_valid m = true -> dt_valid m' = true -> nano m' = 0 ->
  ((exists n, 0 <= n <= 2147483648 /\ calculate md (Addition (Moment m) (Years n)) = Ok (Moment m')) <->
   year m <= year m' /\ sod m' = sod m /\ year_day m m').
Proof. exact reach_years. Qed.
Print Assumptions C115_years.
(** From 31 January 2016: 31 March and 2 March of the year, 1 April 2017 and not 31 March 2017.  From 29 February: 1 March 2017. *)
Example C115_dates_case : let m := mkdt 2016 1 31 5 0 0 0 in dt_valid m = true /\
  month_day m (mkdt 2016 3 31 5 0 0 0) /\ month_day m (mkdt 2016 3 2 5 0 0 0) /\ month_day m (mkdt 2017 4 1 5 0 0 0) /\ ~ month_day m (mkdt 2017 3 31 5 0 0 0) /\
  calculate Checked (Addition (Moment m) (Months 2)) = Ok (Moment (mkdt 2016 3 31 5 0 0 0)) /\
  calculate Checked (Addition (Moment m) (Months 1)) = Ok (Moment (mkdt 2016 3 2 5 0 0 0)) /\
  calculate Checked (Addition (Moment m) (Months 14)) = Ok (Moment (mkdt 2017 4 1 5 0 0 0)) /\
  year_day (mkdt 2016 2 29 0 0 0 0) (mkdt 2017 3 1 0 0 0 0) /\
  calculate Checked (Addition (Moment (mkdt 2016 2 29 0 0 0 0)) (Years 1)) = Ok (Moment (mkdt 2017 3 1 0 0 0 0)).
Proof.
  unfold month_day, year_day. cbn [year month day Z.eqb Pos.eqb]. repeat split; try (vm_compute; reflexivity).
  - left. reflexivity.
  - right. split; reflexivity.
  - right. repeat split.
  - intros [[H _]|(_ & H & _)]; [apply H; reflexivity|discriminate H].
  - right. repeat split.
Qed.
