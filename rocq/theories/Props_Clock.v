(** Properties C66 and C67: turns of the loops of util.rs; the repository tests that read the clock. *)
Require Import ZArith Bool List.
From Verif Require Import Prelude Spec Chrono Util TimeType Iter SpecTree SpecMoment SpecIter SpecAdapt SpecSeq SpecCost CostProofs ClockProofs.
Import ListNotations.
Local Open Scope Z_scope.

(** ** C66: cost of an addition *)
(** Each turn of the month loop takes off 28 to 31 days, so the number of turns is linear in the day count. *)
Theorem C66_month_loop : forall E md y d mo, 1 <= d <= i64_max -> i64_min <= mo -> mo + d <= i64_max ->
  let c := fun st : Z * Z => let '(d, mo) := st in get_num_of_days_in_month y mo <? d in
  let f := fun st : Z * Z => let '(d, mo) := st in
    do d' <- @subc E md (Ok d) (Ok (get_num_of_days_in_month y mo)); do mo' <- addc md (Ok mo) (Ok 1); Ok (d', mo') in
  month_loop md y d mo = while c f (d, mo) /\
  exists k, turns c f (d, mo) k /\ (d - 1) / 31 <= Z.of_nat k <= (d - 1) / 28.
Proof. exact @months_cost. Qed.
Print Assumptions C66_month_loop.
Theorem C66_year_loop : forall E md y mo, 1 <= mo <= i64_max -> i64_min <= y -> y + (mo - 1) / 12 <= i64_max ->
  let c := fun st : Z * Z => let '(y, mo) := st in 12 <? mo in
  let f := fun st : Z * Z => let '(y, mo) := st in
    do y' <- @addc E md (Ok y) (Ok 1); do mo' <- subc md (Ok mo) (Ok 12); Ok (y', mo') in
  year_loop md y mo = while c f (y, mo) /\
  exists k, turns c f (y, mo) k /\ Z.of_nat k = (mo - 1) / 12.
Proof. exact @years_cost. Qed.
Print Assumptions C66_year_loop.
Theorem C66_turns_unique : forall E S (c : S -> bool) (f : S -> outcome E S) s k, turns c f s k -> forall k', turns c f s k' -> k = k'.
Proof. exact @turns_unique. Qed.
Print Assumptions C66_turns_unique.
(** 100 days from January of a common year: three turns; 30 months: two. *)
Example C66_month_case : @month_loop kek Checked 2021 100 1 = Ok (10, 4) /\ (100 - 1) / 31 = 3 /\ (100 - 1) / 28 = 3.
Proof. repeat split; vm_compute; reflexivity. Qed.
Example C66_year_case : @year_loop kek Checked 2021 30 = Ok (2023, 6) /\ (30 - 1) / 12 = 2.
Proof. repeat split; vm_compute; reflexivity. Qed.
(** The lower bound for half of the largest amount of days. *)
Example C66_month_max : (i64_max / 2 - 1) / 31 = 148764065110560900.
Proof. vm_compute. reflexivity. Qed.

(** ** C67: src/iter.rs 567-627, for two readings of the clock [now1] and [now2] *)
Theorem C67_test_until_1 : forall md now1 now2, dt_valid now1 = true -> dt_valid now2 = true ->
  inst now1 <= inst now2 < inst now1 + 86400 -> inst now2 + 86400 < instant (max_year + 1) 1 1 0 0 0 ->
  exists e it l, calculate md (op_add (today now1) (days 1)) = Ok (Moment e) /\ daily (today now2) 1 = Ok it /\
    collects (until_next md (iter_next md) e) it l /\ length l = 1%nat.
Proof. exact test_until_1_ok. Qed.
Print Assumptions C67_test_until_1.
Theorem C67_test_until_2 : forall md now1 now2, dt_valid now1 = true -> dt_valid now2 = true ->
  inst now1 <= inst now2 < inst now1 + 3600 -> inst now2 + 2 * 86400 < instant (max_year + 1) 1 1 0 0 0 ->
  exists e it l, calculate md (op_add (today now1) (days 2)) = Ok (Moment e) /\ hourly (today now2) 1 = Ok it /\
    collects (until_next md (iter_next md) e) it l /\ length l = 48%nat.
Proof. exact test_until_2_ok. Qed.
Print Assumptions C67_test_until_2.
(** Full statement of test_until, refuted below: the list is empty for every reading of the clock. *)
Theorem C67_test_until_partial : forall md now1 now2 y, dt_valid now1 = true -> dt_valid now2 = true -> inst now1 <= inst now2 ->
  calculate md (op_sub (today now1) (days 1)) = Ok (Moment y) ->
  exists it, daily (today now2) 1 = Ok it /\ collects (until_next md (iter_next md) y) it nil.
Proof. exact test_until_when_ok. Qed.
Print Assumptions C67_test_until_partial.
(** The readings for which the hypothesis on [y] holds, that is `unwrap()` in test_until does not panic. *)
Theorem C67_yesterday : forall md m, dt_valid m = true ->
  (exists y, calculate md (op_sub (today m) (days 1)) = Ok (Moment y)) <->
  1 < day m \/ (let '(py, pm) := prev_month (year m) (month m) in month_length py pm = 31 /\ min_year <= py).
Proof. exact yesterday_fails. Qed.
Print Assumptions C67_yesterday.
Theorem C67_test_until_refuted :
  calculate Checked (op_sub (today (mkdt 2018 3 1 9 0 0 0)) (days 1)) = Err (OutOfBounds 2018 2 9 9 0 0).
Proof. vm_compute. reflexivity. Qed.
Print Assumptions C67_test_until_refuted.
Example C67_until_1_case :
  let now := mkdt 2018 3 31 23 59 59 5 in
  let e := mkdt 2018 4 1 23 59 59 0 in
  calculate Checked (op_add (today now) (days 1)) = Ok (Moment e) /\
  items (until_next Checked (iter_next Checked) e) 2 (mkiter (Moment now) (Days 1) false) = [Some (Ok (Moment now)); None].
Proof. split; vm_compute; reflexivity. Qed.
Example C67_until_2_case :
  let now := mkdt 2018 12 31 23 59 59 5 in
  let e := mkdt 2019 1 2 23 59 59 0 in
  calculate Checked (op_add (today now) (days 2)) = Ok (Moment e) /\
  nth_item (until_next Checked (iter_next Checked) e) 47 (mkiter (Moment now) (Hours 1) false) = Some (Ok (Moment (mkdt 2019 1 2 22 59 59 0))) /\
  nth_item (until_next Checked (iter_next Checked) e) 48 (mkiter (Moment now) (Hours 1) false) = None.
Proof. repeat split; vm_compute; reflexivity. Qed.
Example C67_until_case :
  calculate Checked (op_sub (today (mkdt 2018 1 1 9 0 0 7)) (days 1)) = Ok (Moment (mkdt 2017 12 31 9 0 0 0)) /\
  nth_item (until_next Checked (iter_next Checked) (mkdt 2017 12 31 9 0 0 0)) 0 (mkiter (Moment (mkdt 2018 1 1 9 0 0 9)) (Days 1) false) = None.
Proof. split; vm_compute; reflexivity. Qed.
