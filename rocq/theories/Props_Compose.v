(** Properties C72-C75: direction of iteration, combinations of adapters, chains of additions, filters as matchers. *)
Require Import ZArith Bool List Permutation.
From Verif Require Import Prelude Spec Chrono TimeType Matcher Iter SpecTree SpecMoment SpecIter SpecAdapt SpecSeq SeqProofs2 ComposeProofs KindProofs.
Import ListNotations.
Local Open Scope Z_scope.

(** 31 October 2020, 12:30:45 *)
Definition oct31 : datetime := mkdt 2020 10 31 12 30 45 0.
Definition from_oct31 (inc : timetype) : iter := mkiter (Moment oct31) inc false.

(** ** C72: items move in the direction of the step *)
Theorem C72_increasing : forall md m u n it j k a b, build m (mk u n) = Ok it -> dt_valid m = true -> 0 < n -> n * unit_secs u <= span32 ->
  (j < k)%nat -> nth_item (iter_next md) j it = Some (Ok (Moment a)) -> nth_item (iter_next md) k it = Some (Ok (Moment b)) -> inst a < inst b.
Proof. exact items_increase. Qed.
Print Assumptions C72_increasing.
Theorem C72_decreasing : forall md m u n it j k a b, build m (mk u n) = Ok it -> dt_valid m = true -> -2147483648 <= n < 0 ->
  (j < k)%nat -> nth_item (iter_next md) j it = Some (Ok (Moment a)) -> nth_item (iter_next md) k it = Some (Ok (Moment b)) -> inst b < inst a.
Proof. exact items_decrease. Qed.
Print Assumptions C72_decreasing.
(** until() cuts off nothing that is before the end; going backwards from before the end it never stops. *)
Theorem C72_until_misses_nothing : forall md m u n it ending K, build m (mk u n) = Ok it -> dt_valid m = true -> 0 < n -> n * unit_secs u <= span32 ->
  dt_valid ending = true -> nth_item (until_next md (iter_next md) ending) K it = None ->
  forall j a, (K <= j)%nat -> nth_item (iter_next md) j it = Some (Ok (Moment a)) -> ~ before a ending.
Proof. exact until_misses_nothing. Qed.
Print Assumptions C72_until_misses_nothing.
Theorem C72_until_backward : forall md m u n it ending k, build m (mk u n) = Ok it -> dt_valid m = true -> -2147483648 <= n < 0 ->
  dt_valid ending = true -> before m ending -> nth_item (until_next md (iter_next md) ending) k it <> None.
Proof. exact until_backward. Qed.
Print Assumptions C72_until_backward.
Example C72_increasing_case :
  build oct31 (mk UMonth 4) = Ok (from_oct31 (Months 4)) /\
  items (iter_next Checked) 4 (from_oct31 (Months 4)) = [Some (Ok (Moment oct31)); Some (Ok (Moment (mkdt 2021 3 1 12 30 45 0)));
    Some (Ok (Moment (mkdt 2021 7 1 12 30 45 0))); Some (Ok (Moment (mkdt 2021 11 1 12 30 45 0)))].
Proof. split; vm_compute; reflexivity. Qed.
Example C72_decreasing_case :
  items (iter_next Checked) 4 (from_oct31 (Days (-15))) = [Some (Ok (Moment oct31)); Some (Ok (Moment (mkdt 2020 10 16 12 30 45 0)));
    Some (Ok (Moment (mkdt 2020 10 1 12 30 45 0))); Some (Err (OutOfBounds 2020 10 12 12 30 45))].
Proof. vm_compute. reflexivity. Qed.
Example C72_until_case :
  let e := mkdt 2021 5 1 0 0 0 0 in
  nth_item (until_next Checked (iter_next Checked) e) 2 (from_oct31 (Months 4)) = None /\
  nth_item (until_next Checked (iter_next Checked) e) 2 (from_oct31 (Days (-15))) = Some (Ok (Moment (mkdt 2020 10 1 12 30 45 0))) /\
  nth_item (until_next Checked (iter_next Checked) e) 9 (from_oct31 (Days (-15))) = Some (Err (OutOfBounds 2020 10 12 12 30 45)) /\ before oct31 e.
Proof. repeat split; try (left; vm_compute; reflexivity); vm_compute; reflexivity. Qed.

(** ** C73: adapters on top of each other *)
(** until() and times() commute, over any inner iterator. *)
Theorem C73_until_times : forall md S (nx : next_fn S) ending n k s,
  nth_item (until_next md (times_next md nx) ending) k (times_new s n) = nth_item (times_next md (until_next md nx ending)) k (times_new s n).
Proof. exact until_times. Qed.
Print Assumptions C73_until_times.
Theorem C73_until_until : forall md S (nx : next_fn S) e1 e2 k s, dt_valid e1 = true -> dt_valid e2 = true -> before e1 e2 \/ e1 = e2 ->
  nth_item (until_next md (until_next md nx e2) e1) k s = nth_item (until_next md nx e1) k s /\
  nth_item (until_next md (until_next md nx e1) e2) k s = nth_item (until_next md nx e1) k s.
Proof. exact until_until. Qed.
Print Assumptions C73_until_until.
Theorem C73_times_times : forall md S (nx : next_fn S) a b k s, in_i64 a = true -> in_i64 b = true -> 0 <= a -> 0 <= b ->
  nth_item (times_next md (times_next md nx)) k (times_new (times_new s a) b) = nth_item (times_next md nx) k (times_new s (Z.min a b)).
Proof. exact times_times. Qed.
Print Assumptions C73_times_times.
(** every() and without() commute with until() on forward iteration, if some item after the end is let through
    (otherwise the filter under until() goes on for ever: C44_every_diverges).  [L] is what until() alone collects. *)
Theorem C73_every_until : forall md m u n it ending (mt : matcher) g L fuel j d,
  build m (mk u n) = Ok it -> dt_valid m = true -> 0 < n -> n * unit_secs u <= span32 -> dt_valid ending = true ->
  (forall d, mt (Moment d) = Ok (g d)) -> collects (until_next md (iter_next md) ending) it L ->
  (length L <= j < fuel)%nat -> nth_item (iter_next md) j it = Some (Ok (Moment d)) -> g d = true ->
  collects (filter_next (until_next md (iter_next md) ending) fuel mt) it (filter (moment_is g) L) /\
  collects (until_next md (filter_next (iter_next md) fuel mt) ending) it (filter (moment_is g) L).
Proof. exact every_until_commute. Qed.
Print Assumptions C73_every_until.
Theorem C73_without_until : forall md m u n it ending (mt : matcher) g L fuel j d,
  build m (mk u n) = Ok it -> dt_valid m = true -> 0 < n -> n * unit_secs u <= span32 -> dt_valid ending = true ->
  (forall d, mt (Moment d) = Ok (g d)) -> collects (until_next md (iter_next md) ending) it L ->
  (length L <= j < fuel)%nat -> nth_item (iter_next md) j it = Some (Ok (Moment d)) -> g d = false ->
  collects (without_next (until_next md (iter_next md) ending) fuel mt) it (filter (moment_is (fun d => negb (g d))) L) /\
  collects (until_next md (without_next (iter_next md) fuel mt) ending) it (filter (moment_is (fun d => negb (g d))) L).
Proof. exact without_until_commute. Qed.
Print Assumptions C73_without_until.
Example C73_until_times_case :
  let e := mkdt 2020 11 2 0 0 0 0 in
  items (until_next Checked (times_next Checked (iter_next Checked)) e) 3 (times_new (from_oct31 (Days 1)) 7) =
    [Some (Ok (Moment oct31)); Some (Ok (Moment (mkdt 2020 11 1 12 30 45 0))); None] /\
  items (times_next Checked (until_next Checked (iter_next Checked) e)) 3 (times_new (from_oct31 (Days 1)) 7) =
    [Some (Ok (Moment oct31)); Some (Ok (Moment (mkdt 2020 11 1 12 30 45 0))); None] /\
  nth_item (until_next Checked (until_next Checked (iter_next Checked) (mkdt 2020 11 5 0 0 0 0)) e) 2 (from_oct31 (Days 1)) = None /\
  nth_item (times_next Checked (times_next Checked (iter_next Checked))) 2 (times_new (times_new (from_oct31 (Days 1)) 2) 9) = None.
Proof. repeat split; vm_compute; reflexivity. Qed.
(** Sundays before 10 November, one day at a time; 15 November shows that the filter under until() stops. *)
Example C73_every_until_case :
  let e := mkdt 2020 11 10 0 0 0 0 in
  let it := from_oct31 (Days 1) in
  nth_item (until_next Checked (iter_next Checked) e) 10 it = None /\
  nth_item (iter_next Checked) 15 it = Some (Ok (Moment (mkdt 2020 11 15 12 30 45 0))) /\
  items (filter_next (until_next Checked (iter_next Checked) e) 16 (day_matches Sunday)) 3 it =
    [Some (Ok (Moment (mkdt 2020 11 1 12 30 45 0))); Some (Ok (Moment (mkdt 2020 11 8 12 30 45 0))); None] /\
  items (until_next Checked (filter_next (iter_next Checked) 16 (day_matches Sunday)) e) 3 it =
    [Some (Ok (Moment (mkdt 2020 11 1 12 30 45 0))); Some (Ok (Moment (mkdt 2020 11 8 12 30 45 0))); None].
Proof. repeat split; vm_compute; reflexivity. Qed.
Example C73_without_until_case :
  let e := mkdt 2020 11 2 0 0 0 0 in
  items (without_next (until_next Checked (iter_next Checked) e) 4 (day_matches Sunday)) 2 (from_oct31 (Days 1)) = [Some (Ok (Moment oct31)); None] /\
  items (until_next Checked (without_next (iter_next Checked) 4 (day_matches Sunday)) e) 2 (from_oct31 (Days 1)) = [Some (Ok (Moment oct31)); None].
Proof. split; vm_compute; reflexivity. Qed.

(** ** C74: chains of additions *)
Theorem C74_clock : forall md m l, dt_valid m = true -> Forall clock_amount l -> l <> [] -> inst m + sum_secs l < instant (max_year + 1) 1 1 0 0 0 ->
  exists m', calculate md (chain (Moment m) l) = Ok (Moment m') /\ dt_valid m' = true /\ nano m' = 0 /\ inst m' = inst m + sum_secs l.
Proof. exact chain_clock. Qed.
Print Assumptions C74_clock.
Theorem C74_order : forall md m l1 l2, dt_valid m = true -> Forall clock_amount l1 -> Permutation l1 l2 -> inst m + sum_secs l1 < instant (max_year + 1) 1 1 0 0 0 ->
  calculate md (chain (Moment m) l1) = calculate md (chain (Moment m) l2).
Proof. exact chain_order. Qed.
Print Assumptions C74_order.
Theorem C74_months : forall md m l, dt_valid m = true -> day m <= 28 -> l <> [] -> Forall (fun a => 0 <= a) l ->
  let i := year m * 12 + month m - 1 + fold_right Z.add 0 l in i / 12 <= max_year ->
  calculate md (chain (Moment m) (map Months l)) = Ok (Moment (in_month i (day m) m)).
Proof. exact chain_months. Qed.
Print Assumptions C74_months.
(** Days and months mixed: the order matters. *)
Theorem C74_mixed :
  calculate Checked (chain (Moment (mkdt 2021 2 28 0 0 0 0)) [Days 1; Months 1]) = Ok (Moment (mkdt 2021 4 1 0 0 0 0)) /\
  calculate Checked (chain (Moment (mkdt 2021 2 28 0 0 0 0)) [Months 1; Days 1]) = Ok (Moment (mkdt 2021 3 29 0 0 0 0)).
Proof. split; vm_compute; reflexivity. Qed.
Print Assumptions C74_mixed.
Example C74_case :
  let l := [Days 30; Subtraction (Days 29) (Hours 5); Seconds 15; Days 30; Minutes 90] in
  Forall clock_amount l /\ sum_secs l = 7677015 /\
  calculate Checked (chain (Moment oct31) l) = Ok (Moment (mkdt 2021 1 28 9 1 0 0)) /\
  calculate Checked (chain (Moment oct31) (rev l)) = Ok (Moment (mkdt 2021 1 28 9 1 0 0)).
Proof.
  split; [repeat constructor; vm_compute; first [reflexivity|discriminate]|]. split; [reflexivity|].
  split; vm_compute; reflexivity.
Qed.
Example C74_months_case : calculate Checked (chain (Moment (mkdt 2020 10 28 1 2 3 4)) (map Months [5; 0; 11; 30])) = Ok (Moment (mkdt 2024 8 28 1 2 3 0)).
Proof. vm_compute. reflexivity. Qed.

(** ** C75: filters as matchers (feature with-filters) *)
Theorem C75_day_filter : forall d m,
  filter_matches (day_filter d) (Moment m) = day_matches d (Moment m) /\ filter_matches (day_filter d) (Moment m) = is_a (Moment m) d.
Proof. exact day_filter_agrees. Qed.
Print Assumptions C75_day_filter.
Theorem C75_month_filter : forall mo m,
  filter_matches (month_filter mo) (Moment m) = month_matches mo (Moment m) /\ filter_matches (month_filter mo) (Moment m) = is_in (Moment m) mo.
Proof. exact month_filter_agrees. Qed.
Print Assumptions C75_month_filter.
(** On anything but a moment the filters say no where the matchers fail. *)
Theorem C75_not_a_moment : forall t d mo, (forall m, t <> Moment m) ->
  filter_matches (day_filter d) t = Ok false /\ filter_matches (month_filter mo) t = Ok false /\
  day_matches d t = Err (ArgumentErrorNotAMoment (name t)) /\ month_matches mo t = Err (ArgumentErrorNotAMoment (name t)).
Proof. exact kind_filters. Qed.
Print Assumptions C75_not_a_moment.
Theorem C75_every_without : forall S (nx : next_fn S) s m g f N f1 f2, (forall d, m (Moment d) = Ok (g d)) ->
  (forall k, (k < N)%nat -> nth_item nx k s = Some (Ok (Moment (f k)))) -> nth_item nx N s = None -> (N < f1)%nat -> (N < f2)%nat ->
  collects (without_next (filter_next nx f1 m) f2 m) s [].
Proof. exact every_without_nil. Qed.
Print Assumptions C75_every_without.
(** The tests of src/iter.rs 534-566 for every reading [now] of the clock. *)
Theorem C75_test_compile_skip : forall md now, dt_valid now = true -> forall d f1 f2,
  inst now + 19 * 86400 < instant (max_year + 1) 1 1 0 0 0 -> (20 < f1)%nat -> (20 < f2)%nat ->
  daily (today now) 1 = Ok (mkiter (Moment now) (Days 1) false) /\
  collects (without_next (filter_next (times_next md (iter_next md)) f1 (day_matches d)) f2 (day_matches d)) (times_new (mkiter (Moment now) (Days 1) false) 20) [].
Proof. exact test_compile_skip_ok. Qed.
Print Assumptions C75_test_compile_skip.
Theorem C75_test_compile : forall md now, dt_valid now = true -> forall fuel,
  inst now + 83 * 86400 < instant (max_year + 1) 1 1 0 0 0 -> (84 <= fuel)%nat ->
  exists f, (forall k, (k < 84)%nat -> dt_valid (f k) = true /\ inst (f k) = inst now + Z.of_nat k * 86400) /\
    let wanted := filter (fun x => (weekday (year x) (month x) (day x) =? 0) || (month x =? 1)) (map f (seq 0 84)) in
    (12 <= length wanted)%nat /\
    collects (times_next md (filter_next (iter_next md) fuel (filter_matches (fun t => day_filter Monday t || month_filter January t))))
      (times_new (mkiter (Moment now) (Days 1) false) 12)
      (firstn 12 (map (fun x => Ok (Moment x)) wanted)).
Proof. exact test_compile_ok. Qed.
Print Assumptions C75_test_compile.
Example C75_case :
  filter_matches (day_filter Saturday) (Moment oct31) = Ok true /\ filter_matches (day_filter Sunday) (Moment oct31) = Ok false /\
  filter_matches (month_filter October) (Moment oct31) = Ok true /\ filter_matches (month_filter May) (Moment oct31) = Ok false /\
  is_moment (Days 3) = false /\ day_matches Sunday (Days 3) = Err (ArgumentErrorNotAMoment (name (Days 3))).
Proof. repeat split; vm_compute; reflexivity. Qed.
Example C75_test_compile_skip_case :
  nth_item (times_next Checked (iter_next Checked)) 19 (times_new (from_oct31 (Days 1)) 20) = Some (Ok (Moment (mkdt 2020 11 19 12 30 45 0))) /\
  nth_item (times_next Checked (iter_next Checked)) 20 (times_new (from_oct31 (Days 1)) 20) = None /\
  nth_item (without_next (filter_next (times_next Checked (iter_next Checked)) 21 (day_matches Monday)) 21 (day_matches Monday)) 0
    (times_new (from_oct31 (Days 1)) 20) = None.
Proof. repeat split; vm_compute; reflexivity. Qed.
(** From 26 December 2020: Monday 28, then 1, 2, 3, 4 January and on. *)
Example C75_test_compile_case :
  items (filter_next (iter_next Checked) 84 (filter_matches (fun t => day_filter Monday t || month_filter January t))) 4 (mkiter (Moment (mkdt 2020 12 26 0 0 0 0)) (Days 1) false) =
    [Some (Ok (Moment (mkdt 2020 12 28 0 0 0 0))); Some (Ok (Moment (mkdt 2021 1 1 0 0 0 0))); Some (Ok (Moment (mkdt 2021 1 2 0 0 0 0))); Some (Ok (Moment (mkdt 2021 1 3 0 0 0 0)))].
Proof. vm_compute. reflexivity. Qed.
