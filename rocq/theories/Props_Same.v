(** Amounts written in different units (C111). *)
Require Import ZArith Bool List Lia.
From Verif Require Import Prelude Spec Chrono TimeType Iter SpecTree SpecMoment SpecIter SpecWide SameProofs.
Local Open Scope Z_scope.

(** C111. The full statement: for all valid [m] and amounts [x], [y] of the same number of
    seconds, [m + x = m + y], [m - x = m - y], and the iterations by [x] and by [y] agree.
    It is false for differences, for negative amounts and for months. *)
Theorem C111_refuted :
  (let m := mkdt 2016 5 5 10 30 0 0 in dt_valid m = true /\
    calculate Checked (Subtraction (Moment m) (Minutes 1)) = Ok (Moment (mkdt 2016 5 5 10 29 0 0)) /\
    calculate Checked (Subtraction (Moment m) (Seconds 60)) = Ok (Moment (mkdt 2016 5 5 10 28 0 0))) /\
  (let m := mkdt 2016 5 5 10 30 7 0 in dt_valid m = true /\
    calculate Checked (Addition (Moment m) (Minutes (-1))) = Ok (Moment (mkdt 2016 5 5 10 29 7 0)) /\
    oob (calculate Checked (Addition (Moment m) (Seconds (-60))))) /\
  (let m := mkdt 2016 1 31 0 0 0 0 in dt_valid m = true /\
    calculate Checked (Addition (Moment m) (Years 1)) = Ok (Moment (mkdt 2017 1 31 0 0 0 0)) /\
    calculate Checked (Addition (Moment m) (Months 12)) = Ok (Moment (mkdt 2017 2 1 0 0 0 0)) /\
    calculate Checked (Addition (Moment m) (Days 30)) = Ok (Moment (mkdt 2016 3 1 0 0 0 0)) /\
    calculate Checked (Addition (Moment m) (Months 1)) = Ok (Moment (mkdt 2016 3 2 0 0 0 0))).
Proof. vm_compute. repeat split; repeat eexists. Qed.
Print Assumptions C111_refuted.

(** Sums with seconds, minutes, hours and days are the same, whether they succeed or fail. *)
Theorem C111_add_partial : forall md m u v a b, dt_valid m = true -> clock_unit u = true -> clock_unit v = true -> 0 <= a -> 0 <= b ->
  a * unit_secs u = b * unit_secs v -> field u m + a <= i64_max -> field v m + b <= i64_max ->
  calculate md (Addition (Moment m) (mk u a)) = calculate md (Addition (Moment m) (mk v b)).
Proof. exact same_add. Qed.
Print Assumptions C111_add_partial.
Example C111_add_case : let m := mkdt 2016 12 30 23 59 1 0 in dt_valid m = true /\ 172800 * unit_secs USec = 2 * unit_secs UDay /\
  calculate Checked (Addition (Moment m) (Seconds 172800)) = Ok (Moment (mkdt 2017 1 1 23 59 1 0)) /\
  calculate Checked (Addition (Moment m) (Days 2)) = Ok (Moment (mkdt 2017 1 1 23 59 1 0)) /\
  (let m := mkdt 2016 12 31 23 59 1 0 in
   calculate Checked (Addition (Moment m) (Hours (24 * 60))) = Err (OutOfBounds 2017 2 23 23 59 1) /\
   calculate Checked (Addition (Moment m) (Days 60)) = Err (OutOfBounds 2017 2 23 23 59 1)).
Proof. vm_compute. repeat split. Qed.

(** And so are all items of the iterations. *)
Theorem C111_items_partial : forall md m u v a b it it' k, dt_valid m = true -> clock_unit u = true -> clock_unit v = true -> 0 <= a -> 0 <= b ->
  a * unit_secs u = b * unit_secs v -> a + 60 <= i64_max -> b + 60 <= i64_max -> build m (mk u a) = Ok it -> build m (mk v b) = Ok it' ->
  nth_item (iter_next md) k it = nth_item (iter_next md) k it'.
Proof. exact same_items. Qed.
Print Assumptions C111_items_partial.
Example C111_items_case : let m := mkdt 2016 12 30 12 0 0 5 in
  build m (mk UMin 1440) = Ok (mkiter (Moment m) (Minutes 1440) false) /\ build m (mk UDay 1) = Ok (mkiter (Moment m) (Days 1) false) /\
  nth_item (iter_next Checked) 3 (mkiter (Moment m) (Minutes 1440) false) = Some (Ok (Moment (mkdt 2017 1 2 12 0 0 0))) /\
  nth_item (iter_next Checked) 3 (mkiter (Moment m) (Days 1) false) = Some (Ok (Moment (mkdt 2017 1 2 12 0 0 0))).
Proof. vm_compute. repeat split. Qed.

(** Negative amounts: where the coarser unit succeeds, the finer one gives the same if and only
    if the fields from the finer unit up to the coarser one are zero. *)
Theorem C111_negative_exactly_partial : forall md m u v a b m', dt_valid m = true -> clock_unit u = true -> clock_unit v = true -> unit_secs u < unit_secs v ->
  i64_min <= a < 0 -> a * unit_secs u = b * unit_secs v ->
  calculate md (Addition (Moment m) (mk v b)) = Ok (Moment m') ->
  (calculate md (Addition (Moment m) (mk u a)) = Ok (Moment m') <-> sod m mod unit_secs v < unit_secs u).
Proof. exact same_add_negative. Qed.
Print Assumptions C111_negative_exactly_partial.
Example C111_negative_exactly_case : let m := mkdt 2016 5 5 10 0 40 0 in dt_valid m = true /\ unit_secs UMin < unit_secs UHour /\ sod m mod unit_secs UHour < unit_secs UMin /\
  calculate Checked (Addition (Moment m) (Hours (-3))) = Ok (Moment (mkdt 2016 5 5 7 0 40 0)) /\
  calculate Checked (Addition (Moment m) (Minutes (-180))) = Ok (Moment (mkdt 2016 5 5 7 0 40 0)) /\
  oob (calculate Checked (Addition (Moment m) (Seconds (-10800)))).
Proof. vm_compute. repeat split; repeat eexists. Qed.

(** Differences: where the coarser unit succeeds, the finer one gives the same only for nothing,
    or for one of the next unit from a moment whose field is not zero. *)
Theorem C111_sub_exactly_partial : forall md m u v a b m', dt_valid m = true -> clock_unit u = true -> clock_unit v = true -> unit_secs u < unit_secs v ->
  0 <= a < period u -> a * unit_secs u = b * unit_secs v ->
  calculate md (Subtraction (Moment m) (mk v b)) = Ok (Moment m') ->
  (calculate md (Subtraction (Moment m) (mk u a)) = Ok (Moment m') <-> a = 0 \/ a = modulus u /\ 0 < field u m).
Proof. exact same_sub. Qed.
Print Assumptions C111_sub_exactly_partial.
Example C111_sub_exactly_case : let m := mkdt 2016 5 5 10 30 7 0 in dt_valid m = true /\ 60 = modulus USec /\ 0 < field USec m /\
  calculate Checked (Subtraction (Moment m) (Minutes 1)) = Ok (Moment (mkdt 2016 5 5 10 29 7 0)) /\
  calculate Checked (Subtraction (Moment m) (Seconds 60)) = Ok (Moment (mkdt 2016 5 5 10 29 7 0)) /\
  calculate Checked (Subtraction (Moment m) (Minutes 2)) = Ok (Moment (mkdt 2016 5 5 10 28 7 0)) /\
  oob (calculate Checked (Subtraction (Moment m) (Seconds 120))).
Proof. vm_compute. repeat split; repeat eexists. Qed.

(** Twelve months and a year. *)
Theorem C111_years_exactly_partial : forall md m n, dt_valid m = true -> 0 <= n -> month m + 12 * n < i64_max ->
  (calculate md (Addition (Moment m) (Months (12 * n))) = calculate md (Addition (Moment m) (Years n)) <->
   n = 0 \/ day m <= 30 /\ ~ (month m = 2 /\ day m = 29 /\ leap (wrap32 (year m + n)) = false)).
Proof. exact same_months_years. Qed.
Print Assumptions C111_years_exactly_partial.
Theorem C111_sub_years_exactly_partial : forall md m n m', dt_valid m = true -> 0 <= n -> 12 * n < period UMonth ->
  calculate md (Subtraction (Moment m) (Years n)) = Ok (Moment m') ->
  (calculate md (Subtraction (Moment m) (Months (12 * n))) = Ok (Moment m') <-> n <= 1).
Proof. exact same_months_years_sub. Qed.
Print Assumptions C111_sub_years_exactly_partial.
Example C111_years_exactly_case : let m := mkdt 2016 2 29 1 2 3 4 in dt_valid m = true /\
  calculate Checked (Addition (Moment m) (Months 48)) = calculate Checked (Addition (Moment m) (Years 4)) /\
  calculate Checked (Addition (Moment m) (Years 1)) = Ok (Moment (mkdt 2017 3 1 1 2 3 0)) /\ oob (calculate Checked (Addition (Moment m) (Months 12))) /\
  (let m := mkdt 2016 5 31 1 2 3 4 in dt_valid m = true /\ calculate Checked (Subtraction (Moment m) (Years 2)) = Ok (Moment (mkdt 2014 5 31 1 2 3 0)) /\
   calculate Checked (Subtraction (Moment m) (Months 12)) = Ok (Moment (mkdt 2015 5 31 1 2 3 0)) /\
   calculate Checked (Subtraction (Moment m) (Years 1)) = Ok (Moment (mkdt 2015 5 31 1 2 3 0))).
Proof. vm_compute. repeat split; repeat eexists. Qed.
(** Two years are not 24 months: the subtraction of those fails. *)
Example C111_sub_years_exactly_case : let m := mkdt 2016 5 31 1 2 3 4 in
  calculate Checked (Subtraction (Moment m) (Months 24)) <> calculate Checked (Subtraction (Moment m) (Years 2)).
Proof.
  cbv zeta. assert (R : calculate Checked (Subtraction (Moment (mkdt 2016 5 31 1 2 3 4)) (Years 2)) = Ok (Moment (mkdt 2014 5 31 1 2 3 0))) by (vm_compute; reflexivity).
  rewrite R. intro X. apply (C111_sub_years_exactly_partial Checked (mkdt 2016 5 31 1 2 3 4) 2 (mkdt 2014 5 31 1 2 3 0) eq_refl ltac:(lia) eq_refl R) in X. lia.
Qed.
