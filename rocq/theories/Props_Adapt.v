(** Properties C41-C44 and C58: the iterator adapters. *)
Require Import ZArith Bool List Lia ZifyBool.
From Verif Require Import Prelude Spec Chrono TimeType Matcher Iter SpecTree SpecMoment SpecIter SpecAdapt
  AdapterProofs AdapterProofs2 AdapterProofs3 KindProofs.
Import ListNotations.
Local Open Scope Z_scope.

(** A small inner iterator for the examples: yields the list and then [None]. *)
Definition of_list : next_fn (list item) := fun l => match l with nil => (None, nil) | i :: l' => (i, l') end.
Definition fri : datetime := mkdt 2016 1 29 10 0 0 0.
Definition daily1 : iter := mkiter (Moment fri) (Days 1) false.

(** C41. times(n). *)
Theorem C41_passes : forall md S (nx : next_fn S) n s k, in_i64 n = true -> (n < 0 \/ Z.of_nat k < n) -> Z.of_nat k < i64_max ->
  nth_item (times_next md nx) k (times_new s n) = nth_item nx k s.
Proof. exact @times_pass. Qed.
Print Assumptions C41_passes.
Theorem C41_fused : forall md S (nx : next_fn S) n s k, in_i64 n = true -> 0 <= n -> n <= Z.of_nat k ->
  nth_item (times_next md nx) k (times_new s n) = None /\
  inner (after (times_next md nx) k (times_new s n)) = after nx (Z.to_nat n) s.
Proof. exact @times_done. Qed.
Print Assumptions C41_fused.
Theorem C41_negative_checked : forall S (nx : next_fn S) n s k, in_i64 n = true -> n < 0 -> i64_max <= Z.of_nat k ->
  nth_item (times_next Checked nx) k (times_new s n) = Some (Panic PArith).
Proof. exact times_neg_checked. Qed.
Print Assumptions C41_negative_checked.
Example C41_negative_case :
  nth_item (times_next Checked (iter_next Checked)) (Z.to_nat i64_max) (times_new daily1 (-1)) = Some (Panic PArith) /\
  nth_item (times_next Checked (iter_next Checked)) 3 (times_new daily1 (-1)) = Some (Ok (Moment (mkdt 2016 2 1 10 0 0 0))).
Proof.
  split; [|vm_compute; reflexivity].
  apply C41_negative_checked; [reflexivity|lia|]. rewrite Z2Nat.id; unfold i64_max; lia.
Qed.
(** Without overflow checks the count is read modulo 2^64. *)
Theorem C41_wrapping : forall S (nx : next_fn S) n s, in_i64 n = true ->
  let N := n mod 18446744073709551616 in
  (forall k, Z.of_nat k < N -> nth_item (times_next Wrapping nx) k (times_new s n) = nth_item nx k s) /\
  (forall k, N <= Z.of_nat k -> nth_item (times_next Wrapping nx) k (times_new s n) = None).
Proof. exact times_wrap. Qed.
Print Assumptions C41_wrapping.
Example C41_wrapping_case : -1 mod 18446744073709551616 = 18446744073709551615 /\
  nth_item (times_next Wrapping (iter_next Wrapping)) (Z.to_nat 18446744073709551615) (times_new daily1 (-1)) = None /\
  nth_item (times_next Wrapping (iter_next Wrapping)) 2 (times_new daily1 2) = None.
Proof.
  split; [reflexivity|]. split; [|vm_compute; reflexivity].
  apply (C41_wrapping _ (iter_next Wrapping) (-1)); [reflexivity|]. rewrite Z2Nat.id; change (-1 mod 18446744073709551616) with 18446744073709551615; lia.
Qed.
Example C41_case :
  items (times_next Checked (iter_next Checked)) 4 (times_new daily1 2) =
    [Some (Ok (Moment fri)); Some (Ok (Moment (mkdt 2016 1 30 10 0 0 0))); None; None] /\
  items (times_next Checked (iter_next Checked)) 2 (times_new (mkiter (Moment (mkdt 2016 12 30 0 0 0 0)) (Months 2) false) 5) =
    [Some (Ok (Moment (mkdt 2016 12 30 0 0 0 0))); Some (Err (OutOfBounds 2017 2 0 0 0 0))] /\
  in_i64 (-1) = true /\ -1 mod 18446744073709551616 = 18446744073709551615.
Proof. vm_compute. repeat split. Qed.

(** C42. until(end), over any inner iterator. *)
Theorem C42_moment : forall md S (nx : next_fn S) ending k s t m, dt_valid m = true -> dt_valid ending = true ->
  nth_item nx k s = Some (Ok t) -> calculate md t = Ok (Moment m) ->
  (before m ending -> nth_item (until_next md nx ending) k s = Some (Ok (Moment m))) /\
  (~ before m ending -> nth_item (until_next md nx ending) k s = None).
Proof. exact @until_moment. Qed.
Print Assumptions C42_moment.
Theorem C42_not_a_moment : forall md S (nx : next_fn S) ending k s t v, (forall m, v <> Moment m) ->
  nth_item nx k s = Some (Ok t) -> calculate md t = Ok v ->
  nth_item (until_next md nx ending) k s = Some (Err (ArgumentErrorNotAMoment (name v))).
Proof. exact @kind_until. Qed.
Print Assumptions C42_not_a_moment.
Theorem C42_evaluation_error : forall md S (nx : next_fn S) ending k s t e,
  nth_item nx k s = Some (Ok t) -> calculate md t = Err e -> nth_item (until_next md nx ending) k s = Some (Err e).
Proof. exact @until_calc_err. Qed.
Print Assumptions C42_evaluation_error.
Theorem C42_rest : forall md S (nx : next_fn S) ending k s, (forall t, nth_item nx k s <> Some (Ok t)) ->
  nth_item (until_next md nx ending) k s = nth_item nx k s.
Proof. exact @until_rest. Qed.
Print Assumptions C42_rest.
Theorem C42_one_inner_call : forall md S (nx : next_fn S) ending k s, after (until_next md nx ending) k s = after nx k s.
Proof. exact @until_after. Qed.
Print Assumptions C42_one_inner_call.
Example C42_case :
  items (until_next Checked (iter_next Checked) (mkdt 2016 1 31 10 0 0 0)) 3 daily1 =
    [Some (Ok (Moment fri)); Some (Ok (Moment (mkdt 2016 1 30 10 0 0 0))); None] /\
  items (until_next Checked (iter_next Checked) (mkdt 2016 1 31 10 0 0 1)) 4 daily1 =
    [Some (Ok (Moment fri)); Some (Ok (Moment (mkdt 2016 1 30 10 0 0 0))); Some (Ok (Moment (mkdt 2016 1 31 10 0 0 0))); None] /\
  items (until_next Checked of_list fri) 3 [Some (Ok (Days 1)); Some (Err NomError); Some (Ok (Subtraction (Days 1) (Moment fri)))] =
    [Some (Err (ArgumentErrorNotAMoment (name (Days 1)))); Some (Err NomError); Some (Err (CannotSub (Days 1) (Moment fri)))].
Proof. vm_compute. repeat split. Qed.

(** C43. until() on forward steps.  False in general: the steps may run into errors, which
    then go on for ever.  Partial: it always reaches [None] or a constant error (steps inside
    the 32-bit span), and reaches [None] on the regular steps when one step beyond the end is
    still representable.  Missing (false): irregular steps and steps beyond the span. *)
Theorem C43_none_or_error_partial : forall md m u n it ending, build m (mk u n) = Ok it -> dt_valid m = true -> 0 < n ->
  n * unit_secs u <= span32 -> dt_valid ending = true ->
  exists K, (forall k, (k < K)%nat -> exists m', nth_item (until_next md (iter_next md) ending) k it = Some (Ok (Moment m')) /\ before m' ending) /\
    (nth_item (until_next md (iter_next md) ending) K it = None \/
     exists e, forall j, (K <= j)%nat -> nth_item (until_next md (iter_next md) ending) j it = Some (Err e)).
Proof. exact until_none_or_error. Qed.
Print Assumptions C43_none_or_error_partial.
(** Both ends occur: no item left, and the error that comes again and again. *)
Example C43_error_case :
  nth_item (until_next Checked (iter_next Checked) (mkdt 2017 5 1 0 0 0 0)) 2 (mkiter (Moment (mkdt 2016 12 30 0 0 0 0)) (Months 3) false) = None /\
  nth_item (until_next Checked (iter_next Checked) (mkdt 2018 1 1 0 0 0 0)) 1 (mkiter (Moment (mkdt 2016 12 30 0 0 0 0)) (Months 2) false) =
    Some (Err (OutOfBounds 2017 2 0 0 0 0)) /\
  nth_item (until_next Checked (iter_next Checked) (mkdt 2018 1 1 0 0 0 0)) 9 (mkiter (Moment (mkdt 2016 12 30 0 0 0 0)) (Months 2) false) =
    Some (Err (OutOfBounds 2017 2 0 0 0 0)).
Proof. vm_compute. repeat split. Qed.
Theorem C43_clock_partial : forall md m u n it ending, build m (mk u n) = Ok it -> dt_valid m = true -> clock_unit u = true -> 0 < n ->
  n * unit_secs u <= 30 * 86400 -> dt_valid ending = true ->
  inst ending + n * unit_secs u < instant (max_year + 1) 1 1 0 0 0 ->
  exists K, nth_item (until_next md (iter_next md) ending) K it = None /\
    forall k, (k < K)%nat -> exists m', nth_item (until_next md (iter_next md) ending) k it = Some (Ok (Moment m')) /\ before m' ending.
Proof. exact until_ends_clock. Qed.
Print Assumptions C43_clock_partial.
Theorem C43_months_partial : forall md m n it ending, build m (Months n) = Ok it -> dt_valid m = true -> day m <= 28 -> 0 < n ->
  dt_valid ending = true -> year ending * 12 + n <= max_year * 12 ->
  exists K, nth_item (until_next md (iter_next md) ending) K it = None /\
    forall k, (k < K)%nat -> exists m', nth_item (until_next md (iter_next md) ending) k it = Some (Ok (Moment m')) /\ before m' ending.
Proof. exact until_ends_months. Qed.
Print Assumptions C43_months_partial.
Theorem C43_years_partial : forall md m n it ending, build m (Years n) = Ok it -> dt_valid m = true -> ~ (month m = 2 /\ day m = 29) -> 0 < n ->
  dt_valid ending = true -> year ending + n <= max_year ->
  exists K, nth_item (until_next md (iter_next md) ending) K it = None /\
    forall k, (k < K)%nat -> exists m', nth_item (until_next md (iter_next md) ending) k it = Some (Ok (Moment m')) /\ before m' ending.
Proof. exact until_ends_years. Qed.
Print Assumptions C43_years_partial.
Example C43_years_case : build fri (Years 3) = Ok (mkiter (Moment fri) (Years 3) false) /\ year (mkdt 2030 1 1 0 0 0 0) + 3 <= max_year /\
  nth_item (until_next Checked (iter_next Checked) (mkdt 2030 1 1 0 0 0 0)) 4 (mkiter (Moment fri) (Years 3) false) = Some (Ok (Moment (mkdt 2028 1 29 10 0 0 0))) /\
  nth_item (until_next Checked (iter_next Checked) (mkdt 2030 1 1 0 0 0 0)) 5 (mkiter (Moment fri) (Years 3) false) = None.
Proof. vm_compute. repeat split; discriminate. Qed.
Theorem C43_terminates_refuted :
  (exists m n it ending, build m (Months n) = Ok it /\ dt_valid m = true /\ dt_valid ending = true /\ 0 < n /\
    forall k, nth_item (until_next Checked (iter_next Checked) ending) k it <> None) /\
  (exists m n it ending, build m (Years n) = Ok it /\ dt_valid m = true /\ dt_valid ending = true /\ 0 < n /\
    forall k, nth_item (until_next Checked (iter_next Checked) ending) k it = Some (Ok (Moment m))).
Proof.
  split.
  - exists (mkdt 2016 12 29 0 0 0 0), 2. eexists. exists (mkdt 2018 1 1 0 0 0 0).
    repeat (split; [reflexivity|]). intros [|k]; [vm_compute; discriminate|]. rewrite endless by lia. discriminate.
  - exists (mkdt 2016 12 29 0 0 0 0), 4294967296. eexists. exists (mkdt 2018 1 1 0 0 0 0).
    repeat (split; [reflexivity|]). exact endless_same.
Qed.
Print Assumptions C43_terminates_refuted.
Example C43_case : let ending := mkdt 2016 2 2 0 0 0 0 in
  inst ending + 1 * unit_secs UDay < instant (max_year + 1) 1 1 0 0 0 /\
  nth_item (until_next Checked (iter_next Checked) ending) 4 daily1 = None /\
  nth_item (until_next Checked (iter_next Checked) (mkdt 2018 1 1 0 0 0 0)) 12 (mkiter (Moment (mkdt 2016 1 28 0 0 0 0)) (Months 2) false) = None /\
  nth_item (until_next Checked (iter_next Checked) (mkdt 2018 1 1 0 0 0 0)) 11 (mkiter (Moment (mkdt 2016 1 28 0 0 0 0)) (Months 2) false) =
    Some (Ok (Moment (mkdt 2017 11 28 0 0 0 0))).
Proof. vm_compute. repeat split. Qed.

(** C44. every(m) and without(m), over any inner iterator and matcher.  [fuel] bounds the turns
    of the loop in one call of next(). *)
Theorem C44_every : forall S (nx : next_fn S) m K fuel s, (K <= fuel)%nat ->
  let kept := keep m false (items nx K s) in
  items (filter_next nx fuel m) (length kept) s = map (seen m) kept.
Proof. exact every_items. Qed.
Print Assumptions C44_every.
Theorem C44_without : forall S (nx : next_fn S) m K fuel s, (K <= fuel)%nat ->
  let kept := keep m true (items nx K s) in
  items (without_next nx fuel m) (length kept) s = map (seen m) kept.
Proof. exact without_items. Qed.
Print Assumptions C44_without.
Theorem C44_every_matches : forall S (nx : next_fn S) m fuel s t, fst (filter_next nx fuel m s) = Some (Ok t) -> m t = Ok true.
Proof. exact every_ok. Qed.
Print Assumptions C44_every_matches.
Theorem C44_without_matches : forall S (nx : next_fn S) m fuel s t, fst (without_next nx fuel m s) = Some (Ok t) -> m t = Ok false.
Proof. exact without_ok. Qed.
Print Assumptions C44_without_matches.
Theorem C44_every_without : forall S (nx : next_fn S) m f1 f2 k s t,
  nth_item (without_next (filter_next nx f1 m) f2 m) k s <> Some (Ok t).
Proof. exact every_without. Qed.
Print Assumptions C44_every_without.
(** A Saturday that is let through, and then taken out. *)
Example C44_every_without_case :
  nth_item (filter_next of_list 9 (day_matches Saturday)) 0 [Some (Ok (Moment fri)); Some (Ok (Moment (mkdt 2016 1 30 0 0 0 0)))] = Some (Ok (Moment (mkdt 2016 1 30 0 0 0 0))) /\
  nth_item (without_next (filter_next of_list 9 (day_matches Saturday)) 9 (day_matches Saturday)) 0 [Some (Ok (Moment fri)); Some (Ok (Moment (mkdt 2016 1 30 0 0 0 0)))] = None.
Proof. vm_compute. repeat split. Qed.
(** If the inner iterator never yields a match, next() does not return. *)
Theorem C44_every_diverges : forall S (nx : next_fn S) m s, (forall i, decided m false (nth_item nx i s) = true) ->
  forall fuel, fst (filter_next nx fuel m s) = Some OutOfFuel.
Proof. exact every_diverges. Qed.
Print Assumptions C44_every_diverges.
(** The same Friday for ever, asked for Saturdays. *)
Example C44_diverges_case : let always : next_fn unit := fun s => (Some (Ok (Moment fri)), s) in
  (forall i, decided (day_matches Saturday) false (nth_item always i tt) = true) /\
  fst (filter_next always 1000 (day_matches Saturday) tt) = Some OutOfFuel.
Proof. cbv zeta. split; [intro i; induction i as [|i IH]; [vm_compute; reflexivity|exact IH]|vm_compute; reflexivity]. Qed.
Example C44_case :
  items of_list 5 [Some (Ok (Moment fri)); Some (Ok (Days 2)); Some (Err NomError); Some (Ok (Moment (mkdt 2016 1 30 0 0 0 0)))] =
    [Some (Ok (Moment fri)); Some (Ok (Days 2)); Some (Err NomError); Some (Ok (Moment (mkdt 2016 1 30 0 0 0 0))); None] /\
  items (filter_next of_list 9 (day_matches Saturday)) 4
    [Some (Ok (Moment fri)); Some (Ok (Days 2)); Some (Err NomError); Some (Ok (Moment (mkdt 2016 1 30 0 0 0 0)))] =
    [Some (Err (ArgumentErrorNotAMoment (name (Days 2)))); Some (Err NomError); Some (Ok (Moment (mkdt 2016 1 30 0 0 0 0))); None] /\
  items (without_next (iter_next Checked) 9 (day_matches Saturday)) 2 daily1 =
    [Some (Ok (Moment fri)); Some (Ok (Moment (mkdt 2016 1 31 10 0 0 0)))].
Proof. vm_compute. repeat split. Qed.

(** C58. Weekdays of a daily iteration, months of a monthly one. *)
Theorem C58_weekday : forall md m it d fuel j, build m (Days 1) = Ok it -> dt_valid m = true -> (7 <= fuel)%nat ->
  let k := (wday_into d - weekday (year m) (month m) (day m)) mod 7 + 7 * Z.of_nat j in
  inst m + k * 86400 < instant (max_year + 1) 1 1 0 0 0 ->
  exists m', nth_item (filter_next (iter_next md) fuel (day_matches d)) j it = Some (Ok (Moment m')) /\
    dt_valid m' = true /\ inst m' = inst m + k * 86400 /\ is_a (Moment m') d = Ok true.
Proof. exact every_weekday. Qed.
Print Assumptions C58_weekday.
Theorem C58_month : forall md m it mo fuel j, build m (Months 1) = Ok it -> dt_valid m = true -> day m <= 28 -> (12 <= fuel)%nat ->
  let k := (ymonth_into mo - month m) mod 12 + 12 * Z.of_nat j in
  let i := year m * 12 + month m - 1 + k in
  0 < k -> i / 12 <= max_year ->
  nth_item (filter_next (iter_next md) fuel (month_matches mo)) j it = Some (Ok (Moment (in_month i (day m) m))) /\
  month (in_month i (day m) m) = ymonth_into mo.
Proof. exact every_month. Qed.
Print Assumptions C58_month.
Example C58_case : build fri (Days 1) = Ok daily1 /\
  items (filter_next (iter_next Checked) 7 (day_matches Sunday)) 3 daily1 =
    [Some (Ok (Moment (mkdt 2016 1 31 10 0 0 0))); Some (Ok (Moment (mkdt 2016 2 7 10 0 0 0))); Some (Ok (Moment (mkdt 2016 2 14 10 0 0 0)))] /\
  nth_item (filter_next (iter_next Checked) 12 (month_matches February)) 2 (mkiter (Moment (mkdt 2016 3 28 0 0 0 0)) (Months 1) false) =
    Some (Ok (Moment (mkdt 2019 2 28 0 0 0 0))).
Proof. vm_compute. repeat split. Qed.
