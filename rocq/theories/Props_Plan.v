(** C104: the iterations of the README. *)
Require Import ZArith Bool List Lia.
From Verif Require Import Prelude Spec Chrono TimeType Matcher Iter SpecTree SpecMoment SpecIter SpecAdapt SpecSeq SpecHang SpecPlan PlanProofs.
Import ListNotations.
Local Open Scope Z_scope.

(** C104. `TT::today().every(TT::weeks(1)).take(4)`: that many moments, [n] days apart, starting with the given one. *)
Theorem C104_times : forall md m n it c, build m (Days n) = Ok it -> dt_valid m = true -> 1 <= n <= 30 -> Z.of_nat c <= i64_max ->
  inst m + (Z.of_nat c - 1) * (n * 86400) < instant (max_year + 1) 1 1 0 0 0 ->
  exists ds, days_apart m n ds /\ length ds = c /\ collects (times_next md (iter_next md)) (times_new it (Z.of_nat c)) (moments ds).
Proof. exact plan_times. Qed.
Print Assumptions C104_times.
(** `TT::today().every(TT::weeks(1)).skip(Month::October).until(...)`: of the moments [n] days apart before the end, those outside the
    month.  One call looks at no more than 31 / [n] + 2 items. *)
Theorem C104_without_month : forall md m n it mo ending fuel, build m (Days n) = Ok it -> dt_valid m = true -> dt_valid ending = true -> 1 <= n <= 30 ->
  31 <= (Z.of_nat fuel - 1) * n -> year m < max_year -> year ending < max_year ->
  exists ds, days_apart m n ds /\ (before m ending -> Z.of_nat (length ds) = steps_before m ending (n * 86400)) /\ (~ before m ending -> ds = []) /\
    collects (until_next md (without_next (iter_next md) fuel (month_matches mo)) ending) it (moments (filter (fun x => negb (in_ymonth mo x)) ds)).
Proof. exact plan_without. Qed.
Print Assumptions C104_without_month.
(** "And finally, a complex one": `.every(Day::Monday).skip(Month::October).skip(|date| date.is(Mark::MONTH_START)).until(...)`.  Of all days
    before the end, those on the weekday, outside the month and not the first of a month.  One call of each filter looks at no more than
    7, 6 and 2 items of the iterator below it. *)
Theorem C104_complex : forall md m it d mo ending f1 f2 f3, build m (Days 1) = Ok it -> dt_valid m = true -> dt_valid ending = true ->
  (7 <= f1)%nat -> (6 <= f2)%nat -> (2 <= f3)%nat -> year m < max_year -> year ending < max_year ->
  exists ds, days_apart m 1 ds /\ (before m ending -> Z.of_nat (length ds) = steps_before m ending 86400) /\ (~ before m ending -> ds = []) /\
    collects (until_next md (without_next (without_next (filter_next (iter_next md) f1 (day_matches d)) f2 (month_matches mo)) f3 (filter_matches month_start)) ending) it
      (moments (filter (fun x => on_day d x && negb (in_ymonth mo x) && negb (day x =? 1)) ds)).
Proof. exact plan_complex. Qed.
Print Assumptions C104_complex.

Definition sep20 := mkdt 2017 9 20 10 0 0 500.
Example C104_times_case : weeks Checked 1 = Ok (Days 7) /\ build sep20 (Days 7) = Ok (mkiter (Moment sep20) (Days 7) false) /\
  items (times_next Checked (iter_next Checked)) 5 (times_new (mkiter (Moment sep20) (Days 7) false) 4) =
  [Some (Ok (Moment sep20)); Some (Ok (Moment (mkdt 2017 9 27 10 0 0 0))); Some (Ok (Moment (mkdt 2017 10 4 10 0 0 0))); Some (Ok (Moment (mkdt 2017 10 11 10 0 0 0))); None].
Proof. vm_compute. auto. Qed.
(** Six items are needed: October 2016 has five Saturdays. *)
Example C104_without_month_case : let it := mkiter (Moment (mkdt 2016 9 24 10 0 0 0)) (Days 7) false in let e := mkdt 2016 11 20 0 0 0 0 in
  weeks Checked 1 = Ok (Days 7) /\ build (mkdt 2016 9 24 10 0 0 0) (Days 7) = Ok it /\
  items (until_next Checked (without_next (iter_next Checked) 6 (month_matches October)) e) 4 it =
  [Some (Ok (Moment (mkdt 2016 9 24 10 0 0 0))); Some (Ok (Moment (mkdt 2016 11 5 10 0 0 0))); Some (Ok (Moment (mkdt 2016 11 12 10 0 0 0)));
   Some (Ok (Moment (mkdt 2016 11 19 10 0 0 0)))] /\
  nth_item (until_next Checked (without_next (iter_next Checked) 6 (month_matches October)) e) 4 it = None /\
  nth_item (until_next Checked (without_next (iter_next Checked) 5 (month_matches October)) e) 1 it = Some OutOfFuel.
Proof. vm_compute. auto. Qed.
(** 1 November 2017 is a Wednesday. *)
Example C104_complex_case : let it := mkiter (Moment sep20) (Days 1) false in let e := mkdt 2017 11 20 0 0 0 0 in
  build sep20 (Days 1) = Ok it /\ steps_before sep20 e 86400 = 61 /\
  items (until_next Checked (without_next (without_next (filter_next (iter_next Checked) 7 (day_matches Wednesday)) 6 (month_matches October)) 2 (filter_matches month_start)) e) 5 it =
  [Some (Ok (Moment sep20)); Some (Ok (Moment (mkdt 2017 9 27 10 0 0 0))); Some (Ok (Moment (mkdt 2017 11 8 10 0 0 0))); Some (Ok (Moment (mkdt 2017 11 15 10 0 0 0))); None].
Proof. vm_compute. auto. Qed.
