(** C85, C86: the dates of the README, and what an iterator holds (documentation of `Iter`, src/iter.rs 66-76). *)
Require Import ZArith Bool List Lia.
From Verif Require Import Prelude Spec Chrono TimeType Iter SpecTree SpecMoment SpecIter SpecExact SpecWide ReadmeProofs HeldProofs.
Import ListNotations.
Local Open Scope Z_scope.

(** C85. `(TT::today() - TT::days(n)).end_of_month()` (README, n = 5) for n up to 30 more than the day: the last day of this month, of the previous month,
    or an error if that month is shorter than 31 days and the day counted as if it had 31 days does not exist. *)
Theorem C85_month_ago : forall md m n, dt_valid m = true -> 0 <= n <= day m + 30 ->
  calculate md (EndOfMonth (op_sub (today m) (days n))) =
  (let '(py, pm) := prev_month (year m) (month m) in
   if 1 <=? day m - n then Ok (Moment (month_end (year m) (month m)))
   else if (min_year <=? py) && (day m - n + 31 <=? month_length py pm) then Ok (Moment (month_end py pm))
   else Err (OutOfBounds py pm (hour m) (hour m) (minute m) (second m))).
Proof. exact month_ago. Qed.
Print Assumptions C85_month_ago.
(** With more days it is always an error. *)
Theorem C85_far : forall md m n, dt_valid m = true -> day m + 30 < n < period UDay ->
  oob (calculate md (EndOfMonth (op_sub (today m) (days n)))).
Proof. exact month_ago_far. Qed.
Print Assumptions C85_far.
Example C85_far_case : let m := mkdt 2016 5 9 8 30 0 0 in dt_valid m = true /\ day m + 30 < 40 < period UDay /\
  calculate Checked (EndOfMonth (op_sub (today m) (days 40))) = Err (OutOfBounds 2016 4 8 8 30 0).
Proof. vm_compute. repeat split; reflexivity. Qed.
(** A date it gives is the end of the month in which the day lies, exactly when the previous month goes back far enough. *)
Theorem C85_right_exactly : forall md m n e, dt_valid m = true -> 0 <= n <= day m + 30 ->
  calculate md (EndOfMonth (op_sub (today m) (days n))) = Ok (Moment e) ->
  (instant (year e) (month e) 1 0 0 0 <= inst m - n * 86400 < inst e + 86400 <->
   n < day m + (let '(py, pm) := prev_month (year m) (month m) in month_length py pm)).
Proof. exact month_ago_exactly. Qed.
Print Assumptions C85_right_exactly.
Example C85_right_exactly_case : let m := mkdt 2015 3 1 8 30 0 0 in dt_valid m = true /\ 0 <= 29 <= day m + 30 /\
  calculate Checked (EndOfMonth (op_sub (today m) (days 29))) = Ok (Moment (mkdt 2015 2 28 0 0 0 0)) /\
  ~ 29 < day m + month_length 2015 2 /\ inst m - 29 * 86400 = instant 2015 1 31 8 30 0 /\
  calculate Checked (EndOfMonth (op_sub (today m) (days 28))) = Ok (Moment (mkdt 2015 2 28 0 0 0 0)) /\
  28 < day m + month_length 2015 2 /\ inst m - 28 * 86400 = instant 2015 2 1 8 30 0.
Proof. vm_compute. repeat split; try reflexivity; discriminate. Qed.
(** So for up to 28 days. *)
Theorem C85_right_month : forall md m n e, dt_valid m = true -> 0 <= n <= 28 ->
  calculate md (EndOfMonth (op_sub (today m) (days n))) = Ok (Moment e) ->
  instant (year e) (month e) 1 0 0 0 <= inst m - n * 86400 < inst e + 86400.
Proof. exact month_ago_right. Qed.
Print Assumptions C85_right_month.
(** The variant the README gives first, `(TT::today() - TT::weeks(1) + TT::days(2)).end_of_month()`, always fails. *)
Theorem C85_variant : forall md m a b, dt_valid m = true -> in_i64 a = true -> day m - a <= i64_max -> in_i64 b = true ->
  exists e, calculate md (EndOfMonth (op_add (op_sub (today m) (days a)) (days b))) = Err e /\
    match calculate md (op_sub (today m) (days a)) with Ok v => e = CannotAdd (Days b) v | r => r = Err e end.
Proof. exact ago_and_on. Qed.
Print Assumptions C85_variant.
(** Five days before 9 May, 5 May and 1 May 2016; 29 days are too many: 1 March 2015 minus 29 days is 31 January, but February is given. *)
Example C85_case : let m d := mkdt 2016 5 d 8 30 0 0 in dt_valid (m 5) = true /\
  calculate Checked (EndOfMonth (op_sub (today (m 9)) (days 5))) = Ok (Moment (mkdt 2016 5 31 0 0 0 0)) /\
  calculate Checked (EndOfMonth (op_sub (today (m 5)) (days 5))) = Err (OutOfBounds 2016 4 8 8 30 0) /\
  calculate Checked (EndOfMonth (op_sub (today (m 1)) (days 5))) = Ok (Moment (mkdt 2016 4 30 0 0 0 0)) /\
  weeks Checked 1 = Ok (days 7) /\
  calculate Checked (EndOfMonth (op_add (op_sub (today (m 9)) (days 7)) (days 2))) = Err (CannotAdd (Days 2) (Moment (m 2))) /\
  calculate Checked (EndOfMonth (op_sub (today (mkdt 2015 3 1 8 30 0 0)) (days 29))) = Ok (Moment (mkdt 2015 2 28 0 0 0 0)).
Proof. vm_compute. repeat split. Qed.

(** C86. As long as the items succeed the iterator holds a single moment, the item it returned last. *)
Theorem C86_items : forall md m u n it k v, build m (mk u n) = Ok it -> dt_valid m = true -> in_i64 n = true -> nth_item (iter_next md) k it = Some (Ok v) ->
  exists b, v = Moment b /\ dt_valid b = true /\ after (iter_next md) (S k) it = at_moment u n b true.
Proof. exact items_held. Qed.
Print Assumptions C86_items.
(** From the first error on it holds that moment wrapped in one addition for every call. *)
Theorem C86_errors : forall md m u n it K e, build m (mk u n) = Ok it -> dt_valid m = true -> in_i64 n = true ->
  nth_item (iter_next md) (S K) it = Some (Err e) -> forall b, nth_item (iter_next md) K it = Some (Ok (Moment b)) ->
  forall j, after (iter_next md) (S K + j) it = mkiter (Nat.iter j (fun t => Addition t (mk u n)) (Moment b)) (mk u n) true.
Proof. exact held_errors. Qed.
Print Assumptions C86_errors.
(** After an error every operation, rollback() included, adds two nodes: the memory held is not bounded. *)
Theorem C86_grows : forall md it e it' os, iter_ok it -> iter_next md it = (Some (Err e), it') ->
  nodes (base (performs md os it')) = nodes (base it) + 2 + 2 * Z.of_nat (List.length os).
Proof. exact error_grows. Qed.
Print Assumptions C86_grows.
Example C86_case : let m := mkdt 2016 1 31 0 0 0 0 in let first := mkdt 2016 1 1 0 0 0 0 in let it := mkiter (Moment m) (Months (-1)) false in
  build m (mk UMonth (-1)) = Ok it /\ dt_valid m = true /\
  nth_item (iter_next Checked) 1 it = Some (Ok (Moment first)) /\ after (iter_next Checked) 2 it = at_moment UMonth (-1) first true /\
  nth_item (iter_next Checked) 2 it = Some (Err (OutOfBounds 2016 0 0 0 0 0)) /\
  after (iter_next Checked) 4 it = mkiter (Addition (Addition (Moment first) (Months (-1))) (Months (-1))) (Months (-1)) true /\
  nodes (base (performs Checked [Rollback; Skip] (after (iter_next Checked) 3 it))) = 7.
Proof. vm_compute. repeat split. Qed.
