(** Properties C10-C18: moment + amount. *)
Require Import ZArith Bool List Lia ZifyBool.
From Verif Require Import Prelude Spec Chrono TimeType SpecTree SpecMoment PreludeProofs CalendarProofs EvalProofs AmountProofs AddProofs AddProofs2.
Local Open Scope Z_scope.
Ltac Zify.zify_post_hook ::= Z.div_mod_to_equations.

Definition nye : datetime := mkdt 2016 12 31 23 59 58 7.

(** C10. Exact elapsed time up to 30 January of the next year. *)
Theorem C10_add_exact : forall md m u n, dt_valid m = true -> clock_unit u = true -> 0 <= n ->
  inst m + n * unit_secs u < instant (year m + 1) 1 31 0 0 0 ->
  inst m + n * unit_secs u < instant (max_year + 1) 1 1 0 0 0 ->
  exists m', calculate md (Addition (Moment m) (mk u n)) = Ok (Moment m') /\
    dt_valid m' = true /\ nano m' = 0 /\ inst m' = inst m + n * unit_secs u.
Proof. exact add_clock_exact. Qed.
Print Assumptions C10_add_exact.
(** [inst] determines the fields, so "the moment at that instant" is unique. *)
Theorem C10_inst_injective : forall a b, dt_valid a = true -> dt_valid b = true ->
  nano a = 0 -> nano b = 0 -> inst a = inst b -> a = b.
Proof.
  intros a b Ha Hb Na Nb E. pose proof (inst_inj a b Ha Hb E) as W.
  destruct a, b. cbn in *. subst. exact W.
Qed.
Print Assumptions C10_inst_injective.
(** Two ways to the same second give the same moment. *)
Example C10_injective_case : let a := mkdt 2017 1 30 23 59 59 0 in
  dt_valid a = true /\ nano a = 0 /\ inst a = inst nye + 2592001 /\
  calculate Checked (Addition (Addition (Moment nye) (Seconds 1)) (Days 30)) = Ok (Moment a) /\
  calculate Checked (Addition (Addition (Moment nye) (Days 30)) (Seconds 1)) = Ok (Moment a).
Proof. vm_compute. repeat split. Qed.
(** The same for a whole tree of amounts on the right. *)
Theorem C10_add_tree_exact : forall md m t, dt_valid m = true -> tt_ok t = true -> amount_only t = true ->
  abs_secs t <= i64_max -> clock_unit (finest t) = true -> 0 <= secs t ->
  inst m + secs t < instant (year m + 1) 1 31 0 0 0 ->
  inst m + secs t < instant (max_year + 1) 1 1 0 0 0 ->
  exists m', calculate md (Addition (Moment m) t) = Ok (Moment m') /\
    dt_valid m' = true /\ nano m' = 0 /\ inst m' = inst m + secs t.
Proof. exact add_tree_exact. Qed.
Print Assumptions C10_add_tree_exact.
Example C10_case : dt_valid nye = true /\
  inst nye + 2592001 * unit_secs USec < instant (year nye + 1) 1 31 0 0 0 /\
  inst nye + 2592001 * unit_secs USec < instant (max_year + 1) 1 1 0 0 0 /\
  calculate Checked (Addition (Moment nye) (mk USec 2592001)) = Ok (Moment (mkdt 2017 1 30 23 59 59 0)).
Proof. repeat split; vm_compute; reflexivity. Qed.
Example C10_tree_case : let t := Subtraction (Addition (Months 1) (Hours 1)) (Subtraction (Days 2) (Minutes 3)) in
  abs_secs t <= i64_max /\ finest t = UMin /\ secs t = 2422980 /\
  calculate Checked (Addition (Moment (mkdt 2016 2 29 0 0 0 0)) t) = Ok (Moment (mkdt 2016 3 28 1 3 0 0)).
Proof. repeat split; vm_compute; congruence. Qed.

(** C11. For every distance: false.  Missing from the partial theorem: targets on or after
    31 January of the next year (30-day months are used from there on; exact form in C12). *)
Theorem C11_add_days_exact_partial : forall md m n, dt_valid m = true -> 0 <= n ->
  inst m + n * 86400 < instant (year m + 1) 1 31 0 0 0 ->
  inst m + n * 86400 < instant (max_year + 1) 1 1 0 0 0 ->
  exists m', calculate md (Addition (Moment m) (Days n)) = Ok (Moment m') /\
    dt_valid m' = true /\ nano m' = 0 /\ inst m' = inst m + n * 86400.
Proof. intros md m n H1 H2 H3 H4. exact (add_clock_exact md m UDay n H1 eq_refl H2 H3 H4). Qed.
Print Assumptions C11_add_days_exact_partial.
Theorem C11_add_days_exact_refuted : exists m n m', dt_valid m = true /\ 0 <= n /\
  inst m + n * 86400 < instant (max_year + 1) 1 1 0 0 0 /\
  calculate Checked (Addition (Moment m) (Days n)) = Ok (Moment m') /\ inst m' <> inst m + n * 86400.
Proof.
  exists (mkdt 2000 12 31 0 0 0 0), 31, (mkdt 2001 2 1 0 0 0 0).
  repeat split; vm_compute; congruence.
Qed.
Print Assumptions C11_add_days_exact_refuted.
Example C11_case : calculate Checked (Addition (Moment nye) (Days 30)) = Ok (Moment (mkdt 2017 1 30 23 59 58 0)) /\
  calculate Checked (Addition (Moment nye) (Days 31)) = Ok (Moment (mkdt 2017 2 1 23 59 58 0)).
Proof. repeat split. Qed.

(** C12. Complete behaviour of adding clock units: [T] seconds after midnight of the moment's
    day, [K] the ordinal of the target day counted from 1 January of the moment's year. *)
Theorem C12_add_clock_complete : forall md m u n, dt_valid m = true -> clock_unit u = true -> 0 <= n ->
  field u m + n <= i64_max ->
  let T := sod m + n * unit_secs u in
  let K := days_before (year m) (month m) + day m + T / 86400 in
  let r := T mod 86400 in
  (K <= year_length (year m) -> exists mo' d', date_exists (year m) mo' d' = true /\
     days_before (year m) mo' + d' = K /\
     calculate md (Addition (Moment m) (mk u n)) = Ok (Moment (at_time (year m) mo' d' r))) /\
  (year_length (year m) < K -> let e := K - year_length (year m) - 1 in
     calculate md (Addition (Moment m) (mk u n)) =
     built (wrap32 (year m + 1 + e / 360)) (e mod 360 / 30 + 1) (e mod 30 + 1) r).
Proof. exact add_clock. Qed.
Print Assumptions C12_add_clock_complete.
Theorem C12_add_overflow : forall m u n, dt_valid m = true -> in_i64 n = true -> i64_max < field u m + n ->
  calculate Checked (Addition (Moment m) (mk u n)) = Panic PArith.
Proof. exact add_overflow. Qed.
Print Assumptions C12_add_overflow.
Example C12_case :
  calculate Checked (Addition (Moment nye) (Hours 1417)) = Err (OutOfBounds 2017 2 0 0 59 58) /\
  calculate Checked (Addition (Moment nye) (Hours 1441)) = Ok (Moment (mkdt 2017 3 1 0 59 58 0)) /\
  calculate Checked (Addition (Moment nye) (Seconds i64_max)) = Panic PArith /\
  dt_valid nye = true.
Proof. repeat split; vm_compute; reflexivity. Qed.

(** C13. Adding months. *)
Theorem C13_add_months_complete : forall md m n, dt_valid m = true -> 0 <= n -> month m + n < i64_max ->
  calculate md (Addition (Moment m) (Months n)) =
  let '(Y, Mo, D) := plus_months (year m) (month m) (day m) n in built (wrap32 Y) Mo D (sod m).
Proof. exact add_months. Qed.
Print Assumptions C13_add_months_complete.
Theorem C13_add_months_same_day : forall md m n Y Mo, dt_valid m = true -> day m <= 28 -> 0 <= n ->
  Y * 12 + Mo = year m * 12 + month m + n -> 1 <= Mo <= 12 -> Y <= max_year ->
  calculate md (Addition (Moment m) (Months n)) =
  Ok (Moment (mkdt Y Mo (day m) (hour m) (minute m) (second m) 0)).
Proof. exact add_months_same_day. Qed.
Print Assumptions C13_add_months_same_day.
Example C13_case :
  calculate Checked (Addition (Moment (mkdt 2015 1 31 1 2 3 4)) (Months 1)) = Ok (Moment (mkdt 2015 3 3 1 2 3 0)) /\
  calculate Checked (Addition (Moment (mkdt 2015 10 31 1 2 3 4)) (Months 3)) = Ok (Moment (mkdt 2016 2 1 1 2 3 0)) /\
  calculate Checked (Addition (Moment (mkdt 2015 10 30 1 2 3 4)) (Months 4)) = Err (OutOfBounds 2016 2 1 1 2 3) /\
  calculate Checked (Addition (Moment (mkdt 2015 10 28 1 2 3 4)) (Months 40)) = Ok (Moment (mkdt 2019 2 28 1 2 3 0)).
Proof. repeat split. Qed.

(** C14. Adding years, of either sign. *)
Theorem C14_add_years_complete : forall md m n, dt_valid m = true -> in_i64 n = true ->
  i64_min <= year m + n <= i64_max ->
  calculate md (Addition (Moment m) (Years n)) =
  let '(Y, Mo, D) := in_year (wrap32 (year m + n)) (month m) (day m) in built Y Mo D (sod m).
Proof. intros md m n H1 H2 H3. exact (add_years md m n H1 H3 H2). Qed.
Print Assumptions C14_add_years_complete.
Theorem C14_add_years_in_range : forall md m n, dt_valid m = true -> min_year <= year m + n <= max_year ->
  calculate md (Addition (Moment m) (Years n)) =
  Ok (Moment (if (month m =? 2) && (day m =? 29) && negb (leap (year m + n))
              then mkdt (year m + n) 3 1 (hour m) (minute m) (second m) 0
              else mkdt (year m + n) (month m) (day m) (hour m) (minute m) (second m) 0)).
Proof. exact add_years_in_range. Qed.
Print Assumptions C14_add_years_in_range.
Theorem C14_add_years_out_of_range : forall md m n, dt_valid m = true ->
  -2147483648 <= year m + n < 2147483648 -> year m + n < min_year \/ max_year < year m + n ->
  oob (calculate md (Addition (Moment m) (Years n))).
Proof. exact add_years_beyond. Qed.
Print Assumptions C14_add_years_out_of_range.
Example C14_case :
  calculate Checked (Addition (Moment (mkdt 2016 2 29 1 2 3 4)) (Years 4)) = Ok (Moment (mkdt 2020 2 29 1 2 3 0)) /\
  calculate Checked (Addition (Moment (mkdt 2016 2 29 1 2 3 4)) (Years (-1))) = Ok (Moment (mkdt 2015 3 1 1 2 3 0)) /\
  calculate Checked (Addition (Moment (mkdt 2016 2 29 1 2 3 4)) (Years (-262144))) = Ok (Moment (mkdt (-260128) 2 29 1 2 3 0)) /\
  calculate Checked (Addition (Moment (mkdt 2016 2 29 1 2 3 4)) (Years 262144)) = Err (OutOfBounds 264160 2 1 1 2 3).
Proof. repeat split. Qed.

(** C15. Out-of-range additions are errors.  False in general because of the conversions to
    32 bits; missing from the partial theorem: amounts beyond [span32] (2.147 * 10^9
    360-day years), and clock or month amounts below -2^31. *)
Theorem C15_out_of_range_partial : forall md m u n, dt_valid m = true -> 0 <= n -> n * unit_secs u <= span32 ->
  match u with
  | UYear => max_year < year m + n
  | UMonth => max_year * 12 + 12 < year m * 12 + month m + n
  | _ => instant (max_year + 1) 1 1 0 0 0 <= inst m + n * unit_secs u
  end -> oob (calculate md (Addition (Moment m) (mk u n))).
Proof. exact add_out_of_range. Qed.
Print Assumptions C15_out_of_range_partial.
Theorem C15_out_of_range_refuted :
  (exists m n, dt_valid m = true /\ in_i64 n = true /\ max_year < year m + n /\
     calculate Checked (Addition (Moment m) (Years n)) = Ok (Moment m)) /\
  (exists m n, dt_valid m = true /\ in_i64 n = true /\
     inst m + n * 86400 < instant min_year 1 1 0 0 0 /\
     calculate Checked (Addition (Moment m) (Days n)) = Ok (Moment m)).
Proof.
  split.
  - exists (mkdt 2016 2 29 1 2 3 0), 4294967296. repeat split; vm_compute; reflexivity.
  - exists (mkdt 2016 2 29 1 2 3 0), (-4294967296). repeat split; vm_compute; reflexivity.
Qed.
Print Assumptions C15_out_of_range_refuted.
Example C15_case : let m := mkdt 262143 12 31 23 59 59 0 in
  dt_valid m = true /\ 1 * unit_secs USec <= span32 /\
  instant (max_year + 1) 1 1 0 0 0 <= inst m + 1 * unit_secs USec /\
  calculate Checked (Addition (Moment m) (mk USec 1)) = Err (OutOfBounds 262144 1 0 0 0 0).
Proof. repeat split; vm_compute; congruence. Qed.

(** C16. Adding negative clock amounts is exact or an error. *)
Theorem C16_add_negative : forall md m u n, dt_valid m = true -> clock_unit u = true -> -2147483648 <= n < 0 ->
  let r := calculate md (Addition (Moment m) (mk u n)) in
  oob r \/ exists m', r = Ok (Moment m') /\ dt_valid m' = true /\ nano m' = 0 /\
                      inst m' = inst m + n * unit_secs u.
Proof. exact add_negative. Qed.
Print Assumptions C16_add_negative.
Example C16_case :
  calculate Checked (Addition (Moment nye) (Seconds (-58))) = Ok (Moment (mkdt 2016 12 31 23 59 0 0)) /\
  calculate Checked (Addition (Moment nye) (Seconds (-118))) = Ok (Moment (mkdt 2016 12 31 23 58 0 0)) /\
  calculate Checked (Addition (Moment nye) (Seconds (-59))) = Err (OutOfBounds 2016 12 23 23 59 4294967295) /\
  calculate Checked (Addition (Moment nye) (Days (-30))) = Ok (Moment (mkdt 2016 12 1 23 59 58 0)) /\
  calculate Checked (Addition (Moment nye) (Days (-31))) = Err (OutOfBounds 2016 12 23 23 59 58).
Proof. repeat split. Qed.

(** C17. Forward means strictly later. *)
Theorem C17_add_forward : forall md m u n m', dt_valid m = true -> 0 < n -> n * unit_secs u <= span32 ->
  calculate md (Addition (Moment m) (mk u n)) = Ok (Moment m') -> inst m < inst m'.
Proof. exact add_forward. Qed.
Print Assumptions C17_add_forward.
Theorem C17_add_forward_tree : forall md m t m', dt_valid m = true -> tt_ok t = true -> amount_only t = true ->
  abs_secs t <= span32 -> 0 < secs t ->
  calculate md (Addition (Moment m) t) = Ok (Moment m') -> inst m < inst m'.
Proof. exact add_forward_tree. Qed.
Print Assumptions C17_add_forward_tree.
Example C17_case : 1 * unit_secs UMonth <= span32 /\
  calculate Checked (Addition (Moment (mkdt 2016 12 31 5 0 0 0)) (mk UMonth 1)) = Ok (Moment (mkdt 2017 2 1 5 0 0 0)) /\
  abs_secs (Subtraction (Days 500) (Months 3)) <= span32 /\ secs (Subtraction (Days 500) (Months 3)) = 35424000 /\
  calculate Checked (Addition (Moment nye) (Subtraction (Days 500) (Months 3))) = Ok (Moment (mkdt 2018 2 20 23 59 58 0)).
Proof. repeat split; vm_compute; congruence. Qed.

(** C18. Order preservation: false; the partial theorem covers the fragments where addition is
    regular.  Missing: clock targets past 30 January of the next year, months from days
    29-31, years from 29 February. *)
Theorem C18_add_order_partial : forall md u n m1 m2 m1' m2', dt_valid m1 = true -> dt_valid m2 = true ->
  0 <= n -> n * unit_secs u <= span32 -> regular u n m1 -> regular u n m2 ->
  calculate md (Addition (Moment m1) (mk u n)) = Ok (Moment m1') ->
  calculate md (Addition (Moment m2) (mk u n)) = Ok (Moment m2') ->
  inst m1 <= inst m2 -> inst m1' <= inst m2'.
Proof. exact add_order. Qed.
Print Assumptions C18_add_order_partial.
Theorem C18_add_order_refuted :
  let bad t m1 m2 := dt_valid m1 && dt_valid m2 = true /\ inst m1 < inst m2 /\
    exists m1' m2', calculate Checked (Addition (Moment m1) t) = Ok (Moment m1') /\
      calculate Checked (Addition (Moment m2) t) = Ok (Moment m2') /\ inst m2' < inst m1' in
  bad (Days 31) (mkdt 2000 12 31 23 0 0 0) (mkdt 2001 1 1 0 0 0 0) /\
  bad (Months 1) (mkdt 2001 1 31 0 0 0 0) (mkdt 2001 2 1 0 0 0 0) /\
  bad (Years 1) (mkdt 2016 2 29 1 0 0 0) (mkdt 2016 3 1 0 0 0 0).
Proof.
  cbv zeta. split; [|split]; (split; [vm_compute; reflexivity|]; split; [vm_compute; reflexivity|]).
  - exists (mkdt 2001 2 1 23 0 0 0), (mkdt 2001 2 1 0 0 0 0). repeat split; vm_compute; reflexivity.
  - exists (mkdt 2001 3 3 0 0 0 0), (mkdt 2001 3 1 0 0 0 0). repeat split; vm_compute; reflexivity.
  - exists (mkdt 2017 3 1 1 0 0 0), (mkdt 2017 3 1 0 0 0 0). repeat split; vm_compute; reflexivity.
Qed.
Print Assumptions C18_add_order_refuted.
Example C18_case : regular UMonth 14 (mkdt 2016 2 28 0 0 0 0) /\ regular UMonth 14 (mkdt 2016 3 1 0 0 0 0) /\
  calculate Checked (Addition (Moment (mkdt 2016 2 28 0 0 0 0)) (mk UMonth 14)) = Ok (Moment (mkdt 2017 4 28 0 0 0 0)) /\
  calculate Checked (Addition (Moment (mkdt 2016 3 1 0 0 0 0)) (mk UMonth 14)) = Ok (Moment (mkdt 2017 5 1 0 0 0 0)).
Proof. repeat split; vm_compute; congruence. Qed.
