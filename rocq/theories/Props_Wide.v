(** C89: amounts beyond 32 bits. *)
Require Import ZArith Bool Lia.
From Verif Require Import Prelude Spec Chrono TimeType SpecTree SpecMoment SpecIter SpecSeq SpecWide WideProofs WideProofs2.
Local Open Scope Z_scope.

(** C89 in full: forall md m u n, dt_valid m = true -> u <> UYear -> 2^31 <= n -> in_i64 n = true ->
    neither [calculate md (Subtraction (Moment m) (mk u n))] nor [calculate md (Addition (Moment m) (mk u (- n)))] nor
    [calculate md (Subtraction (Moment m) (mk u (- n)))] is a moment: differences and sums with negative amounts change a field by one turn at most.
    False: fields are cut to 32 bits without a check. Sums with positive amounts do count through the calendar (C16 to C18). *)
Theorem C89_wide_refuted :
  let m := mkdt 2020 3 15 12 30 45 0 in dt_valid m = true /\
  calculate Checked (Addition (Moment m) (Days (-4294967296))) = Ok (Moment m) /\
  calculate Checked (Addition (Moment m) (Hours (-103079215116))) = Ok (Moment (mkdt 2020 3 15 0 30 45 0)) /\
  calculate Checked (Addition (Moment m) (Months (-4294967295))) = Ok (Moment (mkdt 2020 4 15 12 30 45 0)) /\
  calculate Checked (Subtraction (Moment m) (Seconds (-4294967300))) = Ok (Moment (mkdt 2020 3 15 12 30 49 0)) /\
  calculate Checked (Subtraction (Moment m) (Months 55834574860)) = Ok (Moment (mkdt 2019 3 15 12 30 45 0)).
Proof. vm_compute. repeat split. Qed.
Print Assumptions C89_wide_refuted.

(** The subtractions that do evaluate to a moment, exactly: those where the rest modulo the period of the unit borrows from the year. *)
Theorem C89_round_partial : forall md m u n t, dt_valid m = true -> u <> UYear -> 2147483648 <= n <= i64_max ->
  (calculate md (Subtraction (Moment m) (mk u n)) = Ok (Moment t) <->
   calculate md (Subtraction (Moment m) (mk u (n mod period u))) = Ok (Moment t) /\ year t = year m - 1).
Proof. exact sub_round. Qed.
Print Assumptions C89_round_partial.
(** All the others are out of bounds. *)
Theorem C89_others_partial : forall md m u n, dt_valid m = true -> u <> UYear -> 0 <= n <= i64_max ->
  oob (calculate md (Subtraction (Moment m) (mk u n))) \/ exists t, calculate md (Subtraction (Moment m) (mk u n)) = Ok (Moment t).
Proof. exact sub_round_oob. Qed.
Print Assumptions C89_others_partial.
(** Thirty seconds and three months beyond a period: those that reach back into the year before come out, and only those. *)
Example C89_round_case : let m := mkdt 2020 1 1 0 0 10 0 in dt_valid m = true /\ (period USec * 2 + 30) mod period USec = 30 /\
  2147483648 <= period USec * 2 + 30 <= i64_max /\
  calculate Checked (Subtraction (Moment m) (Seconds (period USec * 2 + 30))) = Ok (Moment (mkdt 2019 12 31 23 59 40 0)) /\
  oob (calculate Checked (Subtraction (Moment m) (Seconds (period USec * 2 + 5)))) /\
  calculate Checked (Subtraction (Moment m) (Months (period UMonth + 3))) = Ok (Moment (mkdt 2019 10 1 0 0 10 0)) /\
  oob (calculate Checked (Subtraction (Moment m) (Months (period UMonth)))).
Proof. cbv zeta. refine (conj _ (conj _ (conj _ (conj _ (conj _ (conj _ _)))))); vm_compute; try split; try discriminate; try reflexivity; repeat eexists. Qed.

(** Subtracting amounts below the period, far beyond 32 bits, does what C19, C20 and C21 say of 31 bits: no field comes round. *)
Theorem C89_clock_partial : forall md m u n, dt_valid m = true -> clock_unit u = true -> u <> UDay -> 0 <= n < period u ->
  let x := field u m - n in
  let T := sod m - n * unit_secs u in
  let res := calculate md (Subtraction (Moment m) (mk u n)) in
  (- modulus u < x -> res = built3 (back_day (year m) (month m) (day m + T / 86400)) (T mod 86400)) /\
  (x = - modulus u -> let T' := T - modulus u * unit_secs u in
     res = built3 (back_day (year m) (month m) (day m + T' / 86400)) (T' mod 86400)) /\
  (x < - modulus u -> oob res).
Proof. exact sub_far. Qed.
Print Assumptions C89_clock_partial.
Theorem C89_days_partial : forall md m n, dt_valid m = true -> 0 <= n < period UDay ->
  let D := day m - n in
  let res := calculate md (Subtraction (Moment m) (Days n)) in
  (-30 <= D -> res = built3 (back_day (year m) (month m) D) (sod m)) /\
  (D < -30 -> oob res).
Proof. exact sub_far_days. Qed.
Print Assumptions C89_days_partial.
Theorem C89_months_partial : forall md m n, dt_valid m = true -> 0 <= n < period UMonth ->
  let M := month m - n in
  let res := calculate md (Subtraction (Moment m) (Months n)) in
  (1 <= M -> res = built (year m) M (day m) (sod m)) /\
  (-11 <= M <= 0 -> res = built (year m - 1) (M + 12) (day m) (sod m)) /\
  (M < -11 -> oob res).
Proof. exact sub_far_months. Qed.
Print Assumptions C89_months_partial.
(** In the words of C89. *)
Theorem C89_far_partial : forall md m u n, dt_valid m = true -> u <> UYear -> 2147483648 <= n < period u ->
  oob (calculate md (Subtraction (Moment m) (mk u n))).
Proof. exact sub_far_deep. Qed.
Print Assumptions C89_far_partial.
Example C89_far_case : let m := mkdt 2020 3 15 12 30 45 0 in dt_valid m = true /\
  (forall u, u <> UYear -> 2147483648 <= 2147483648 * 10 < period u) /\
  oob (calculate Checked (Subtraction (Moment m) (Seconds 99999999999999999))) /\
  oob (calculate Checked (Subtraction (Moment m) (Minutes 4294967296))) /\
  oob (calculate Checked (Subtraction (Moment m) (Days (4294967296 * 31)))) /\
  oob (calculate Checked (Subtraction (Moment m) (Months 4294967296))).
Proof.
  cbv zeta. refine (conj _ (conj _ (conj _ (conj _ (conj _ _))))).
  - vm_compute. reflexivity.
  - intros u Hu. destruct u; [| | | | |elim Hu; reflexivity]; vm_compute; split; congruence.
  - exact (C89_far_partial Checked (mkdt 2020 3 15 12 30 45 0) USec 99999999999999999 eq_refl ltac:(discriminate) ltac:(cbn; lia)).
  - exact (C89_far_partial Checked (mkdt 2020 3 15 12 30 45 0) UMin 4294967296 eq_refl ltac:(discriminate) ltac:(cbn; lia)).
  - exact (C89_far_partial Checked (mkdt 2020 3 15 12 30 45 0) UDay (4294967296 * 31) eq_refl ltac:(discriminate) ltac:(cbn; lia)).
  - exact (C89_far_partial Checked (mkdt 2020 3 15 12 30 45 0) UMonth 4294967296 eq_refl ltac:(discriminate) ltac:(cbn; lia)).
Qed.

(** What negative amounts of any size do: the day or the month that comes out is cut to its last 32 bits. *)
Theorem C89_add_negative_partial : forall md m u n, dt_valid m = true -> clock_unit u = true -> i64_min <= n < 0 ->
  let T := sod m + n * unit_secs u in
  let D := day m + T / 86400 in
  let r := calculate md (Addition (Moment m) (mk u n)) in
  (no_borrow u m T = true -> r = built (year m) (month m) (low32 D) (T mod 86400)) /\
  (no_borrow u m T = false -> oob r).
Proof. exact add_negative_wide. Qed.
Print Assumptions C89_add_negative_partial.
Theorem C89_add_months_partial : forall md m n, dt_valid m = true -> i64_min <= n -> month m + n <= 0 ->
  let M := month m + n in
  calculate md (Addition (Moment m) (Months n)) =
  if day m <=? 30 then built (year m) (low32 M) (day m) (sod m) else built (year m) (low32 (M + 1)) 1 (sod m).
Proof. exact add_months_wide. Qed.
Print Assumptions C89_add_months_partial.
Theorem C89_sub_negative_partial : forall md m u n, dt_valid m = true -> u <> UYear -> i64_min <= n < 0 -> field u m - n <= i64_max ->
  let x := low32 (field u m - n) in
  let r := calculate md (Subtraction (Moment m) (mk u n)) in
  match u with
  | UDay => r = built (year m) (month m) x (sod m)
  | UMonth => r = built (year m) x (day m) (sod m)
  | _ => (x < modulus u -> r = built (year m) (month m) (day m) (sod m + (x - field u m) * unit_secs u)) /\ (modulus u <= x -> oob r)
  end.
Proof. exact sub_negative_wide. Qed.
Print Assumptions C89_sub_negative_partial.
Example C89_negative_case : let m := mkdt 2020 3 31 12 30 45 0 in dt_valid m = true /\
  no_borrow UDay m (sod m + -8589934595 * 86400) = true /\
  calculate Checked (Addition (Moment m) (Days (-8589934595))) = Ok (Moment (mkdt 2020 3 28 12 30 45 0)) /\
  no_borrow USec m (sod m + -4294967296 * 1) = false /\
  oob (calculate Checked (Addition (Moment m) (Seconds (-4294967296)))) /\
  month m + -4294967294 <= 0 /\
  calculate Checked (Addition (Moment m) (Months (-4294967294))) = Ok (Moment (mkdt 2020 6 1 12 30 45 0)) /\
  calculate Checked (Subtraction (Moment m) (Days (-4294967270))) = Ok (Moment (mkdt 2020 3 5 12 30 45 0)) /\
  calculate Checked (Subtraction (Moment m) (Minutes (-8589934572))) = Ok (Moment (mkdt 2020 3 31 12 10 45 0)) /\
  oob (calculate Checked (Subtraction (Moment m) (Hours (-4294967340)))).
Proof.
  cbv zeta. refine (conj _ (conj _ (conj _ (conj _ (conj _ (conj _ (conj _ (conj _ (conj _ _))))))))); vm_compute; try discriminate; try reflexivity; repeat eexists.
Qed.
