(** Exact conditions for C11, C16, C22, C24 and C40 with amounts of any size. *)
Require Import ZArith Bool List Lia.
From Verif Require Import Prelude Spec Chrono TimeType Iter SpecTree SpecMoment SpecIter SpecExact SpecWide SpecFar AddProofs FarProofs.
Local Open Scope Z_scope.

(** C11. Adding clock units, without a bound on the amount. *)
Theorem C11_every_amount_partial : forall md m u n, dt_valid m = true -> clock_unit u = true -> 0 <= n -> in_i64 n = true ->
  ((exists m', calculate md (Addition (Moment m) (mk u n)) = Ok (Moment m') /\ inst m' = inst m + n * unit_secs u) <->
   lands (year m + 1) (days_past u n m) /\ inst m + n * unit_secs u < instant (max_year + 1) 1 1 0 0 0).
Proof. exact add_exact_every. Qed.
Print Assumptions C11_every_amount_partial.
(** 10^18 minutes, and the 121 days to 30 April of the next year. *)
Example C11_every_amount_case : let m := mkdt 2016 12 30 7 0 0 0 in dt_valid m = true /\ in_i64 1000000000000000000 = true /\
  instant (max_year + 1) 1 1 0 0 0 <= inst m + 1000000000000000000 * unit_secs UMin /\
  lands 2017 (days_past UDay 121 m) /\ calculate Checked (Addition (Moment m) (Days 121)) = Ok (Moment (mkdt 2017 4 30 7 0 0 0)) /\
  inst (mkdt 2017 4 30 7 0 0 0) = inst m + 121 * 86400.
Proof.
  cbv zeta. split; [reflexivity|]. split; [reflexivity|]. split; [vm_compute; discriminate|]. split; [right; right; vm_compute; repeat split; discriminate|].
  split; vm_compute; reflexivity.
Qed.

(** C16. The bound of 2^31 is not needed as long as the target can be represented. *)
Theorem C16_representable : forall md m u n, dt_valid m = true -> clock_unit u = true -> n < 0 -> instant min_year 1 1 0 0 0 <= inst m + n * unit_secs u ->
  let r := calculate md (Addition (Moment m) (mk u n)) in
  oob r \/ exists m', r = Ok (Moment m') /\ dt_valid m' = true /\ nano m' = 0 /\ inst m' = inst m + n * unit_secs u.
Proof. exact add_negative_every. Qed.
Print Assumptions C16_representable.
Example C16_representable_case : let m := mkdt 2016 5 31 12 0 0 9 in dt_valid m = true /\ instant min_year 1 1 0 0 0 <= inst m + -86400000000 * unit_secs USec /\
  oob (calculate Checked (Addition (Moment m) (Seconds (-86400000000)))) /\
  calculate Checked (Addition (Moment m) (Seconds (-43200))) = Ok (Moment (mkdt 2016 5 31 0 0 0 0)).
Proof. cbv zeta. split; [reflexivity|]. split; [vm_compute; discriminate|]. split; [repeat eexists; vm_compute; reflexivity|vm_compute; reflexivity]. Qed.

(** C22 and C23. Differences of every 64-bit amount, of either sign: exact if and only if the amount has 32 bits and, if it is not negative, [sub_exact]. *)
Theorem C22_every_amount_partial : forall md m u n m', dt_valid m = true -> clock_unit u = true -> in_i64 n = true ->
  calculate md (Subtraction (Moment m) (mk u n)) = Ok (Moment m') ->
  (inst m' = inst m - n * unit_secs u <-> -2147483648 <= n < 2147483648 /\ (0 <= n -> sub_exact u n m)).
Proof. exact sub_exact_every. Qed.
Print Assumptions C22_every_amount_partial.
Example C22_every_amount_case : let m := mkdt 2020 1 1 0 0 10 0 in dt_valid m = true /\ in_i64 (period USec * 2 + 30) = true /\
  calculate Checked (Subtraction (Moment m) (Seconds (period USec * 2 + 30))) = Ok (Moment (mkdt 2019 12 31 23 59 40 0)) /\
  calculate Checked (Subtraction (Moment m) (Seconds (-4294967300))) = Ok (Moment (mkdt 2020 1 1 0 0 14 0)) /\
  calculate Checked (Subtraction (Moment m) (Seconds (-4))) = Ok (Moment (mkdt 2020 1 1 0 0 14 0)) /\
  calculate Checked (Subtraction (Moment m) (Seconds 30)) = Ok (Moment (mkdt 2019 12 31 23 59 40 0)) /\ sub_exact USec 30 m.
Proof. vm_compute. repeat split; auto. Qed.

(** C24. Amounts below zero. *)
Theorem C24_back_exactly_partial : forall md m u n, dt_valid m = true -> - 2 ^ 62 <= n < 0 ->
  (calculate md (Subtraction (Addition (Moment m) (mk u n)) (mk u n)) = Ok (Moment (whole_second m)) <-> undone_back u n m).
Proof. exact undo_back. Qed.
Print Assumptions C24_back_exactly_partial.
(** 7 hours and 2^32 days back from half past seven, and 5 seconds; not 6 seconds at second 5. A month from 30 March, not from 31 March. *)
Example C24_back_exactly_case : let there u n m := calculate Checked (Subtraction (Addition (Moment m) (mk u n)) (mk u n)) in
  let m d := mkdt 2016 3 d 7 30 5 9 in dt_valid (m 31) = true /\
  undone_back UHour (-7 - 24 * 2 ^ 32) (m 31) /\ there UHour (-7 - 24 * 2 ^ 32) (m 31) = Ok (Moment (mkdt 2016 3 31 7 30 5 0)) /\
  undone_back USec (-5) (m 31) /\ there USec (-5) (m 31) = Ok (Moment (mkdt 2016 3 31 7 30 5 0)) /\
  ~ undone_back USec (-6) (m 31) /\ oob (there USec (-6) (m 31)) /\
  undone_back UMonth (-1) (m 29) /\ there UMonth (-1) (m 29) = Ok (Moment (mkdt 2016 3 29 7 30 5 0)) /\
  ~ undone_back UMonth (-1) (m 30) /\ there UMonth (-1) (m 30) = Ok (Moment (mkdt 2016 4 1 7 30 5 0)) /\
  undone_back UYear (-1) (m 31) /\ undone_back UDay (-30) (m 31) /\ ~ undone_back UDay (-31) (m 31).
Proof.
  cbv zeta. split; [reflexivity|]. split; [right; exists (-1); reflexivity|]. split; [vm_compute; reflexivity|]. split; [left; vm_compute; discriminate|].
  split; [vm_compute; reflexivity|]. split; [intros [C|(C & _)]; revert C; vm_compute; [intro C; apply C; reflexivity|discriminate]|].
  split; [repeat eexists; vm_compute; reflexivity|]. split; [repeat split; vm_compute; discriminate|]. split; [vm_compute; reflexivity|].
  split; [intros (_ & C & _); revert C; vm_compute; intro C; apply C; reflexivity|]. split; [vm_compute; reflexivity|].
  split; [split; [split; vm_compute; discriminate|]; intros [C _]; discriminate C|]. split; [split; vm_compute; discriminate|].
  intros [C _]. revert C. vm_compute. intro C. apply C. reflexivity.
Qed.

(** C24. From 2^31 units on: below the period no sum can be subtracted again, so [undone] is exact up to there. *)
Theorem C24_large_partial : forall md m u n v, dt_valid m = true -> u <> UYear -> 2147483648 <= n < period u ->
  calculate md (Subtraction (Addition (Moment m) (mk u n)) (mk u n)) <> Ok v.
Proof. exact undo_large. Qed.
Print Assumptions C24_large_partial.
Example C24_large_case : dt_valid (mkdt 2016 5 10 0 0 0 0) = true /\ UMonth <> UYear /\ 2147483648 <= 12 * 4294967296 < period UMonth /\
  calculate Checked (Addition (Moment (mkdt 2016 5 10 0 0 0 0)) (Months (12 * 4294967296))) = Ok (Moment (mkdt 2016 5 10 0 0 0 0)) /\
  oob (calculate Checked (Subtraction (Moment (mkdt 2016 5 10 0 0 0 0)) (Months (12 * 4294967296)))).
Proof.
  split; [reflexivity|]. split; [discriminate|]. split; [vm_compute; split; [discriminate|reflexivity]|].
  split; [rewrite add_months by (reflexivity || discriminate); vm_compute; reflexivity|repeat eexists; vm_compute; reflexivity].
Qed.
(** C24. Above that it takes a sum in the next year, from which the rest of the amount modulo the period leads back. *)
Theorem C24_period_partial : forall md m u n, dt_valid m = true -> u <> UYear -> 2147483648 <= n <= i64_max ->
  (calculate md (Subtraction (Addition (Moment m) (mk u n)) (mk u n)) = Ok (Moment (whole_second m)) <->
   exists m1, calculate md (Addition (Moment m) (mk u n)) = Ok (Moment m1) /\ year m1 = year m + 1 /\
     calculate md (Subtraction (Moment m1) (mk u (n mod period u))) = Ok (Moment (whole_second m))).
Proof. exact undo_round. Qed.
Print Assumptions C24_period_partial.
(** 13 times 12 times 2^32 months and 10. *)
Example C24_period_case : let m := mkdt 2016 5 10 0 0 0 0 in let n := 156 * 4294967296 + 10 in dt_valid m = true /\ UMonth <> UYear /\ 2147483648 <= n <= i64_max /\
  n mod period UMonth = 10 /\ calculate Checked (Addition (Moment m) (Months n)) = Ok (Moment (mkdt 2017 3 10 0 0 0 0)) /\
  calculate Checked (Subtraction (Moment (mkdt 2017 3 10 0 0 0 0)) (Months n)) = Ok (Moment m).
Proof.
  cbv zeta. split; [reflexivity|]. split; [discriminate|]. split; [vm_compute; split; discriminate|]. split; [reflexivity|].
  split; [rewrite add_months by (reflexivity || discriminate); vm_compute; reflexivity|vm_compute; reflexivity].
Qed.
(** C24. Years of either sign: the sum less a multiple of 2^32 is a year that can be represented and has the day. *)
Theorem C24_years_exactly_partial : forall md m n, dt_valid m = true -> Z.abs n <= 2 ^ 62 ->
  (calculate md (Subtraction (Addition (Moment m) (Years n)) (Years n)) = Ok (Moment (whole_second m)) <-> undone_back UYear n m).
Proof. exact undo_years_every. Qed.
Print Assumptions C24_years_exactly_partial.
Example C24_years_exactly_case : let m := mkdt 2016 2 29 0 0 0 0 in dt_valid m = true /\ Z.abs (4294967296 - 12) <= 2 ^ 62 /\
  undone_back UYear (4294967296 - 12) m /\ ~ undone_back UYear (4294967296 - 13) m /\
  calculate Checked (Addition (Moment m) (Years (4294967296 - 12))) = Ok (Moment (mkdt 2004 2 29 0 0 0 0)) /\
  calculate Checked (Subtraction (Moment (mkdt 2004 2 29 0 0 0 0)) (Years (4294967296 - 12))) = Ok (Moment m).
Proof.
  cbv zeta. split; [reflexivity|]. split; [vm_compute; discriminate|]. split; [split; [split; vm_compute; discriminate|]; intros (_ & _ & C); discriminate C|].
  split; [intros [_ C]; apply C; repeat split; reflexivity|]. split; vm_compute; reflexivity.
Qed.

(** C40. One rollback undoes one step of any amount if and only if subtracting undoes adding (C24). *)
Theorem C40_rollback_every_partial : forall md m u n v it', dt_valid m = true -> in_i64 n = true ->
  iter_next md (at_moment u n m true) = (Some (Ok v), it') ->
  (rollback md it' = (Ok tt, at_moment u n (whole_second m) true) <->
   calculate md (Subtraction (Addition (Moment m) (mk u n)) (mk u n)) = Ok (Moment (whole_second m))).
Proof. exact rollback_every. Qed.
Print Assumptions C40_rollback_every_partial.
Example C40_rollback_every_case : let m := mkdt 2016 3 30 8 0 0 0 in dt_valid m = true /\ in_i64 (-1) = true /\
  (exists it', iter_next Checked (at_moment UMonth (-1) m true) = (Some (Ok (Moment (mkdt 2016 3 1 8 0 0 0))), it') /\
     rollback Checked it' = (Ok tt, at_moment UMonth (-1) (mkdt 2016 4 1 8 0 0 0) true)) /\
  (exists it', iter_next Checked (at_moment UDay (-1) m true) = (Some (Ok (Moment (mkdt 2016 3 29 8 0 0 0))), it') /\
     rollback Checked it' = (Ok tt, at_moment UDay (-1) m true)).
Proof. cbv zeta. split; [reflexivity|]. split; [reflexivity|]. split; (eexists; split; [vm_compute; reflexivity|vm_compute; reflexivity]). Qed.
