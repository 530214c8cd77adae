(** The order of differences and of sums (C112, C18). *)
Require Import ZArith Bool List Lia.
From Verif Require Import Prelude Spec Chrono TimeType SpecTree SpecMoment SpecExact SpecWide SpecOrder OrderProofs OrderProofs2.
Local Open Scope Z_scope.

(** C112. The full statement: for all valid moments [m1] before [m2] and all amounts [t], if both differences are moments then [m1 - t] is before
    [m2 - t].  It is false for seconds, minutes and hours. *)
Theorem C112_refuted :
  let bad t m1 m2 := dt_valid m1 = true /\ dt_valid m2 = true /\ inst m1 < inst m2 /\
    exists m1' m2', calculate Checked (Subtraction (Moment m1) t) = Ok (Moment m1') /\
      calculate Checked (Subtraction (Moment m2) t) = Ok (Moment m2') /\ inst m2' < inst m1' in
  bad (Seconds 60) (mkdt 2016 5 5 10 29 59 0) (mkdt 2016 5 5 10 30 0 0) /\
  bad (Minutes 60) (mkdt 2016 5 5 9 59 0 0) (mkdt 2016 5 5 10 0 0 0) /\
  bad (Hours 24) (mkdt 2016 5 5 23 0 0 0) (mkdt 2016 5 6 0 0 0 0).
Proof.
  cbv zeta. split; [|split]; (split; [vm_compute; reflexivity|]; split; [vm_compute; reflexivity|]; split; [vm_compute; reflexivity|]).
  - exists (mkdt 2016 5 5 10 28 59 0), (mkdt 2016 5 5 10 28 0 0). repeat split; vm_compute; reflexivity.
  - exists (mkdt 2016 5 5 8 59 0 0), (mkdt 2016 5 5 8 0 0 0). repeat split; vm_compute; reflexivity.
  - exists (mkdt 2016 5 4 23 0 0 0), (mkdt 2016 5 4 0 0 0 0). repeat split; vm_compute; reflexivity.
Qed.
Print Assumptions C112_refuted.

(** Days, months and years keep the order. *)
Theorem C112_dates_partial : forall md u n m1 m2 m1' m2', u = UDay \/ u = UMonth \/ u = UYear -> 0 <= n < 2 ^ 62 ->
  dt_valid m1 = true -> dt_valid m2 = true -> inst m1 < inst m2 ->
  calculate md (Subtraction (Moment m1) (mk u n)) = Ok (Moment m1') -> calculate md (Subtraction (Moment m2) (mk u n)) = Ok (Moment m2') ->
  inst m1' < inst m2'.
Proof. exact order_dates. Qed.
Print Assumptions C112_dates_partial.
(** From 28 February and 1 March 2015, 4 days back, both are in February; 31 January and 1 February a month back; 29 February and 1 March
    2016 four years back. *)
Example C112_dates_case : let m1 := mkdt 2015 2 28 23 0 0 0 in let m2 := mkdt 2015 3 1 0 0 0 0 in
  dt_valid m1 = true /\ dt_valid m2 = true /\ inst m1 < inst m2 /\
  calculate Checked (Subtraction (Moment m1) (mk UDay 4)) = Ok (Moment (mkdt 2015 2 24 23 0 0 0)) /\
  calculate Checked (Subtraction (Moment m2) (mk UDay 4)) = Ok (Moment (mkdt 2015 2 28 0 0 0 0)) /\
  calculate Checked (Subtraction (Moment (mkdt 2015 1 31 1 0 0 0)) (mk UMonth 1)) = Ok (Moment (mkdt 2014 12 31 1 0 0 0)) /\
  calculate Checked (Subtraction (Moment (mkdt 2015 2 1 0 0 0 0)) (mk UMonth 1)) = Ok (Moment (mkdt 2015 1 1 0 0 0 0)) /\
  calculate Checked (Subtraction (Moment (mkdt 2016 2 29 1 0 0 0)) (mk UYear 4)) = Ok (Moment (mkdt 2012 2 29 1 0 0 0)) /\
  calculate Checked (Subtraction (Moment (mkdt 2016 3 1 0 0 0 0)) (mk UYear 4)) = Ok (Moment (mkdt 2012 3 1 0 0 0 0)).
Proof. vm_compute. repeat split. Qed.

(** Seconds, minutes and hours keep it unless the later moment, but not the earlier one, loses one too many of the next unit. *)
Theorem C112_clock_partial : forall md u n m1 m2 m1' m2', clock_unit u = true -> 0 <= n <= i64_max -> dt_valid m1 = true -> dt_valid m2 = true -> inst m1 < inst m2 ->
  calculate md (Subtraction (Moment m1) (mk u n)) = Ok (Moment m1') -> calculate md (Subtraction (Moment m2) (mk u n)) = Ok (Moment m2') ->
  (sub_skips u (n mod period u) m2 = true -> sub_skips u (n mod period u) m1 = true) -> inst m1' < inst m2'.
Proof. exact order_clock. Qed.
Print Assumptions C112_clock_partial.
Example C112_clock_case : let m1 := mkdt 2015 2 1 0 0 10 0 in let m2 := mkdt 2015 2 1 0 0 20 0 in
  dt_valid m1 = true /\ dt_valid m2 = true /\ inst m1 < inst m2 /\ sub_skips USec (15 mod period USec) m2 = false /\
  calculate Checked (Subtraction (Moment m1) (mk USec 15)) = Ok (Moment (mkdt 2015 1 31 23 59 55 0)) /\
  calculate Checked (Subtraction (Moment m2) (mk USec 15)) = Ok (Moment (mkdt 2015 2 1 0 0 5 0)).
Proof. vm_compute. repeat split. Qed.

(** The exact distance of the differences, and so exactly when the order is kept. *)
Theorem C112_exactly_partial : forall md u n m1 m2 m1' m2', clock_unit u = true -> 0 <= n <= i64_max -> dt_valid m1 = true -> dt_valid m2 = true ->
  calculate md (Subtraction (Moment m1) (mk u n)) = Ok (Moment m1') -> calculate md (Subtraction (Moment m2) (mk u n)) = Ok (Moment m2') ->
  let k := n mod period u in
  inst m2' - inst m1' = (inst m2 - inst m1) - (taken u k m2 - taken u k m1) + (given_back u k m2 - given_back u k m1).
Proof. exact order_clock_exactly. Qed.
Print Assumptions C112_exactly_partial.
(** Back over the end of a month of 30 days, 10 seconds become a day and 10 seconds. With 60 seconds, 1 second becomes -59. *)
Example C112_exactly_case :
  (let m1 := mkdt 2015 4 30 23 59 50 0 in let m2 := mkdt 2015 5 1 0 0 0 0 in
   dt_valid m1 = true /\ dt_valid m2 = true /\ inst m2 - inst m1 = 10 /\ given_back UDay 2 m1 = 0 /\ given_back UDay 2 m2 = 86400 /\
   calculate Checked (Subtraction (Moment m1) (mk UDay 2)) = Ok (Moment (mkdt 2015 4 28 23 59 50 0)) /\
   calculate Checked (Subtraction (Moment m2) (mk UDay 2)) = Ok (Moment (mkdt 2015 4 30 0 0 0 0))) /\
  (let m1 := mkdt 2016 5 5 10 29 59 0 in let m2 := mkdt 2016 5 5 10 30 0 0 in
   dt_valid m1 = true /\ dt_valid m2 = true /\ inst m2 - inst m1 = 1 /\ taken USec 60 m1 = 60 /\ taken USec 60 m2 = 120 /\
   calculate Checked (Subtraction (Moment m1) (mk USec 60)) = Ok (Moment (mkdt 2016 5 5 10 28 59 0)) /\
   calculate Checked (Subtraction (Moment m2) (mk USec 60)) = Ok (Moment (mkdt 2016 5 5 10 28 0 0))).
Proof. vm_compute. repeat split. Qed.

(** Subtracting negative amounts keeps the distance. *)
Theorem C112_negative_partial : forall md u n m1 m2 m1' m2', clock_unit u = true -> -2147483648 <= n < 0 -> dt_valid m1 = true -> dt_valid m2 = true ->
  calculate md (Subtraction (Moment m1) (mk u n)) = Ok (Moment m1') -> calculate md (Subtraction (Moment m2) (mk u n)) = Ok (Moment m2') ->
  inst m2' - inst m1' = inst m2 - inst m1.
Proof. exact order_negative. Qed.
Print Assumptions C112_negative_partial.
Example C112_negative_case : let m1 := mkdt 2016 5 5 10 29 14 0 in let m2 := mkdt 2016 5 5 10 30 3 0 in
  dt_valid m1 = true /\ dt_valid m2 = true /\
  calculate Checked (Subtraction (Moment m1) (mk USec (-45))) = Ok (Moment (mkdt 2016 5 5 10 29 59 0)) /\
  calculate Checked (Subtraction (Moment m2) (mk USec (-45))) = Ok (Moment (mkdt 2016 5 5 10 30 48 0)).
Proof. vm_compute. repeat split. Qed.

(** C18. Adding clock units reverses the order if and only if the first sum is further ahead of the true instant than the second by more than the
    moments are apart. *)
Theorem C18_clock_exactly_partial : forall md u n m1 m2 m1' m2', dt_valid m1 = true -> dt_valid m2 = true -> clock_unit u = true -> 0 <= n -> n * unit_secs u <= span32 ->
  calculate md (Addition (Moment m1) (mk u n)) = Ok (Moment m1') -> calculate md (Addition (Moment m2) (mk u n)) = Ok (Moment m2') ->
  (inst m2' < inst m1' <-> inst m2 - inst m1 < ahead u n m1 - ahead u n m2).
Proof. exact add_order_exactly. Qed.
Print Assumptions C18_clock_exactly_partial.
(** 31 days after New Year's Eve is 1 February; so is 31 days after 1 January; 31 days after 2 January is 2 February. *)
Example C18_clock_exactly_case : let m1 := mkdt 2000 12 31 23 0 0 0 in let m2 := mkdt 2001 1 1 0 0 0 0 in let m3 := mkdt 2001 1 2 0 0 0 0 in
  dt_valid m1 = true /\ dt_valid m2 = true /\ dt_valid m3 = true /\ 31 * unit_secs UDay <= span32 /\
  ahead UDay 31 m1 = 86400 /\ ahead UDay 31 m2 = 0 /\ ahead UDay 31 m3 = 0 /\ inst m2 - inst m1 = 3600 /\ inst m3 - inst m1 = 90000 /\
  calculate Checked (Addition (Moment m1) (mk UDay 31)) = Ok (Moment (mkdt 2001 2 1 23 0 0 0)) /\
  calculate Checked (Addition (Moment m2) (mk UDay 31)) = Ok (Moment (mkdt 2001 2 1 0 0 0 0)) /\
  calculate Checked (Addition (Moment m3) (mk UDay 31)) = Ok (Moment (mkdt 2001 2 2 0 0 0 0)).
Proof. vm_compute. repeat split. discriminate. Qed.

(** Months and years of either sign. *)
Theorem C18_signed_partial : forall md u n m1 m2 m1' m2', dt_valid m1 = true -> dt_valid m2 = true -> clock_unit u = false -> -2147483648 <= n -> n * unit_secs u <= span32 ->
  calculate md (Addition (Moment m1) (mk u n)) = Ok (Moment m1') -> calculate md (Addition (Moment m2) (mk u n)) = Ok (Moment m2') -> inst m1 <= inst m2 ->
  (inst m2' < inst m1' <-> month_index m2 = month_index m1 + 1 /\ (day m2 < spill_any u n m1 \/ (day m2 = spill_any u n m1 /\ sod m2 < sod m1))).
Proof. exact order_any. Qed.
Print Assumptions C18_signed_partial.
(** A month back from 31 March and 2 April is 3 March and 2 March; five months back from 31 May at five o'clock and 1 June at four is 1 January. *)
Example C18_signed_case : let m1 := mkdt 2015 3 31 5 0 0 0 in let m2 := mkdt 2015 4 2 4 0 0 0 in let m3 := mkdt 2015 5 31 5 0 0 0 in let m4 := mkdt 2015 6 1 4 0 0 0 in
  dt_valid m1 = true /\ dt_valid m2 = true /\ dt_valid m3 = true /\ dt_valid m4 = true /\ inst m1 <= inst m2 /\ inst m3 <= inst m4 /\
  spill_any UMonth (-1) m1 = 3 /\ spill_any UMonth (-5) m3 = 1 /\
  calculate Checked (Addition (Moment m1) (mk UMonth (-1))) = Ok (Moment (mkdt 2015 3 3 5 0 0 0)) /\
  calculate Checked (Addition (Moment m2) (mk UMonth (-1))) = Ok (Moment (mkdt 2015 3 2 4 0 0 0)) /\
  calculate Checked (Addition (Moment m3) (mk UMonth (-5))) = Ok (Moment (mkdt 2015 1 1 5 0 0 0)) /\
  calculate Checked (Addition (Moment m4) (mk UMonth (-5))) = Ok (Moment (mkdt 2015 1 1 4 0 0 0)).
Proof. vm_compute. repeat split; discriminate. Qed.
(** Negative clock amounts keep the distance. *)
Theorem C18_negative_partial : forall md u n m1 m2 m1' m2', dt_valid m1 = true -> dt_valid m2 = true -> clock_unit u = true -> -2147483648 <= n < 0 ->
  calculate md (Addition (Moment m1) (mk u n)) = Ok (Moment m1') -> calculate md (Addition (Moment m2) (mk u n)) = Ok (Moment m2') ->
  inst m2' - inst m1' = inst m2 - inst m1.
Proof. exact order_minus. Qed.
Print Assumptions C18_negative_partial.
Example C18_negative_case : let m1 := mkdt 2015 3 31 5 7 30 0 in let m2 := mkdt 2015 4 30 23 5 0 0 in dt_valid m1 = true /\ dt_valid m2 = true /\
  calculate Checked (Addition (Moment m1) (mk UMin (-5))) = Ok (Moment (mkdt 2015 3 31 5 2 30 0)) /\
  calculate Checked (Addition (Moment m2) (mk UMin (-5))) = Ok (Moment (mkdt 2015 4 30 23 0 0 0)).
Proof. vm_compute. repeat split. Qed.
