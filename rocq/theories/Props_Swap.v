(** The order of two steps (C114). *)
Require Import ZArith Bool List Lia.
From Verif Require Import Prelude Spec Chrono TimeType SpecTree SpecMoment SpecExact SpecWide SpecOrder SpecSwap SwapProofs.
Local Open Scope Z_scope.

(** C114. The full statement: for all valid moments [m] and all steps [p] and [q], if [p] and then [q] leads from [m] to [m12] and [q] and then [p]
    to [m21], then [m12 = m21].  It is false: over the end of a month, over the days that months have more than others, where a year of 360 days
    is counted, and where a subtraction takes one too many of the next unit. *)
Theorem C114_refuted :
  let bad m p q m1 m12 m2 m21 := dt_valid m = true /\ calculate Checked (taking m p) = Ok (Moment m1) /\ calculate Checked (taking m1 q) = Ok (Moment m12) /\
    calculate Checked (taking m q) = Ok (Moment m2) /\ calculate Checked (taking m2 p) = Ok (Moment m21) /\ m12 <> m21 in
  let m := mkdt 2015 1 31 5 0 0 0 in
  bad m (mkmove false UDay 1) (mkmove false UMonth 1) (mkdt 2015 2 1 5 0 0 0) (mkdt 2015 3 1 5 0 0 0) (mkdt 2015 3 3 5 0 0 0) (mkdt 2015 3 4 5 0 0 0) /\
  bad m (mkmove false UMonth 1) (mkmove false UMonth 2) (mkdt 2015 3 3 5 0 0 0) (mkdt 2015 5 3 5 0 0 0) (mkdt 2015 3 31 5 0 0 0) (mkdt 2015 5 1 5 0 0 0) /\
  bad (mkdt 2016 12 30 0 0 0 0) (mkmove false UDay 33) (mkmove false UDay 400)
    (mkdt 2017 2 2 0 0 0 0) (mkdt 2018 3 8 0 0 0 0) (mkdt 2018 2 9 0 0 0 0) (mkdt 2018 3 14 0 0 0 0) /\
  bad (mkdt 2015 5 5 10 30 0 0) (mkmove true USec 60) (mkmove true USec 1)
    (mkdt 2015 5 5 10 28 0 0) (mkdt 2015 5 5 10 27 59 0) (mkdt 2015 5 5 10 29 59 0) (mkdt 2015 5 5 10 28 59 0).
Proof. cbv zeta. repeat split; try (vm_compute; reflexivity); discriminate. Qed.
Print Assumptions C114_refuted.

(** Where one step leads. *)
Theorem C114_moves : forall md m s m', dt_valid m = true -> move_ok s -> calculate md (taking m s) = Ok (Moment m') ->
  dt_valid m' = true /\ nano m' = 0 /\ inst m' = inst m + displacement s m.
Proof. exact displaced. Qed.
Print Assumptions C114_moves.
(** A month from 31 January, 61 seconds back from a minute's start, 400 days from 30 December. *)
Example C114_moves_case : move_ok (mkmove false UMonth 1) /\ move_ok (mkmove true USec 61) /\ move_ok (mkmove false UDay 400) /\
  calculate Checked (taking (mkdt 2015 1 31 5 0 0 0) (mkmove false UMonth 1)) = Ok (Moment (mkdt 2015 3 3 5 0 0 0)) /\
  displacement (mkmove false UMonth 1) (mkdt 2015 1 31 5 0 0 0) = 31 * 86400 /\
  calculate Checked (taking (mkdt 2015 5 5 10 30 1 0) (mkmove true USec 61)) = Ok (Moment (mkdt 2015 5 5 10 28 0 0)) /\
  displacement (mkmove true USec 61) (mkdt 2015 5 5 10 30 1 0) = - 121 /\
  calculate Checked (taking (mkdt 2016 12 30 0 0 0 0) (mkmove false UDay 400)) = Ok (Moment (mkdt 2018 2 9 0 0 0 0)) /\
  displacement (mkmove false UDay 400) (mkdt 2016 12 30 0 0 0 0) = 406 * 86400.
Proof. unfold move_ok. cbn [backward munit mcount clock_unit]. repeat split; vm_compute; try reflexivity; discriminate. Qed.

(** Exactly when the order does not matter: when the ways sum up to the same. *)
Theorem C114_exactly_partial : forall md m p q m1 m12 m2 m21, dt_valid m = true -> move_ok p -> move_ok q ->
  calculate md (taking m p) = Ok (Moment m1) -> calculate md (taking m1 q) = Ok (Moment m12) ->
  calculate md (taking m q) = Ok (Moment m2) -> calculate md (taking m2 p) = Ok (Moment m21) ->
  (m12 = m21 <-> displacement p m + displacement q m1 = displacement q m + displacement p m2).
Proof. exact swap_exactly. Qed.
Print Assumptions C114_exactly_partial.
(** From 31 January 2016: a day less and two months more agree, 31 + 29 days each way; a day more and a month more do not. *)
Example C114_exactly_case : let m := mkdt 2016 1 31 5 0 0 0 in let p := mkmove false UDay (-1) in let q := mkmove false UMonth 2 in
  let m1 := mkdt 2016 1 30 5 0 0 0 in let m2 := mkdt 2016 3 31 5 0 0 0 in let e := mkdt 2016 3 30 5 0 0 0 in
  dt_valid m = true /\ move_ok p /\ move_ok q /\
  calculate Checked (taking m p) = Ok (Moment m1) /\ calculate Checked (taking m1 q) = Ok (Moment e) /\
  calculate Checked (taking m q) = Ok (Moment m2) /\ calculate Checked (taking m2 p) = Ok (Moment e) /\
  displacement p m + displacement q m1 = 59 * 86400 /\
  let r := mkmove false UDay 1 in let s := mkmove false UMonth 1 in
  displacement r m + displacement s (mkdt 2016 2 1 5 0 0 0) = 30 * 86400 /\ displacement s m + displacement r (mkdt 2016 3 2 5 0 0 0) = 32 * 86400.
Proof. cbv zeta. unfold move_ok. cbn [backward munit mcount clock_unit]. repeat split; vm_compute; try reflexivity; discriminate. Qed.

(** The same for sums written as one expression. *)
Theorem C114_sums_partial : forall md m u a v b m1 m12 m2 m21, dt_valid m = true -> move_ok (mkmove false u a) -> move_ok (mkmove false v b) ->
  calculate md (Addition (Moment m) (mk u a)) = Ok (Moment m1) -> calculate md (Addition (Addition (Moment m) (mk u a)) (mk v b)) = Ok (Moment m12) ->
  calculate md (Addition (Moment m) (mk v b)) = Ok (Moment m2) -> calculate md (Addition (Addition (Moment m) (mk v b)) (mk u a)) = Ok (Moment m21) ->
  (m12 = m21 <->
   displacement (mkmove false u a) m + displacement (mkmove false v b) m1 = displacement (mkmove false v b) m + displacement (mkmove false u a) m2).
Proof. exact swap_sums. Qed.
Print Assumptions C114_sums_partial.
(** [2016-2-29 + 1 year + 4 years] and [+ 4 years + 1 year]. *)
Example C114_sums_case : let m := mkdt 2016 2 29 0 0 0 0 in dt_valid m = true /\ move_ok (mkmove false UYear 1) /\ move_ok (mkmove false UYear 4) /\
  calculate Checked (Addition (Moment m) (mk UYear 1)) = Ok (Moment (mkdt 2017 3 1 0 0 0 0)) /\
  calculate Checked (Addition (Addition (Moment m) (mk UYear 1)) (mk UYear 4)) = Ok (Moment (mkdt 2021 3 1 0 0 0 0)) /\
  calculate Checked (Addition (Moment m) (mk UYear 4)) = Ok (Moment (mkdt 2020 2 29 0 0 0 0)) /\
  calculate Checked (Addition (Addition (Moment m) (mk UYear 4)) (mk UYear 1)) = Ok (Moment (mkdt 2021 3 1 0 0 0 0)) /\
  displacement (mkmove false UYear 1) m = 366 * 86400 /\ displacement (mkmove false UYear 4) (mkdt 2017 3 1 0 0 0 0) = 1461 * 86400 /\
  displacement (mkmove false UYear 4) m = 1461 * 86400 /\ displacement (mkmove false UYear 1) (mkdt 2020 2 29 0 0 0 0) = 366 * 86400.
Proof. cbv zeta. unfold move_ok. cbn [backward munit mcount clock_unit]. repeat split; vm_compute; try reflexivity; discriminate. Qed.

(** Steps of months and years from a day up to the 28th may be taken in either order. *)
Theorem C114_dates_partial : forall md m p q m1 m12 m2 m21, dt_valid m = true -> day m <= 28 -> clock_unit (munit p) = false -> clock_unit (munit q) = false ->
  move_ok p -> move_ok q ->
  calculate md (taking m p) = Ok (Moment m1) -> calculate md (taking m1 q) = Ok (Moment m12) ->
  calculate md (taking m q) = Ok (Moment m2) -> calculate md (taking m2 p) = Ok (Moment m21) -> m12 = m21.
Proof. exact swap_dates. Qed.
Print Assumptions C114_dates_partial.
Example C114_dates_case : let m := mkdt 2016 2 28 5 0 0 0 in let p := mkmove false UMonth 13 in let q := mkmove true UYear 3 in let e := mkdt 2014 3 28 5 0 0 0 in
  dt_valid m = true /\ day m <= 28 /\ move_ok p /\ move_ok q /\
  calculate Checked (taking m p) = Ok (Moment (mkdt 2017 3 28 5 0 0 0)) /\ calculate Checked (taking (mkdt 2017 3 28 5 0 0 0) q) = Ok (Moment e) /\
  calculate Checked (taking m q) = Ok (Moment (mkdt 2013 2 28 5 0 0 0)) /\ calculate Checked (taking (mkdt 2013 2 28 5 0 0 0) p) = Ok (Moment e).
Proof. cbv zeta. unfold move_ok. cbn [backward munit mcount clock_unit]. repeat split; vm_compute; try reflexivity; discriminate. Qed.

(** Additions of clock units that end by 30 January of the next year. *)
Theorem C114_clock_partial : forall md m u a v b, dt_valid m = true -> clock_unit u = true -> clock_unit v = true -> 0 <= a -> 0 <= b ->
  inst m + a * unit_secs u + b * unit_secs v < instant (year m + 1) 1 31 0 0 0 ->
  inst m + a * unit_secs u + b * unit_secs v < instant (max_year + 1) 1 1 0 0 0 ->
  exists m1 m2 m', calculate md (Addition (Moment m) (mk u a)) = Ok (Moment m1) /\ calculate md (Addition (Moment m1) (mk v b)) = Ok (Moment m') /\
    calculate md (Addition (Moment m) (mk v b)) = Ok (Moment m2) /\ calculate md (Addition (Moment m2) (mk u a)) = Ok (Moment m').
Proof. exact swap_clock. Qed.
Print Assumptions C114_clock_partial.
Example C114_clock_case : let m := mkdt 2016 12 30 5 0 0 0 in dt_valid m = true /\ inst m + 29 * unit_secs UDay + 100000 * unit_secs USec < instant 2017 1 31 0 0 0 /\
  calculate Checked (Addition (Moment m) (mk UDay 29)) = Ok (Moment (mkdt 2017 1 28 5 0 0 0)) /\
  calculate Checked (Addition (Moment (mkdt 2017 1 28 5 0 0 0)) (mk USec 100000)) = Ok (Moment (mkdt 2017 1 29 8 46 40 0)) /\
  calculate Checked (Addition (Moment m) (mk USec 100000)) = Ok (Moment (mkdt 2016 12 31 8 46 40 0)) /\
  calculate Checked (Addition (Moment (mkdt 2016 12 31 8 46 40 0)) (mk UDay 29)) = Ok (Moment (mkdt 2017 1 29 8 46 40 0)).
Proof. vm_compute. repeat split. Qed.

(** Negative amounts of clock units, added or subtracted. *)
Theorem C114_negative_partial : forall md m p q m1 m12 m2 m21, dt_valid m = true -> clock_unit (munit p) = true -> clock_unit (munit q) = true ->
  -2147483648 <= mcount p < 0 -> -2147483648 <= mcount q < 0 ->
  calculate md (taking m p) = Ok (Moment m1) -> calculate md (taking m1 q) = Ok (Moment m12) ->
  calculate md (taking m q) = Ok (Moment m2) -> calculate md (taking m2 p) = Ok (Moment m21) -> m12 = m21.
Proof. exact swap_negative. Qed.
Print Assumptions C114_negative_partial.
(** A negative amount only changes the one field, so it must stay in its range both times. *)
Example C114_negative_case : let m := mkdt 2016 12 30 5 0 50 0 in let p := mkmove false UDay (-29) in let q := mkmove true USec (-9) in
  dt_valid m = true /\
  calculate Checked (taking m p) = Ok (Moment (mkdt 2016 12 1 5 0 50 0)) /\ calculate Checked (taking (mkdt 2016 12 1 5 0 50 0) q) = Ok (Moment (mkdt 2016 12 1 5 0 59 0)) /\
  calculate Checked (taking m q) = Ok (Moment (mkdt 2016 12 30 5 0 59 0)) /\ calculate Checked (taking (mkdt 2016 12 30 5 0 59 0) p) = Ok (Moment (mkdt 2016 12 1 5 0 59 0)).
Proof. vm_compute. repeat split. Qed.

(** An addition of clock units that stays in the month and ends by the 28th, with a step of months or years. *)
Theorem C114_month_partial : forall md m u n q m1 m12 m2 m21, dt_valid m = true -> clock_unit u = true -> clock_unit (munit q) = false ->
  0 <= n -> n * unit_secs u <= span32 -> move_ok q ->
  calculate md (Addition (Moment m) (mk u n)) = Ok (Moment m1) -> year m1 = year m -> month m1 = month m -> day m1 <= 28 ->
  calculate md (taking m1 q) = Ok (Moment m12) ->
  calculate md (taking m q) = Ok (Moment m2) -> calculate md (Addition (Moment m2) (mk u n)) = Ok (Moment m21) -> m12 = m21.
Proof. exact swap_month. Qed.
Print Assumptions C114_month_partial.
Example C114_month_case : let m := mkdt 2016 2 10 5 0 0 0 in let q := mkmove true UYear 5 in let e := mkdt 2011 2 26 21 0 0 0 in dt_valid m = true /\ move_ok q /\
  400 * unit_secs UHour <= span32 /\ calculate Checked (Addition (Moment m) (mk UHour 400)) = Ok (Moment (mkdt 2016 2 26 21 0 0 0)) /\
  calculate Checked (taking (mkdt 2016 2 26 21 0 0 0) q) = Ok (Moment e) /\
  calculate Checked (taking m q) = Ok (Moment (mkdt 2011 2 10 5 0 0 0)) /\ calculate Checked (Addition (Moment (mkdt 2011 2 10 5 0 0 0)) (mk UHour 400)) = Ok (Moment e).
Proof. cbv zeta. unfold move_ok. cbn [backward munit mcount clock_unit]. repeat split; vm_compute; try reflexivity; discriminate. Qed.
