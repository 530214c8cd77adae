(** The end of a period moves along when the moment is moved (C120). *)
Require Import ZArith Bool List Lia.
From Verif Require Import Prelude Spec Chrono TimeType SpecTree SpecMoment SpecEndStep EndStepProofs.
Local Open Scope Z_scope.

(** C120. The end of the minute, hour or day of a moment plus an amount in units at least that long is the end of the
    minute, hour or day of the moment, plus the amount: one has a value exactly if the other has, and it is the same value. *)
Theorem C120_add : forall md m u n k e v, dt_valid m = true -> in_i64 n = true -> moves u k = true -> calculate md (end_of k (Moment m)) = Ok (Moment e) ->
  (calculate md (end_of k (Addition (Moment m) (mk u n))) = Ok v <-> calculate md (Addition (Moment e) (mk u n)) = Ok v).
Proof. exact end_moves_add. Qed.
Print Assumptions C120_add.
(** The same of subtraction. *)
Theorem C120_sub : forall md m u n k e v, dt_valid m = true -> in_i64 n = true -> moves u k = true -> calculate md (end_of k (Moment m)) = Ok (Moment e) ->
  (calculate md (end_of k (Subtraction (Moment m) (mk u n))) = Ok v <-> calculate md (Subtraction (Moment e) (mk u n)) = Ok v).
Proof. exact end_moves_sub. Qed.
Print Assumptions C120_sub.
(** The end of the year moves along with added years. *)
Theorem C120_add_years : forall md m n e v, dt_valid m = true -> in_i64 n = true -> i64_min <= year m + n <= i64_max ->
  calculate md (EndOfYear (Moment m)) = Ok (Moment e) ->
  (calculate md (EndOfYear (Addition (Moment m) (Years n))) = Ok v <-> calculate md (Addition (Moment e) (Years n)) = Ok v).
Proof. exact end_year_add. Qed.
Print Assumptions C120_add_years.
(** And with subtracted years, except that a 29 February without a counterpart has no end of the year. *)
Theorem C120_sub_years : forall md m n e v, dt_valid m = true -> in_i64 n = true -> i64_min <= year m - n <= i64_max ->
  calculate md (EndOfYear (Moment m)) = Ok (Moment e) ->
  (calculate md (EndOfYear (Subtraction (Moment m) (Years n))) = Ok v <->
   calculate md (Subtraction (Moment e) (Years n)) = Ok v /\ ~ (month m = 2 /\ day m = 29 /\ leap (wrap32 (year m - n)) = false)).
Proof. exact end_year_sub. Qed.
Print Assumptions C120_sub_years.
(** The same of expressions for moments and amounts. *)
Theorem C120_trees_add : forall md k a b u n e v, tt_ok a = true -> tt_ok b = true -> shape_of (Addition a b) = SMoment -> moves u k = true ->
  calculate md (end_of k a) = Ok (Moment e) -> calculate md b = Ok (mk u n) ->
  (calculate md (end_of k (Addition a b)) = Ok v <-> calculate md (Addition (Moment e) b) = Ok v).
Proof. exact end_trees_add. Qed.
Print Assumptions C120_trees_add.
Theorem C120_trees_sub : forall md k a b u n e v, tt_ok a = true -> tt_ok b = true -> shape_of (Subtraction a b) = SMoment -> moves u k = true ->
  calculate md (end_of k a) = Ok (Moment e) -> calculate md b = Ok (mk u n) ->
  (calculate md (end_of k (Subtraction a b)) = Ok v <-> calculate md (Subtraction (Moment e) b) = Ok v).
Proof. exact end_trees_sub. Qed.
Print Assumptions C120_trees_sub.
(** The end of the day 5 hours and then 3 days less 1 day later, or earlier. *)
Example C120_trees_case : let a := Addition (Moment (mkdt 2015 2 28 20 15 30 0)) (Hours 5) in let b := Subtraction (Days 3) (Days 1) in
  tt_ok a = true /\ tt_ok b = true /\ shape_of (Addition a b) = SMoment /\ shape_of (Subtraction a b) = SMoment /\ moves UDay PDay = true /\
  calculate Checked (end_of PDay a) = Ok (Moment (mkdt 2015 3 1 23 59 59 0)) /\ calculate Checked b = Ok (mk UDay 2) /\
  calculate Checked (end_of PDay (Addition a b)) = Ok (Moment (mkdt 2015 3 3 23 59 59 0)) /\
  calculate Checked (Addition (Moment (mkdt 2015 3 1 23 59 59 0)) b) = Ok (Moment (mkdt 2015 3 3 23 59 59 0)) /\
  (forall v, calculate Checked (end_of PDay (Subtraction a b)) <> Ok v).
Proof. vm_compute. repeat split; discriminate. Qed.

(** 90 days and 5 hours after the evening of 28 February 2015. *)
Example C120_add_case : let m := mkdt 2015 2 28 20 15 30 0 in
  dt_valid m = true /\ moves UDay PDay = true /\ moves UHour PMinute = true /\
  calculate Checked (end_of PDay (Moment m)) = Ok (Moment (mkdt 2015 2 28 23 59 59 0)) /\
  calculate Checked (end_of PDay (Addition (Moment m) (Days 90))) = Ok (Moment (mkdt 2015 5 29 23 59 59 0)) /\
  calculate Checked (Addition (Moment (mkdt 2015 2 28 23 59 59 0)) (Days 90)) = Ok (Moment (mkdt 2015 5 29 23 59 59 0)) /\
  calculate Checked (end_of PMinute (Moment m)) = Ok (Moment (mkdt 2015 2 28 20 15 59 0)) /\
  calculate Checked (end_of PMinute (Addition (Moment m) (Hours 5))) = Ok (Moment (mkdt 2015 3 1 1 15 59 0)).
Proof. vm_compute. repeat split. Qed.
(** 1 March 2015 less four days, and less three days, which is 29 February and an error, at 8:30 as at 8:59. *)
Example C120_sub_case : let m := mkdt 2015 3 1 8 30 0 0 in
  dt_valid m = true /\ moves UDay PHour = true /\ calculate Checked (end_of PHour (Moment m)) = Ok (Moment (mkdt 2015 3 1 8 59 59 0)) /\
  calculate Checked (end_of PHour (Subtraction (Moment m) (Days 4))) = Ok (Moment (mkdt 2015 2 28 8 59 59 0)) /\
  calculate Checked (Subtraction (Moment (mkdt 2015 3 1 8 59 59 0)) (Days 4)) = Ok (Moment (mkdt 2015 2 28 8 59 59 0)) /\
  (forall v, calculate Checked (end_of PHour (Subtraction (Moment m) (Days 3))) <> Ok v) /\
  (forall v, calculate Checked (Subtraction (Moment (mkdt 2015 3 1 8 59 59 0)) (Days 3)) <> Ok v).
Proof. vm_compute. repeat split; discriminate. Qed.
(** A year after and before 29 February 2016. *)
Example C120_years_case : let m := mkdt 2016 2 29 8 30 0 0 in
  dt_valid m = true /\ calculate Checked (EndOfYear (Moment m)) = Ok (Moment (mkdt 2016 12 31 0 0 0 0)) /\
  calculate Checked (EndOfYear (Addition (Moment m) (Years 1))) = Ok (Moment (mkdt 2017 12 31 0 0 0 0)) /\
  calculate Checked (Addition (Moment (mkdt 2016 12 31 0 0 0 0)) (Years 1)) = Ok (Moment (mkdt 2017 12 31 0 0 0 0)) /\
  calculate Checked (EndOfYear (Subtraction (Moment m) (Years 4))) = Ok (Moment (mkdt 2012 12 31 0 0 0 0)) /\
  leap (wrap32 (year m - 1)) = false /\ (forall v, calculate Checked (EndOfYear (Subtraction (Moment m) (Years 1))) <> Ok v) /\
  calculate Checked (Subtraction (Moment (mkdt 2016 12 31 0 0 0 0)) (Years 1)) = Ok (Moment (mkdt 2015 12 31 0 0 0 0)).
Proof. vm_compute. repeat split; discriminate. Qed.
(** Shorter units, and months with the end of the month, do not carry the end along: 40 minutes after 8:30, and a month after 31 January 2015. *)
Example C120_shorter_case : let m := mkdt 2015 1 31 8 30 0 0 in
  moves UMin PHour = false /\ calculate Checked (end_of PHour (Moment m)) = Ok (Moment (mkdt 2015 1 31 8 59 59 0)) /\
  calculate Checked (end_of PHour (Addition (Moment m) (Minutes 40))) = Ok (Moment (mkdt 2015 1 31 9 59 59 0)) /\
  calculate Checked (Addition (Moment (mkdt 2015 1 31 8 59 59 0)) (Minutes 40)) = Ok (Moment (mkdt 2015 1 31 9 39 59 0)) /\
  calculate Checked (EndOfMonth (Moment m)) = Ok (Moment (mkdt 2015 1 31 0 0 0 0)) /\
  calculate Checked (EndOfMonth (Addition (Moment m) (Months 1))) = Ok (Moment (mkdt 2015 3 31 0 0 0 0)) /\
  calculate Checked (Addition (Moment (mkdt 2015 1 31 0 0 0 0)) (Months 1)) = Ok (Moment (mkdt 2015 3 3 0 0 0 0)).
Proof. vm_compute. repeat split. Qed.
