(** Properties C31-C33: month lengths, weekday and month queries, ordering. *)
Require Import ZArith Bool List Lia ZifyBool String.
From Verif Require Import Prelude Spec Chrono Util TimeType Matcher SpecTree SpecMoment CalendarProofs AddProofs OrdProofs KindProofs.
Local Open Scope Z_scope.

(** C31. Month lengths and leap years. *)
Theorem C31_leap_rule : forall y, is_leap_year y = true <-> (4 | y) /\ (~ (100 | y) \/ (400 | y)).
Proof. exact leap_divides. Qed.
Print Assumptions C31_leap_rule.
Theorem C31_month_length : forall y m, -2147483648 <= y < 2147483648 -> 1 <= m <= 12 ->
  get_num_of_days_in_month y m = month_length y m.
Proof. exact gndm_val. Qed.
Print Assumptions C31_month_length.
Theorem C31_other_months : forall y m, (m < 1 \/ 12 < m) -> get_num_of_days_in_month y m = 30.
Proof. exact gndm_else. Qed.
Print Assumptions C31_other_months.
(** Years beyond 32 bits are truncated first. *)
Theorem C31_truncation : forall y m, 1 <= m <= 12 -> get_num_of_days_in_month y m = month_length (wrap32 y) m.
Proof. exact gndm_wrap. Qed.
Print Assumptions C31_truncation.
Example C31_case :
  get_num_of_days_in_month 1900 2 = 28 /\ get_num_of_days_in_month 2000 2 = 29 /\ get_num_of_days_in_month (-4) 2 = 29 /\
  get_num_of_days_in_month (-100) 2 = 28 /\ get_num_of_days_in_month 2017 11 = 30 /\ get_num_of_days_in_month 2017 13 = 30 /\
  get_num_of_days_in_month 4294967297 2 = 28.
Proof. repeat split. Qed.

(** C32. Weekday and month queries. *)
Theorem C32_one_day : forall m, exists! d, is_a (Moment m) d = Ok true.
Proof. exact one_day. Qed.
Print Assumptions C32_one_day.
Theorem C32_one_month : forall m, dt_valid m = true -> exists! d, is_in (Moment m) d = Ok true.
Proof. exact one_month. Qed.
Print Assumptions C32_one_month.
(** The weekday [n] days later is [n] steps further in the cycle. *)
Theorem C32_day_advance : forall md m n m' d, dt_valid m = true -> 0 <= n ->
  inst m + n * 86400 < instant (year m + 1) 1 31 0 0 0 ->
  calculate md (Addition (Moment m) (Days n)) = Ok (Moment m') ->
  is_a (Moment m) d = Ok true ->
  exists d', is_a (Moment m') d' = Ok true /\ wday_into d' = (wday_into d + n) mod 7.
Proof. exact day_advance. Qed.
Print Assumptions C32_day_advance.
Theorem C32_matchers_agree : forall t,
  (forall d, day_matches d t = match is_a t d with Ok b => Ok b | _ => Err (ArgumentErrorNotAMoment (name t)) end /\
             day_filter d t = match is_a t d with Ok b => b | _ => false end) /\
  (forall d, month_matches d t = match is_in t d with Ok b => Ok b | _ => Err (ArgumentErrorNotAMoment (name t)) end /\
             month_filter d t = match is_in t d with Ok b => b | _ => false end).
Proof.
  intro t. split; intro d; split;
  [exact (agree_day t d)|exact (agree_day_filter t d)|exact (agree_month t d)|exact (agree_month_filter t d)].
Qed.
Print Assumptions C32_matchers_agree.
Theorem C32_non_moments : forall t, (forall m, t <> Moment m) ->
  (forall d, is_a t d = Err (CannotCompareDayTo (name t)) /\ day_matches d t = Err (ArgumentErrorNotAMoment (name t)) /\ day_filter d t = false) /\
  (forall d, is_in t d = Err (CannotCompareMonthTo (name t)) /\ month_matches d t = Err (ArgumentErrorNotAMoment (name t)) /\ month_filter d t = false).
Proof. exact kind_queries. Qed.
Print Assumptions C32_non_moments.
Example C32_case :
  is_a (Moment (mkdt 2018 3 1 0 0 0 0)) Thursday = Ok true /\ is_in (Moment (mkdt 2018 3 1 0 0 0 0)) March = Ok true /\
  day_matches Friday (Moment (mkdt 2018 3 1 0 0 0 0)) = Ok false /\
  calculate Checked (Addition (Moment (mkdt 2018 3 1 0 0 0 0)) (Days 40)) = Ok (Moment (mkdt 2018 4 10 0 0 0 0)) /\
  is_a (Moment (mkdt 2018 4 10 0 0 0 0)) Tuesday = Ok true /\
  is_a (EndOfDay (Moment (mkdt 2018 4 10 0 0 0 0))) Tuesday = Err (CannotCompareDayTo "EndOfDay").
Proof. vm_compute. repeat split. Qed.

(** C33. The derived comparison is a total order, chronological on moments. *)
Theorem C33_compare_eq : forall x y, tt_compare x y = Eq <-> x = y.
Proof. exact tt_cmp_eq. Qed.
Print Assumptions C33_compare_eq.
Theorem C33_compare_antisym : forall x y, tt_compare y x = CompOpp (tt_compare x y).
Proof. exact tt_cmp_opp. Qed.
Print Assumptions C33_compare_antisym.
Theorem C33_compare_trans : forall x y z, tt_compare x y = Lt -> tt_compare y z = Lt -> tt_compare x z = Lt.
Proof. exact tt_cmp_trans. Qed.
Print Assumptions C33_compare_trans.
Example C33_trans_case :
  tt_compare (Moment (mkdt 2016 2 29 12 0 0 0)) (Moment (mkdt 2016 2 29 12 0 0 1)) = Lt /\
  tt_compare (Moment (mkdt 2016 2 29 12 0 0 1)) (Moment (mkdt 2016 3 1 0 0 0 0)) = Lt /\
  tt_compare (Moment (mkdt 2016 2 29 12 0 0 0)) (Moment (mkdt 2016 3 1 0 0 0 0)) = Lt /\
  tt_compare (Moment (mkdt 2016 3 1 0 0 0 0)) (Moment (mkdt 2016 2 29 12 0 0 0)) = Gt.
Proof. vm_compute. repeat split. Qed.
Theorem C33_chronological : forall a b, dt_valid a = true -> dt_valid b = true ->
  tt_compare (Moment a) (Moment b) = (inst a * 2000000000 + nano a ?= inst b * 2000000000 + nano b).
Proof. exact dt_cmp_chrono. Qed.
Print Assumptions C33_chronological.
(** Amounts of one unit compare as numbers; of different units, by unit only. *)
Theorem C33_amounts : forall u v a b,
  tt_compare (mk u a) (mk u b) = (a ?= b) /\
  (unit_secs u < unit_secs v -> tt_compare (mk u a) (mk v b) = Lt).
Proof. intros u v a b. split; [exact (tt_cmp_amount u a b)|exact (tt_cmp_units u v a b)]. Qed.
Print Assumptions C33_amounts.
(** Amounts before moments before sums before differences before ends, coarser ends first; sums and
    differences by the left operand, then by the right one. *)
Theorem C33_kinds : forall u n m a b c d k x k' y,
  tt_compare (mk u n) (Moment m) = Lt /\ tt_compare (Moment m) (Addition a b) = Lt /\ tt_compare (Addition a b) (Subtraction c d) = Lt /\
  tt_compare (Subtraction c d) (end_of k x) = Lt /\ (coarseness k' < coarseness k -> tt_compare (end_of k x) (end_of k' y) = Lt).
Proof. exact tt_cmp_kinds. Qed.
Print Assumptions C33_kinds.
Theorem C33_lexicographic : forall a b c d,
  (tt_compare (Addition a b) (Addition c d) = Lt <-> tt_compare a c = Lt \/ a = c /\ tt_compare b d = Lt) /\
  (tt_compare (Subtraction a b) (Subtraction c d) = Lt <-> tt_compare a c = Lt \/ a = c /\ tt_compare b d = Lt) /\
  forall k, tt_compare (end_of k a) (end_of k b) = tt_compare a b.
Proof. exact tt_cmp_lexi. Qed.
Print Assumptions C33_lexicographic.
Example C33_case :
  tt_compare (Moment (mkdt 2016 12 31 23 59 59 1500000000)) (Moment (mkdt 2017 1 1 0 0 0 0)) = Lt /\
  tt_compare (Addition (Days 1) (Hours 2)) (Addition (Days 1) (Hours 3)) = Lt /\
  tt_compare (Hours 100) (Days 1) = Lt /\ tt_compare (Subtraction (Days 1) (Days 1)) (EndOfYear (Days 1)) = Lt.
Proof. repeat split. Qed.
