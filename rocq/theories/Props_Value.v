(** Property C90: what expressions, texts and iterations are worth. *)
Require Import ZArith Bool List String Lia.
From Verif Require Import Prelude Spec Chrono TimeType Iter SpecTree SpecMoment SpecIter SpecAdapt SpecOver SpecWide SpecValue Nom ParserTimetype ParserIterator ParserMod
  SpecText SpecDoc SpecLong SpecValue2 NomProofs ParserProofs3 ParserProofs6 LongProofs LongProofs2 LongProofs3 ValueProofs ValueProofs2 ValueProofs3.
Import ListNotations.
Local Open Scope string_scope.
Local Open Scope Z_scope.

(** C90. Evaluation gives what the reference evaluator [value] gives: the same amount, the same moment, an out-of-bounds error for a date
    outside the calendar, and a panic for a number outside 64 bits. *)
Theorem C90_value : forall t, tt_ok t = true -> shape_of t <> SBad -> worth_result (value t) (calculate Checked t).
Proof. exact value_correct. Qed.
Print Assumptions C90_value.
(** Without overflow checks the results that are no overflow are the same. *)
Theorem C90_release : forall t, tt_ok t = true -> shape_of t <> SBad -> value t <> Overflow -> worth_result (value t) (calculate Wrapping t).
Proof. exact value_release. Qed.
Print Assumptions C90_release.
(** The end of the month of the day before 48 hours less 61 minutes after 30 January; more days than a difference can borrow; an overflow in an end. *)
Definition C90_eve : datetime := mkdt 2016 1 30 1 0 30 7.
Definition C90_fine : timetype := EndOfMonth (Subtraction (Addition (Moment C90_eve) (Subtraction (Days 2) (Minutes 61))) (Days 1)).
Definition C90_off : timetype := Subtraction (Addition (Addition (Moment C90_eve) (Days 1)) (Years 1)) (Days 62).
Definition C90_big : timetype := EndOfHour (Addition (Addition (Moment C90_eve) (Months 1)) (Addition (Days 200000000000000) (Seconds 1))).
Example C90_case :
  tt_ok C90_fine = true /\ shape_of C90_fine = SMoment /\ value C90_fine = Time (mkdt 2016 1 31 0 0 0 0) /\
  tt_ok C90_off = true /\ shape_of C90_off = SMoment /\ value C90_off = Outside /\
  tt_ok C90_big = true /\ shape_of C90_big = SMoment /\ value C90_big = Overflow /\
  calculate Checked C90_fine = Ok (Moment (mkdt 2016 1 31 0 0 0 0)) /\ oob (calculate Wrapping C90_off) /\ calculate Checked C90_big = Panic PArith /\
  value (Subtraction (Years 1) (Hours 5)) = Amounts UHour 8635 /\
  value (Subtraction (Moment C90_eve) (Months 55834574860)) = Time (mkdt 2015 1 30 1 0 30 0) /\ value (Subtraction (Moment C90_eve) (Months 55834574848)) = Outside.
Proof. vm_compute. repeat split; repeat eexists. Qed.

(** Texts that are no iterators: parsing and evaluating gives what the reading of the text is worth. *)
Theorem C90_texts : forall cfg pd pdt, (forall s, fine pd s) -> (forall s, fine pdt s) ->
  (forall s r d, pd s = Done r d -> isodate_ok d) -> (forall s r d t, pdt s = Done r (d, t) -> isodate_ok d /\ isotime_ok t) ->
  forall now1 now2 p s r, dt_valid now1 = true -> reads cfg pd pdt (AsTimeType p) s r ->
  worth_result (text_worth now1 p) (text_result Checked (parse Checked cfg pd pdt now1 now2 s)) /\
  (text_worth now1 p <> Overflow -> worth_result (text_worth now1 p) (text_result Wrapping (parse Wrapping cfg pd pdt now1 now2 s))).
Proof. exact text_correct. Qed.
Print Assumptions C90_texts.
Definition C90_now : datetime := mkdt 2016 2 29 12 0 0 0.
Definition C90_week : ptimetype := PTDate (Date (Iso8601Date (Week 2016 9 1)) (Some (Minus, AENext (Amount 1 PDay) Minus (AELast (Amount 3 PHour))))).
Example C90_texts_case : let cfg := mkcfg true true in
  (forall s, fine toy_dates s) /\ (forall s, fine toy_times s) /\
  reads cfg toy_dates toy_times (AsTimeType C90_week) "2016-W09-1 - 1 day - 3hrs!" "!" /\
  text_worth C90_now C90_week = Time (mkdt 2016 3 4 3 0 0 0) /\
  text_result Checked (parse Checked cfg toy_dates toy_times C90_now C90_now "2016-W09-1 - 1 day - 3hrs!") = Ok (Moment (mkdt 2016 3 4 3 0 0 0)) /\
  text_worth C90_now (PTDate (Date (Iso8601Date (YMD 2016 2 30)) None)) = Outside /\
  text_worth C90_now (PTDate (Date (Iso8601DateTime (Ordinal 2016 60) (mktime 24 0 0 0 0 0)) None)) = Time (mkdt 2016 3 2 0 0 0 0).
Proof.
  assert (F1 : forall s, fine toy_dates s) by exact (table_fine _ _). assert (F2 : forall s, fine toy_times s) by exact (table_fine _ _).
  cbv zeta. split; [exact F1|]. split; [exact F2|]. split.
  { apply R_date.
    - intros it r I. apply (iterator_most (mkcfg true true) _ _ F1 F2) in I. vm_compute in I. discriminate I.
    - apply (date_most (mkcfg true true) _ _ F1 F2). vm_compute. reflexivity. }
  split; [vm_compute; reflexivity|]. split; [vm_compute; reflexivity|]. split; vm_compute; reflexivity.
Qed.
(** What cannot be evaluated: numbers that do not fit are noticed before the date they are added to, but after dates outside the calendar; nothing can
    be added to `yesterday`. *)
Definition C90_much : amountexpr := AELast (Amount 9223372036854775807 PWeek).
Definition C90_more : amountexpr := AENext (Amount 9223372036854775807 PYear) Plus (AELast (Amount 1 PSecond)).
Definition C90_last : datetime := mkdt max_year 12 31 12 0 0 0.
Example C90_odd_case : let cfg := mkcfg true true in let text now s := text_result Checked (parse Checked cfg toy_dates toy_times now now s) in
  sum_worth C90_last Tomorrow Plus C90_much = Overflow /\ text C90_last "tomorrow + 9223372036854775807 weeks" = Panic PArith /\
  sum_worth C90_last Tomorrow Plus C90_more = Outside /\ oob (text C90_last "tomorrow + 9223372036854775807 years + 1s") /\
  sum_worth C90_last (Iso8601Date (YMD 2016 2 30)) Minus C90_much = Outside /\
  sum_worth C90_now Yesterday Plus (AELast (Amount 1 PDay)) = Unsummed (Days 1) (Moment (mkdt 2016 2 28 12 0 0 0)) /\
  text C90_now "yesterday + 1 day" = Err (CannotAdd (Days 1) (Moment (mkdt 2016 2 28 12 0 0 0))) /\
  sum_worth C90_now Yesterday Plus C90_more = Overflow /\ text C90_now "yesterday + 9223372036854775807 years + 1s" = Panic PArith.
Proof.
  cbv zeta. refine (conj _ (conj _ (conj _ (conj _ (conj _ (conj _ (conj _ (conj _ _)))))))); vm_compute; try reflexivity; repeat eexists.
Qed.
(** Amounts of at most 2^63 - 1 seconds in all: their right-grouped sum, in the finest of their units. *)
Theorem C90_amounts : forall e, expr_ok e -> total e <= i64_max -> value (expr_tree e) = Amounts (expr_unit e) (expr_count e).
Proof. exact amounts_worth. Qed.
Print Assumptions C90_amounts.
Example C90_amounts_case : let e := AENext (Amount 2 PWeek) Minus (AENext (Amount 3 PDay) Plus (AELast (Amount 90 PMinute))) in
  expr_ok e /\ total e <= i64_max /\ expr_unit e = UMin /\ expr_count e = 15750 /\ value (expr_tree e) = Amounts UMin 15750.
Proof. cbv zeta. refine (conj _ (conj _ (conj _ (conj _ _)))); vm_compute; repeat split; discriminate. Qed.

(** Item number [k] of an iteration is [k] times the step after the start, each step counted from the moment before. *)
Theorem C90_items : forall m u n it k, build m (mk u n) = Ok it -> dt_valid m = true -> in_i64 n = true ->
  exists r, nth_item (iter_next Checked) k it = Some r /\ worth_result (item_worth m u n k) r.
Proof. exact items_worth. Qed.
Print Assumptions C90_items.
Theorem C90_items_release : forall m u n it k, build m (mk u n) = Ok it -> dt_valid m = true -> in_i64 n = true -> item_worth m u n k <> Overflow ->
  exists r, nth_item (iter_next Wrapping) k it = Some r /\ worth_result (item_worth m u n k) r.
Proof. exact items_release. Qed.
Print Assumptions C90_items_release.
(** Months from the 31st drift (months of later years count as 30 days); negative steps end outside the calendar; a step that overflows stays an overflow. *)
Example C90_items_case : let m := mkdt 2015 12 31 8 0 0 0 in
  build m (mk UMonth 1) = Ok (mkiter (Moment m) (Months 1) false) /\ dt_valid m = true /\
  map (item_worth m UMonth 1) [0; 1; 2; 3; 4]%nat =
    [Time m; Time (mkdt 2016 2 1 8 0 0 0); Time (mkdt 2016 3 1 8 0 0 0); Time (mkdt 2016 4 1 8 0 0 0); Time (mkdt 2016 5 1 8 0 0 0)] /\
  map (item_worth m UDay (-15)) [1; 2; 3; 4]%nat = [Time (mkdt 2015 12 16 8 0 0 0); Time (mkdt 2015 12 1 8 0 0 0); Outside; Outside] /\
  map (item_worth m UHour i64_max) [0; 1; 2]%nat = [Time m; Overflow; Overflow].
Proof. vm_compute. repeat split. Qed.

(** Iterator texts: the items, and where they end. *)
Theorem C90_iterators : forall cfg pd pdt, (forall s, fine pd s) -> (forall s, fine pdt s) ->
  (forall s r d, pd s = Done r d -> isodate_ok d) -> (forall s r d t, pdt s = Done r (d, t) -> isodate_ok d /\ isotime_ok t) ->
  forall md now1 now2 it s r, dt_valid now1 = true -> dt_valid now2 = true -> reads cfg pd pdt (AsIterator it) s r ->
  iteration_is md now1 now2 it (parse md cfg pd pdt now1 now2 s).
Proof. exact iteration_correct. Qed.
Print Assumptions C90_iterators.
Definition C90_it : piterator := Iterator (Date (Iso8601Date (YMD 2015 12 31)) None) IMonthly (Some (UExact Tomorrow)).
Definition C90_text : string := " 2015-12-31 monthly until tomorrow".
Example C90_iterators_case : let cfg := mkcfg true true in
  reads cfg toy_dates toy_times (AsIterator C90_it) C90_text "" /\ exact_worth C90_now Tomorrow = Time (mkdt 2016 3 1 12 0 0 0) /\
  item_worth (mkdt 2015 12 31 0 0 0 0) UMonth 1 3 = Time (mkdt 2016 4 1 0 0 0 0) /\
  exists ui, parse Checked cfg toy_dates toy_times C90_now C90_now C90_text = Ok (PIterator (Ok ui)) /\
    nth_item (user_next Checked) 2 ui = Some (Ok (Moment (mkdt 2016 3 1 0 0 0 0))) /\ nth_item (user_next Checked) 3 ui = None.
Proof.
  assert (F1 : forall s, fine toy_dates s) by exact (table_fine _ _). assert (F2 : forall s, fine toy_times s) by exact (table_fine _ _).
  cbv zeta. split; [apply R_iterator; apply (iterator_most (mkcfg true true) _ _ F1 F2); vm_compute; reflexivity|].
  split; [vm_compute; reflexivity|]. split; [vm_compute; reflexivity|].
  eexists. split; [vm_compute; reflexivity|]. split; vm_compute; reflexivity.
Qed.
