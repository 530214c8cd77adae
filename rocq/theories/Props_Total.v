(** Properties C45, C53, C54, C56, C59: no panics, trailing text, iterator expressions, errors. *)
Require Import ZArith Bool List String Ascii Lia ZifyBool.
From Verif Require Import Prelude Spec Chrono TimeType Matcher Iter SpecTree SpecMoment SpecIter SpecAdapt Nom ParserTimetype ParserIterator ParserMod SpecText
  AdapterProofs AdapterProofs2 AdapterProofs3 ErrProofs LowerProofs ParserProofs3 ParserProofs5 ParserProofs6 KindProofs.
Import ListNotations.
Local Open Scope string_scope.
Local Open Scope Z_scope.

(** The hypotheses on the ISO 8601 parsers can be met. *)
Example iso_case : iso_ok toy_dates toy_times /\ iso_fine toy_dates toy_times.
Proof. split; split; [exact toy_dates_ok|exact toy_times_ok|exact (table_fine _ _)|exact (table_fine _ _)]. Qed.

(** C45. Only overflow panics, and only with overflow checks. *)
Theorem C45_evaluation : forall md t, tt_ok t = true -> returns md (calculate md t).
Proof. exact good_returns. Qed.
Print Assumptions C45_evaluation.
Theorem C45_iteration : forall md it k, iter_ok it -> item_returns md (nth_item (iter_next md) k it).
Proof. exact iter_returns. Qed.
Print Assumptions C45_iteration.
Theorem C45_skip : forall md it, iter_ok it -> returns md (fst (skip md it)).
Proof. exact skip_returns. Qed.
Print Assumptions C45_skip.
Theorem C45_rollback : forall md it, iter_ok it -> returns md (fst (rollback md it)).
Proof. exact rollback_returns. Qed.
Print Assumptions C45_rollback.
Theorem C45_times : forall md S (nx : next_fn S) n s, (forall k, item_returns md (nth_item nx k s)) ->
  forall k, item_returns md (nth_item (times_next md nx) k (times_new s n)).
Proof. exact times_returns. Qed.
Print Assumptions C45_times.
Theorem C45_until : forall md S (nx : next_fn S) ending s, (forall k, item_returns md (nth_item nx k s)) ->
  (forall k t, nth_item nx k s = Some (Ok t) -> tt_ok t = true) -> forall k, item_returns md (nth_item (until_next md nx ending) k s).
Proof. exact until_returns. Qed.
Print Assumptions C45_until.
Theorem C45_every : forall S (nx : next_fn S) m fuel s p, fst (filter_next nx fuel m s) = Some (Panic p) ->
  exists k, nth_item nx k s = Some (Panic p) \/ exists t, nth_item nx k s = Some (Ok t) /\ m t = Panic p.
Proof. exact @every_panics. Qed.
Print Assumptions C45_every.
Theorem C45_without : forall S (nx : next_fn S) m fuel s p, fst (without_next nx fuel m s) = Some (Panic p) ->
  exists k, nth_item nx k s = Some (Panic p) \/ exists t, nth_item nx k s = Some (Ok t) /\ m t = Panic p.
Proof. exact @without_panics. Qed.
Print Assumptions C45_without.
(** The overflow of the second item comes out of all adapters. *)
Example C45_adapters_case : let it := mkiter (Moment noon2) (Hours i64_max) false in
  iter_ok it /\ nth_item (iter_next Checked) 1 it = Some (Panic PArith) /\
  nth_item (times_next Checked (iter_next Checked)) 1 (times_new it 7) = Some (Panic PArith) /\
  nth_item (until_next Checked (iter_next Checked) (mkdt 2017 1 1 0 0 0 0)) 1 it = Some (Panic PArith) /\
  fst (filter_next (iter_next Checked) 9 (day_matches Saturday) it) = Some (Panic PArith) /\
  fst (without_next (iter_next Checked) 9 (day_matches Monday) it) = Some (Panic PArith).
Proof. split; [vm_compute; repeat split|]. vm_compute. repeat split. Qed.
Theorem C45_matchers : forall d mo t,
  (exists r, day_matches d t = r /\ match r with Ok _ | Err _ => True | _ => False end) /\
  (exists r, month_matches mo t = r /\ match r with Ok _ | Err _ => True | _ => False end).
Proof. exact matcher_returns. Qed.
Print Assumptions C45_matchers.
Theorem C45_constructors : forall md t n inc, tt_ok t = true ->
  forall r, In r [minutely t n; hourly t n; daily t n; weekly md t n; monthly t n; yearly t n; every t inc] -> returns md r.
Proof. exact ctor_returns. Qed.
Print Assumptions C45_constructors.
Example C45_constructors_case : minutely (Moment noon2) 5 = Ok (mkiter (Moment noon2) (Minutes 5) false) /\
  weekly Checked (Moment noon2) 5000000000000000000 = Panic PArith /\ (exists e, yearly (Days 1) 5 = Err e) /\
  (exists it, every (Moment noon2) (Months 2) = Ok it) /\ allowed Checked PArith.
Proof. split; [vm_compute; reflexivity|]. split; [vm_compute; reflexivity|]. split; [eexists; vm_compute; reflexivity|]. split; [eexists; vm_compute; reflexivity|vm_compute; repeat split]. Qed.
Theorem C45_parsing : forall cfg pd pdt, (forall s, fine pd s) -> (forall s, fine pdt s) ->
  (forall s r d, pd s = Done r d -> isodate_ok d) -> (forall s r d t, pdt s = Done r (d, t) -> isodate_ok d /\ isotime_ok t) ->
  forall md now1 now2 s, dt_valid now1 = true -> dt_valid now2 = true -> returns md (parse md cfg pd pdt now1 now2 s).
Proof. exact parse_returns. Qed.
Print Assumptions C45_parsing.
Theorem C45_parsed_iterators : forall cfg pd pdt,
  (forall s r d, pd s = Done r d -> isodate_ok d) -> (forall s r d t, pdt s = Done r (d, t) -> isodate_ok d /\ isotime_ok t) ->
  forall md now1 now2 s ui k, dt_valid now1 = true -> dt_valid now2 = true ->
  parse md cfg pd pdt now1 now2 s = Ok (PIterator (Ok ui)) -> item_returns md (nth_item (user_next md) k ui).
Proof. exact parsed_items_return. Qed.
Print Assumptions C45_parsed_iterators.
Example C45_parsed_case : exists ui, parse Checked (mkcfg true true) toy_dates toy_times noon2 noon2 "today every 3 days" = Ok (PIterator (Ok ui)) /\
  nth_item (user_next Checked) 2 ui = Some (Ok (Moment (mkdt 2016 3 6 12 0 0 0))).
Proof. eexists. split; [vm_compute; reflexivity|]. vm_compute. reflexivity. Qed.
Example C45_case : let t := Addition (Years 9223372036854775807) (Days 1) in let it := mkiter (Moment noon2) (Days 3) true in
  tt_ok t = true /\ calculate Checked t = Panic PArith /\ (exists v, calculate Wrapping t = Ok v) /\ iter_ok it /\
  fst (iter_next Checked it) = Some (Ok (Moment (mkdt 2016 3 3 12 0 0 0))) /\ fst (rollback Wrapping it) = Ok tt.
Proof.
  intros t it. split; [reflexivity|]. split; [vm_compute; reflexivity|]. split; [eexists; vm_compute; reflexivity|].
  split; [vm_compute; repeat split|]. split; vm_compute; reflexivity.
Qed.

(** C53. Input that is not entirely part of the recognised expression is rejected.
    Missing: only the beginning is checked (first theorem); what follows an expression is ignored. *)
Theorem C53_beginning_partial : forall cfg pd pdt md now1 now2 s r p, do_parse md cfg pd pdt now1 now2 s = Done r p ->
  (exists e t b, s = t ++ b ++ r /\ expr_text e t /\ blanks b) \/
  (exists x rest, exact_reads pd pdt x s rest \/ exact_reads pd pdt x (drop_blanks s) rest).
Proof. exact accepted. Qed.
Print Assumptions C53_beginning_partial.
Example C53_beginning_case : (exists p, do_parse Checked (mkcfg true true) toy_dates toy_times noon2 noon2 "5 days garbage" = Done "garbage" p) /\
  "5 days garbage" = "5 days" ++ " " ++ "garbage" /\ expr_text (AELast (Amount 5 PDay)) "5 days" /\
  (exists r p, do_parse Checked (mkcfg true true) toy_dates toy_times noon2 noon2 "today + foo" = Done r p) /\
  exact_reads toy_dates toy_times Today "today + foo" " + foo".
Proof.
  split; [eexists; vm_compute; reflexivity|]. split; [reflexivity|]. split.
  { apply ET_last. apply (AT_number "" "5" " " "days" PDay); try (vm_compute; tauto). { split; [reflexivity|discriminate]. } { vm_compute. discriminate. } }
  split; [eexists; eexists; vm_compute; reflexivity|apply (ER_today _ _ " + foo")].
Qed.
Theorem C53_rest_ignored_partial : forall cfg pd pdt md now1 now2 e s rest, expr_text e s -> stop rest ->
  no_iso cfg pd pdt (s ++ rest) -> no_iso cfg pd pdt (drop_blanks (s ++ rest)) -> no_iso cfg pd pdt s -> no_iso cfg pd pdt (drop_blanks s) ->
  parse md cfg pd pdt now1 now2 (s ++ rest) = parse md cfg pd pdt now1 now2 s.
Proof. exact parse_ignores. Qed.
Print Assumptions C53_rest_ignored_partial.
Theorem C53_rejected_refuted : forall cfg md,
  parse md cfg toy_dates toy_times noon2 noon2 "5 days garbage" = Ok (PTimeType (Days 5)) /\
  parse md cfg toy_dates toy_times noon2 noon2 "today + foo" = Ok (PTimeType (Moment noon2)) /\
  (exists it, parse md cfg toy_dates toy_times noon2 noon2 "today daily until 2016-02-xx" = Ok (PIterator (Ok (UIIterator it)))).
Proof. exact rest_accepted. Qed.
Print Assumptions C53_rejected_refuted.
Example C53_case : stop " garbage" /\ no_iso (mkcfg true true) toy_dates toy_times "5 days garbage" /\
  (exists e, parse Checked (mkcfg true true) toy_dates toy_times noon2 noon2 "garbage" = Err e) /\
  (exists e, parse Checked (mkcfg true true) toy_dates toy_times noon2 noon2 " today" = Err e).
Proof. split; [split; reflexivity|]. split; [split; left; reflexivity|]. split; eexists; vm_compute; reflexivity. Qed.

(** C54. Iterator expressions. *)
Theorem C54_means : forall cfg pd pdt,
  (forall s r d, pd s = Done r d -> isodate_ok d) -> (forall s r d t, pdt s = Done r (d, t) -> isodate_ok d /\ isotime_ok t) ->
  forall md now1 now2, dt_valid now1 = true -> dt_valid now2 = true ->
  forall d b0 s r1 sp t r2, blanks b0 -> date_reads pd pdt d s r1 -> starts blank_char s = false -> drop_blanks r1 = t ++ r2 ->
  step_text sp t -> starts letter_char r2 = false -> in_i64 (step_count sp) = true ->
  forall u, bound_reads pd pdt u (drop_blanks r2) ->
  let res := parse md cfg pd pdt now1 now2 (b0 ++ s) in
  match (do x <- date_into md now1 d; calculate md x) with
  | Ok v => exists b it, v = Moment b /\ dt_valid b = true /\ build b (mk (step_unit sp) (step_count sp)) = Ok it /\
      match u with
      | Some (UExact x) =>
          match (do y <- exactdate_into md now2 x; calculate md y) with
          | Ok w => exists en, w = Moment en /\ dt_valid en = true /\ res = Ok (PIterator (Ok (UIUntil it en)))
          | Err e => res = Ok (PIterator (Err e)) /\ e <> NotADateInsideIterator
          | Panic p => res = Panic p /\ allowed md p
          | OutOfFuel => False
          end
      | Some (UTimes n) => res = Ok (PIterator (Ok (UITimes (times_new it n))))
      | None => res = Ok (PIterator (Ok (UIIterator it)))
      end
  | Err e => res = Ok (PIterator (Err e)) /\ e <> NotADateInsideIterator
  | Panic p => res = Panic p /\ allowed md p
  | OutOfFuel => False
  end.
Proof. exact text_means. Qed.
Print Assumptions C54_means.
Theorem C54_never_not_a_date : forall md now1 now2 it, dt_valid now1 = true -> dt_valid now2 = true -> iterator_ok it ->
  returns md (into_user_iterator md now1 now2 it) /\ into_user_iterator md now1 now2 it <> Err NotADateInsideIterator /\
  forall ui, into_user_iterator md now1 now2 it = Ok ui ->
    exists i, iter_ok i /\ (ui = UIIterator i \/ (exists n, ui = UITimes (times_new i n)) \/ exists en, ui = UIUntil i en).
Proof. exact iterator_returns. Qed.
Print Assumptions C54_never_not_a_date.
Example C54_never_case : let it := Iterator (Date Today None) (IEvery 2 PDay) (Some (UTimes 3)) in iterator_ok it /\
  into_user_iterator Checked noon2 noon2 it = Ok (UITimes (times_new (mkiter (Moment noon2) (Days 2) false) 3)) /\
  (exists e, into_user_iterator Checked noon2 noon2 (Iterator (Date (Iso8601Date (YMD 2015 2 29)) None) (IEvery 2 PDay) None) = Err e).
Proof. split; [vm_compute; repeat split; discriminate|]. split; [vm_compute; reflexivity|eexists; vm_compute; reflexivity]. Qed.
(** Items, for steps of at most 30 days; the base date is any date that evaluates. *)
Theorem C54_items : forall cfg pd pdt,
  (forall s r d, pd s = Done r d -> isodate_ok d) -> (forall s r d t, pdt s = Done r (d, t) -> isodate_ok d /\ isotime_ok t) ->
  forall md now1 now2, dt_valid now1 = true -> dt_valid now2 = true ->
  forall d b0 s r1 sp t r2, blanks b0 -> date_reads pd pdt d s r1 -> starts blank_char s = false -> drop_blanks r1 = t ++ r2 ->
  step_text sp t -> starts letter_char r2 = false -> in_i64 (step_count sp) = true ->
  forall b, (do x <- date_into md now1 d; calculate md x) = Ok (Moment b) -> clock_unit (step_unit sp) = true ->
  step_count sp * unit_secs (step_unit sp) <= 30 * 86400 ->
  bound_reads pd pdt None (drop_blanks r2) ->
  exists ui, parse md cfg pd pdt now1 now2 (b0 ++ s) = Ok (PIterator (Ok ui)) /\
  forall k, inst b + Z.of_nat k * step_count sp * unit_secs (step_unit sp) < instant (max_year + 1) 1 1 0 0 0 ->
  exists m, nth_item (user_next md) k ui = Some (Ok (Moment m)) /\ dt_valid m = true /\
    inst m = inst b + Z.of_nat k * step_count sp * unit_secs (step_unit sp) /\ nano m = (if (k =? 0)%nat then nano b else 0).
Proof. exact text_plain. Qed.
Print Assumptions C54_items.
Example C54_items_case : let s := "today every 3 days" in
  date_reads toy_dates toy_times (Date Today None) s " every 3 days" /\ drop_blanks " every 3 days" = "every 3 days" ++ "" /\
  step_text (IEvery 3 PDay) "every 3 days" /\ bound_reads toy_dates toy_times None (drop_blanks "") /\
  3 * unit_secs UDay <= 30 * 86400 /\
  exists ui, parse Checked (mkcfg true true) toy_dates toy_times noon2 noon2 (" " ++ s) = Ok (PIterator (Ok ui)) /\
    nth_item (user_next Checked) 4 ui = Some (Ok (Moment (mkdt 2016 3 12 12 0 0 0))).
Proof.
  cbv zeta. split; [apply DR_exact; [apply (ER_today _ _ " every 3 days")|reflexivity]|]. split; [reflexivity|].
  split; [apply (ST_every " " "3" " " "days" PDay); try reflexivity; [split; [reflexivity|discriminate]|vm_compute; discriminate|cbn; tauto]|].
  split; [apply BR_none; [intros [w W]; discriminate W|reflexivity]|]. split; [vm_compute; discriminate|]. eexists. split; [vm_compute; reflexivity|]. vm_compute. reflexivity.
Qed.
Theorem C54_items_times : forall cfg pd pdt,
  (forall s r d, pd s = Done r d -> isodate_ok d) -> (forall s r d t, pdt s = Done r (d, t) -> isodate_ok d /\ isotime_ok t) ->
  forall md now1 now2, dt_valid now1 = true -> dt_valid now2 = true ->
  forall d b0 s r1 sp t r2, blanks b0 -> date_reads pd pdt d s r1 -> starts blank_char s = false -> drop_blanks r1 = t ++ r2 ->
  step_text sp t -> starts letter_char r2 = false -> in_i64 (step_count sp) = true ->
  forall b, (do x <- date_into md now1 d; calculate md x) = Ok (Moment b) -> clock_unit (step_unit sp) = true ->
  step_count sp * unit_secs (step_unit sp) <= 30 * 86400 ->
  forall n, bound_reads pd pdt (Some (UTimes n)) (drop_blanks r2) ->
  exists ui, parse md cfg pd pdt now1 now2 (b0 ++ s) = Ok (PIterator (Ok ui)) /\
  forall k, (Z.of_nat k < n -> inst b + Z.of_nat k * step_count sp * unit_secs (step_unit sp) < instant (max_year + 1) 1 1 0 0 0 ->
    exists m, nth_item (user_next md) k ui = Some (Ok (Moment m)) /\ dt_valid m = true /\
      inst m = inst b + Z.of_nat k * step_count sp * unit_secs (step_unit sp) /\ nano m = (if (k =? 0)%nat then nano b else 0)) /\
  (n <= Z.of_nat k -> nth_item (user_next md) k ui = None).
Proof. exact text_times. Qed.
Print Assumptions C54_items_times.
Theorem C54_items_until : forall cfg pd pdt,
  (forall s r d, pd s = Done r d -> isodate_ok d) -> (forall s r d t, pdt s = Done r (d, t) -> isodate_ok d /\ isotime_ok t) ->
  forall md now1 now2, dt_valid now1 = true -> dt_valid now2 = true ->
  forall d b0 s r1 sp t r2, blanks b0 -> date_reads pd pdt d s r1 -> starts blank_char s = false -> drop_blanks r1 = t ++ r2 ->
  step_text sp t -> starts letter_char r2 = false -> in_i64 (step_count sp) = true ->
  forall b, (do x <- date_into md now1 d; calculate md x) = Ok (Moment b) -> clock_unit (step_unit sp) = true ->
  step_count sp * unit_secs (step_unit sp) <= 30 * 86400 ->
  forall x en, bound_reads pd pdt (Some (UExact x)) (drop_blanks r2) ->
  (do y <- exactdate_into md now2 x; calculate md y) = Ok (Moment en) ->
  exists ui, parse md cfg pd pdt now1 now2 (b0 ++ s) = Ok (PIterator (Ok ui)) /\
  forall k, inst b + Z.of_nat k * step_count sp * unit_secs (step_unit sp) < instant (max_year + 1) 1 1 0 0 0 ->
    exists m, dt_valid m = true /\ inst m = inst b + Z.of_nat k * step_count sp * unit_secs (step_unit sp) /\ nano m = (if (k =? 0)%nat then nano b else 0) /\
      (before m en -> nth_item (user_next md) k ui = Some (Ok (Moment m))) /\ (~ before m en -> nth_item (user_next md) k ui = None).
Proof. exact text_until. Qed.
Print Assumptions C54_items_until.
Example C54_case :
  let it := mkiter (Moment noon2) (Hours 12) false in
  date_reads toy_dates toy_times (Date Today None) "today every 12 hours 2 times" " every 12 hours 2 times" /\
  drop_blanks " every 12 hours 2 times" = "every 12 hours" ++ " 2 times" /\ step_text (IEvery 12 PHour) "every 12 hours" /\
  bound_reads toy_dates toy_times (Some (UTimes 2)) (drop_blanks " 2 times") /\
  parse Checked (mkcfg true true) toy_dates toy_times noon2 noon2 "  today every 12 hours 2 times" = Ok (PIterator (Ok (UITimes (times_new it 2)))) /\
  items (user_next Checked) 4 (UITimes (times_new it 2)) = [Some (Ok (Moment noon2)); Some (Ok (Moment (mkdt 2016 3 1 0 0 0 0))); None; None].
Proof.
  intro it. split; [apply DR_exact; [apply (ER_today _ _ " every 12 hours 2 times")|reflexivity]|]. split; [reflexivity|]. split; [exact every_12_hours|].
  split; [apply (BR_times _ _ "2" " " ""); try reflexivity; [split; [reflexivity|discriminate]|vm_compute; discriminate]|].
  split; vm_compute; reflexivity.
Qed.
Example C54_case_until :
  let it := mkiter (Moment (mkdt 2015 12 31 0 0 0 0)) (Days 28) false in
  bound_reads toy_dates toy_times (Some (UExact (Iso8601Date (YMD 2016 2 29)))) "until 2016-02-29" /\
  parse Wrapping (mkcfg false false) toy_dates toy_times noon2 noon2 "2015-12-31 every 4 weeks until 2016-02-29" =
    Ok (PIterator (Ok (UIUntil it (mkdt 2016 2 29 0 0 0 0)))) /\
  items (user_next Wrapping) 4 (UIUntil it (mkdt 2016 2 29 0 0 0 0)) =
    [Some (Ok (Moment (mkdt 2015 12 31 0 0 0 0))); Some (Ok (Moment (mkdt 2016 1 28 0 0 0 0))); Some (Ok (Moment (mkdt 2016 2 25 0 0 0 0))); None] /\
  (exists e, parse Wrapping (mkcfg false false) toy_dates toy_times (mkdt 2016 3 1 0 0 0 0) noon2 "yesterday daily" = Ok (PIterator (Err e)) /\ e <> NotADateInsideIterator).
Proof.
  intro it. split; [apply (BR_until _ _ _ " " "2016-02-29" ""); [reflexivity|reflexivity|apply toy_read; [split; reflexivity|reflexivity]]|].
  split; [vm_compute; reflexivity|]. split; [vm_compute; reflexivity|].
  exists (OutOfBounds 2016 2 0 0 0 0). split; [vm_compute; reflexivity|discriminate].
Qed.

(** C56. parse() returns for every string.
    Missing: in builds with overflow checks large numbers of weeks panic; the theorems cover builds without
    overflow checks, and exclude all other panics. *)
Theorem C56_no_checks_partial : forall cfg pd pdt, (forall s, fine pd s) -> (forall s, fine pdt s) ->
  (forall s r d, pd s = Done r d -> isodate_ok d) -> (forall s r d t, pdt s = Done r (d, t) -> isodate_ok d /\ isotime_ok t) ->
  forall now1 now2 s, dt_valid now1 = true -> dt_valid now2 = true ->
  (exists p, parse Wrapping cfg pd pdt now1 now2 s = Ok p) \/ (exists e, parse Wrapping cfg pd pdt now1 now2 s = Err e).
Proof. exact parse_never_panics. Qed.
Print Assumptions C56_no_checks_partial.
Theorem C56_checks_partial : forall cfg pd pdt, (forall s, fine pd s) -> (forall s, fine pdt s) ->
  (forall s r d, pd s = Done r d -> isodate_ok d) -> (forall s r d t, pdt s = Done r (d, t) -> isodate_ok d /\ isotime_ok t) ->
  forall md now1 now2 s, dt_valid now1 = true -> dt_valid now2 = true -> returns md (parse md cfg pd pdt now1 now2 s).
Proof. exact parse_returns. Qed.
Print Assumptions C56_checks_partial.
(** Every number of weeks whose days do not fit panics. *)
Theorem C56_returns_refuted : forall cfg pd pdt now1 now2 n, i64_max < 7 * decimal n -> digits n -> decimal n <= i64_max ->
  no_iso cfg pd pdt (n ++ " weeks") -> parse Checked cfg pd pdt now1 now2 (n ++ " weeks") = Panic PArith.
Proof. exact weeks_overflow. Qed.
Print Assumptions C56_returns_refuted.
Example C56_case : i64_max < 7 * decimal "2000000000000000000" /\ digits "2000000000000000000" /\ decimal "2000000000000000000" <= i64_max /\
  no_iso (mkcfg true true) toy_dates toy_times "2000000000000000000 weeks" /\
  parse Checked (mkcfg true true) toy_dates toy_times noon2 noon2 "2000000000000000000 weeks" = Panic PArith /\
  parse Wrapping (mkcfg true true) toy_dates toy_times noon2 noon2 "2000000000000000000 weeks" = Ok (PTimeType (Days (-4446744073709551616))).
Proof. vm_compute. repeat split; try discriminate; left; reflexivity. Qed.

(** C59. The errors of evaluation. *)
Theorem C59_error_kinds : forall md t e, tt_ok t = true -> calculate md t = Err e ->
  match e with
  | OutOfBounds _ _ _ _ _ _ | CannotAdd _ _ | CannotSub _ _ => True
  | CannotCalculateEndOfYearOn v | CannotCalculateEndOfMonthOn v => exists u n, v = mk u n
  | _ => False
  end.
Proof. exact kind_errors. Qed.
Print Assumptions C59_error_kinds.
Example C59_case : calculate Checked (Addition (Days 1) (Moment noon2)) = Err (CannotAdd (Days 1) (Moment noon2)) /\
  calculate Checked (EndOfYear (Days 1)) = Err (CannotCalculateEndOfYearOn (Days 1)) /\
  calculate Checked (EndOfMonth (Addition (Hours 1) (Days 2))) = Err (CannotCalculateEndOfMonthOn (Hours 49)).
Proof. vm_compute. repeat split. Qed.
