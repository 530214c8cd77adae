(** Property C60: the build mode matters only when an overflow panics. *)
Require Import ZArith Bool List String.
From Verif Require Import Prelude Spec Chrono TimeType Matcher Iter SpecTree SpecMoment SpecIter Nom ParserTimetype ParserIterator ParserMod SpecText SpecMode
  ParserProofs6 ModeProofs.
Import ListNotations.
Local Open Scope string_scope.
Local Open Scope Z_scope.

Theorem C60_evaluation : forall t, agree (calculate Checked t) (calculate Wrapping t).
Proof. exact ag_calculate. Qed.
Print Assumptions C60_evaluation.
Theorem C60_getters : forall t,
  agree (get_seconds Checked t) (get_seconds Wrapping t) /\ agree (get_minutes Checked t) (get_minutes Wrapping t) /\
  agree (get_hours Checked t) (get_hours Wrapping t) /\ agree (get_days Checked t) (get_days Wrapping t) /\
  agree (get_months Checked t) (get_months Wrapping t).
Proof. exact ag_getters. Qed.
Print Assumptions C60_getters.
Theorem C60_skip : forall it, fst (skip Checked it) = Panic PArith \/ skip Wrapping it = skip Checked it.
Proof. exact ag_skip. Qed.
Print Assumptions C60_skip.
Theorem C60_rollback : forall it, fst (rollback Checked it) = Panic PArith \/ rollback Wrapping it = rollback Checked it.
Proof. exact ag_rollback. Qed.
Print Assumptions C60_rollback.
Theorem C60_iterator : agree_next (iter_next Checked) (iter_next Wrapping).
Proof. exact ag_iter_next. Qed.
Print Assumptions C60_iterator.
Theorem C60_times : forall S (n1 n2 : next_fn S), agree_next n1 n2 -> agree_next (times_next Checked n1) (times_next Wrapping n2).
Proof. exact ag_times. Qed.
Print Assumptions C60_times.
Theorem C60_until : forall S (n1 n2 : next_fn S) e, agree_next n1 n2 -> agree_next (until_next Checked n1 e) (until_next Wrapping n2 e).
Proof. exact ag_until. Qed.
Print Assumptions C60_until.
Theorem C60_every : forall S (n1 n2 : next_fn S) m fuel, agree_next n1 n2 -> agree_next (filter_next n1 fuel m) (filter_next n2 fuel m).
Proof. exact ag_filter. Qed.
Print Assumptions C60_every.
Theorem C60_without : forall S (n1 n2 : next_fn S) m fuel, agree_next n1 n2 -> agree_next (without_next n1 fuel m) (without_next n2 fuel m).
Proof. exact ag_without. Qed.
Print Assumptions C60_without.
Theorem C60_parsed_iterator : agree_next (user_next Checked) (user_next Wrapping).
Proof. exact ag_user_next. Qed.
Print Assumptions C60_parsed_iterator.
(** What the theorems about [agree_next] mean for the items a caller sees. *)
Theorem C60_items : forall S (n1 n2 : next_fn S), agree_next n1 n2 -> forall k s, agree_item n1 n2 k s.
Proof. exact ag_nth. Qed.
Print Assumptions C60_items.
Theorem C60_weeks : forall n, agree (weeks Checked n) (weeks Wrapping n).
Proof. exact ag_weeks. Qed.
Print Assumptions C60_weeks.
Theorem C60_weekly : forall t n, agree (weekly Checked t n) (weekly Wrapping t n).
Proof. exact ag_weekly. Qed.
Print Assumptions C60_weekly.
Theorem C60_parse : forall cfg pd pdt now1 now2 s, agree (parse Checked cfg pd pdt now1 now2 s) (parse Wrapping cfg pd pdt now1 now2 s).
Proof. exact ag_parse. Qed.
Print Assumptions C60_parse.

(** Both sides of the disjunction occur. *)
Example C60_same : calculate Checked (op_add (Moment noon2) (Days 3)) = calculate Wrapping (op_add (Moment noon2) (Days 3))
  /\ calculate Checked (op_add (Moment noon2) (Days 3)) <> Panic PArith.
Proof. split; [vm_compute; reflexivity|vm_compute; discriminate]. Qed.
Example C60_differ : calculate Checked (op_add (Days i64_max) (Days 1)) = Panic PArith /\ calculate Wrapping (op_add (Days i64_max) (Days 1)) = Ok (Days i64_min).
Proof. split; vm_compute; reflexivity. Qed.
Example C60_weeks_differ : weeks Checked 2000000000000000000 = Panic PArith /\ weeks Wrapping 2000000000000000000 = Ok (Days (-4446744073709551616)).
Proof. split; vm_compute; reflexivity. Qed.
Example C60_getter_differ : get_seconds Checked (Days i64_max) = Panic PArith /\ get_seconds Wrapping (Days i64_max) = Ok (-86400).
Proof. split; vm_compute; reflexivity. Qed.
Example C60_items_same : nth_item (iter_next Checked) 2 (mkiter (Moment noon2) (Days 3) false) = nth_item (iter_next Wrapping) 2 (mkiter (Moment noon2) (Days 3) false)
  /\ nth_item (iter_next Checked) 2 (mkiter (Moment noon2) (Days 3) false) = Some (calculate Checked (op_add (Moment noon2) (Days 6))).
Proof. split; vm_compute; reflexivity. Qed.
(** An hourly step that overflows, under every adapter and backwards; and one that does not. *)
Example C60_adapters_case : let it := mkiter (Moment noon2) (Hours i64_max) true in let ok := mkiter (Moment noon2) (Hours 12) true in let e := mkdt 2017 1 1 0 0 0 0 in
  fst (skip Checked it) = Panic PArith /\ fst (skip Wrapping it) <> Panic PArith /\ skip Wrapping ok = skip Checked ok /\ fst (skip Checked ok) = Ok tt /\
  fst (rollback Checked (mkiter (Moment noon2) (Years i64_min) true)) = Panic PArith /\ fst (rollback Wrapping (mkiter (Moment noon2) (Years i64_min) true)) <> Panic PArith /\
  rollback Wrapping ok = rollback Checked ok /\ fst (rollback Checked ok) = Ok tt /\
  fst (times_next Checked (iter_next Checked) (times_new it 7)) = Some (Panic PArith) /\ fst (times_next Wrapping (iter_next Wrapping) (times_new it 7)) <> Some (Panic PArith) /\
  fst (until_next Checked (iter_next Checked) e it) = Some (Panic PArith) /\ fst (until_next Wrapping (iter_next Wrapping) e it) <> Some (Panic PArith) /\
  fst (filter_next (iter_next Checked) 9 (day_matches Tuesday) ok) = fst (filter_next (iter_next Wrapping) 9 (day_matches Tuesday) ok) /\
  fst (filter_next (iter_next Checked) 9 (day_matches Tuesday) ok) = Some (Ok (Moment (mkdt 2016 3 1 0 0 0 0))) /\
  fst (without_next (iter_next Checked) 9 (day_matches Tuesday) ok) = Some (Ok (Moment (mkdt 2016 3 2 0 0 0 0))) /\
  weekly Checked (Moment noon2) 2000000000000000000 = Panic PArith /\ weekly Wrapping (Moment noon2) 2000000000000000000 <> Panic PArith /\
  weekly Wrapping (Moment noon2) 3 = weekly Checked (Moment noon2) 3 /\
  parse Checked (mkcfg true true) toy_dates toy_times noon2 noon2 "2000000000000000000 weeks" = Panic PArith /\
  parse Wrapping (mkcfg true true) toy_dates toy_times noon2 noon2 "2000000000000000000 weeks" = Ok (PTimeType (Days (-4446744073709551616))).
Proof. cbv zeta. repeat apply conj; vm_compute; (reflexivity || discriminate). Qed.
