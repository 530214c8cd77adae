(** What the kinds of values are, without the tests of the program. *)
Require Import ZArith Bool List.
From Verif Require Import Prelude Spec Chrono TimeType Matcher Iter SpecTree SpecMoment SpecIter IterProofs AdapterProofs OrdProofs ComposeProofs ErrProofs.
Local Open Scope Z_scope.

Lemma amount_kind : forall t, is_a_amount t = true <-> exists u n, t = mk u n.
Proof.
  intro t. split.
  - destruct t as [n|n|n|n|n|n| | | | | | | |]; cbn; try discriminate; intros _;
      [exists USec, n|exists UMin, n|exists UHour, n|exists UDay, n|exists UMonth, n|exists UYear, n]; reflexivity.
  - intros (u & n & ->). destruct u; reflexivity.
Qed.
Lemma moment_kind : forall t, (forall m, t <> Moment m) -> is_moment t = false.
Proof. intros t H. destruct t; try reflexivity. exfalso. exact (H _ eq_refl). Qed.

Lemma kind_build : forall b inc it, build b inc = Ok it <-> (exists u n, inc = mk u n) /\ it = mkiter (Moment b) inc false.
Proof. intros b inc it. rewrite build_iff, amount_kind. reflexivity. Qed.
Lemma kind_build_fails : forall b inc, (forall u n, inc <> mk u n) -> build b inc = Err (ArgumentErrorNotAnAmount inc).
Proof.
  intros b inc H. unfold build. destruct (is_a_amount inc) eqn:A; [|reflexivity].
  apply amount_kind in A. destruct A as (u & n & E). exfalso. exact (H u n E).
Qed.
Lemma kind_receivers : forall md t n inc, (forall m, t <> Moment m) ->
  let e := Err (ArgumentErrorNotAnAmount t) in
  minutely t n = e /\ hourly t n = e /\ daily t n = e /\ weekly md t n = e /\ monthly t n = e /\ yearly t n = e /\ every t inc = e.
Proof. intros md t n inc H. exact (ctor_other md t n inc (moment_kind t H)). Qed.
Lemma kind_until : forall md S (nx : next_fn S) ending k s t v, (forall m, v <> Moment m) ->
  nth_item nx k s = Some (Ok t) -> calculate md t = Ok v ->
  nth_item (until_next md nx ending) k s = Some (Err (ArgumentErrorNotAMoment (name v))).
Proof. intros md S nx ending k s t v H. exact (until_other md nx ending k s t v (moment_kind v H)). Qed.
Lemma kind_queries : forall t, (forall m, t <> Moment m) ->
  (forall d, is_a t d = Err (CannotCompareDayTo (name t)) /\ day_matches d t = Err (ArgumentErrorNotAMoment (name t)) /\ day_filter d t = false) /\
  (forall d, is_in t d = Err (CannotCompareMonthTo (name t)) /\ month_matches d t = Err (ArgumentErrorNotAMoment (name t)) /\ month_filter d t = false).
Proof. intros t H. exact (non_moment_queries t (moment_kind t H)). Qed.
Lemma kind_filters : forall t d mo, (forall m, t <> Moment m) ->
  filter_matches (day_filter d) t = Ok false /\ filter_matches (month_filter mo) t = Ok false /\
  day_matches d t = Err (ArgumentErrorNotAMoment (name t)) /\ month_matches mo t = Err (ArgumentErrorNotAMoment (name t)).
Proof. intros t d mo H. exact (filters_other t d mo (moment_kind t H)). Qed.
Lemma kind_errors : forall md t e, tt_ok t = true -> calculate md t = Err e ->
  match e with
  | OutOfBounds _ _ _ _ _ _ | CannotAdd _ _ | CannotSub _ _ => True
  | CannotCalculateEndOfYearOn v | CannotCalculateEndOfMonthOn v => exists u n, v = mk u n
  | _ => False
  end.
Proof. intros md t e T C. pose proof (error_kinds md t e T C) as K. destruct e; try exact K; apply amount_kind; exact K. Qed.
