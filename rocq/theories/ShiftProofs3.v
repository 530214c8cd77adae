(** Evaluation, iteration and queries with changed moments. *)
Require Import ZArith Bool List Lia ZifyBool.
From Verif Require Import Prelude Spec Chrono TimeType Matcher Iter SpecTree SpecMoment SpecIter SpecOver SpecWide SpecValue SpecAnswer SpecShift
  CalendarProofs AddProofs EvalProofs ShapeProofs AdapterProofs AnswerProofs2 AnswerProofs3 ShiftProofs ShiftProofs2.
Local Open Scope Z_scope.

Lemma tt_ok_whole : forall t, tt_ok t = true -> tt_ok (over whole_second t) = true.
Proof.
  induction t as [q|q|q|q|q|q|m|a IHa b IHb|a IHa b IHb|e IHe|e IHe|e IHe|e IHe|e IHe]; cbn [over tt_ok]; auto.
  - unfold dt_valid. cbn [whole_second year month day hour minute second nano]. rewrite !andb_true_iff. intuition.
  - rewrite !andb_true_iff. intuition.
  - rewrite !andb_true_iff. intuition.
Qed.
Lemma whole_calc : forall md t, tt_ok t = true -> calculate md (over whole_second t) = result_over whole_second (calculate md t).
Proof. intros md t H. rewrite !answer_correct; [apply answer_over|exact H|apply tt_ok_whole; exact H]. Qed.
Lemma build_mk : forall m inc it, build m inc = Ok it -> exists u n, inc = mk u n.
Proof.
  intros m inc it H. destruct inc as [q|q|q|q|q|q|x|a b|a b|e|e|e|e|e]; try discriminate H;
    [exists USec, q|exists UMin, q|exists UHour, q|exists UDay, q|exists UMonth, q|exists UYear, q]; reflexivity.
Qed.
Lemma whole_items : forall md m inc it it' k, dt_valid m = true -> tt_ok inc = true -> build m inc = Ok it -> build (whole_second m) inc = Ok it' ->
  nth_item (iter_next md) (S k) it' = nth_item (iter_next md) (S k) it.
Proof.
  intros md m inc it it' k V I B B'. rewrite (built_calls md m inc it _ V I B).
  rewrite (built_calls md (whole_second m) inc it' _ (tt_ok_whole (Moment m) V) I B'). f_equal. apply call_whole. exact (build_mk _ _ _ B).
Qed.

Lemma ltb_rounded : forall m e, nano m = 0 -> 0 <= nano e -> dt_ltb m e = dt_ltb m (rounded e).
Proof.
  intros m e M E. unfold dt_ltb, dt_compare, rounded. cbn [year month day hour minute second nano]. rewrite M.
  replace (0 ?= (if 0 <? nano e then 1 else 0)) with (0 ?= nano e); [reflexivity|].
  destruct (Z.ltb_spec 0 (nano e)) as [H|H].
  - change (0 ?= 1) with Lt. apply Z.compare_lt_iff. exact H.
  - replace (nano e) with 0 by lia. reflexivity.
Qed.
Lemma until_rounded : forall md St (nx : next_fn St) e s k, 0 <= nano e ->
  (forall t, nth_item nx k s = Some (Ok t) -> exists m, t = Moment m /\ nano m = 0) ->
  nth_item (until_next md nx e) k s = nth_item (until_next md nx (rounded e)) k s.
Proof.
  intros md St nx e s k E H. rewrite !until_item. unfold nth_item in H. unfold until_next. destruct (nx (after nx k s)) as [i s'].
  destruct i as [[t|er|p|]|]; try reflexivity. destruct (H t eq_refl) as (m & -> & N). rewrite (calc_value md (Moment m) eq_refl).
  cbn [is_moment get_moment fst]. rewrite (ltb_rounded m e N E). reflexivity.
Qed.

(** ** 400 years *)
Lemma part_ok : forall s t, part s t -> tt_ok t = true -> tt_ok s = true.
Proof.
  induction 1 as [t|s a b H IH|s a b H IH|s a b H IH|s a b H IH|p s e H IH]; intro T; auto; try (apply IH; cbn [tt_ok] in T; apply andb_prop in T; apply T).
  apply IH. destruct p; exact T.
Qed.
Lemma later_value : forall md k t v v', tt_ok t = true -> tt_ok (over (later k) t) = true -> calculate md t = Ok v ->
  calculate md (over (later k) t) = Ok v' -> v' = over (later k) v.
Proof.
  intros md k t v v' T T' H H'. rewrite answer_correct in H by exact T. rewrite answer_correct in H' by exact T'.
  destruct (shift md k t T T' v H) as [[E _]|[[_ E]|[(y & mo & d & h & mi & s & E) _]]]; rewrite E in H'; try discriminate H'. injection H' as <-. reflexivity.
Qed.
Lemma later_stays : forall md k t v, tt_ok t = true -> tt_ok (over (later k) t) = true -> calculate md t = Ok v ->
  (forall s x, part s t -> calculate md s = Ok (Moment x) -> min_year <= year x + 400 * k <= max_year) ->
  calculate md (over (later k) t) = Ok (over (later k) v) \/ (md = Checked /\ calculate md (over (later k) t) = Panic PArith).
Proof.
  intros md k t v T T' H P. rewrite answer_correct in H by exact T. rewrite (answer_correct md _ T').
  destruct (shift md k t T T' v H) as [[E _]|[E|[_ (s & x & Ps & A & Lv)]]]; [left; exact E|right; exact E|].
  exfalso. apply Lv. apply (P s x Ps). rewrite answer_correct by exact (part_ok _ _ Ps T). exact A.
Qed.
Lemma later_leaves : forall md k t v, tt_ok t = true -> tt_ok (over (later k) t) = true -> calculate md t = Ok v ->
  match calculate md (over (later k) t) with
  | Ok v' => v' = over (later k) v
  | Err e => (exists y mo d h mi s, e = OutOfBounds y mo d h mi s) /\
      exists s x, part s t /\ calculate md s = Ok (Moment x) /\ ~ (min_year <= year x + 400 * k <= max_year)
  | Panic p => md = Checked /\ p = PArith
  | OutOfFuel => False
  end.
Proof.
  intros md k t v T T' H. rewrite answer_correct in H by exact T. rewrite (answer_correct md _ T').
  destruct (shift md k t T T' v H) as [[E _]|[[M E]|[(y & mo & d & h & mi & se & E) (s & x & Ps & A & Lv)]]]; rewrite E.
  - reflexivity.
  - split; [exact M|reflexivity].
  - split; [repeat eexists|]. exists s, x. split; [exact Ps|]. split; [|exact Lv]. rewrite answer_correct by exact (part_ok _ _ Ps T). exact A.
Qed.

Section Calls.
Variables (md : mode) (k : Z) (inc : timetype).
Hypothesis Hinc : exists u n, inc = mk u n.
Hypothesis Hok : tt_ok inc = true.
Lemma call_S : forall m j, call_answer md m inc (S j) = answer md (Addition (Nat.iter j (held md inc) (Moment m)) inc).
Proof. reflexivity. Qed.
(** A call that succeeds succeeded before, and holds its value. *)
Lemma call_held : forall j m v, call_answer md m inc j = Ok v -> Nat.iter j (held md inc) (Moment m) = v.
Proof.
  intros [|j] m v H; [injection H as <-; reflexivity|]. rewrite call_S in H. change (Nat.iter (S j) (held md inc) (Moment m)) with (held md inc (Nat.iter j (held md inc) (Moment m))).
  unfold held at 1. rewrite H. reflexivity.
Qed.
Lemma call_before : forall j m v, call_answer md m inc (S j) = Ok v -> exists x, call_answer md m inc j = Ok (Moment x).
Proof.
  intros j m v H. rewrite call_S in H. destruct (held_kind md inc Hinc j m) as [[x X]|F].
  - exists x. destruct j as [|j]; [rewrite <- X; reflexivity|]. rewrite call_S.
    change (held md inc (Nat.iter j (held md inc) (Moment m)) = Moment x) in X. unfold held at 1 in X.
    destruct (answer md (Addition (Nat.iter j (held md inc) (Moment m)) inc)); try discriminate X. rewrite X. reflexivity.
  - exfalso. rewrite (failed_again md inc Hinc _ F) in H. destruct F as (_ & _ & N). exact (N v H).
Qed.
Lemma call_fails : forall j m, (forall v, call_answer md m inc j <> Ok v) -> call_answer md m inc (S j) = call_answer md m inc j.
Proof.
  intros [|j] m N; [elim (N _ eq_refl)|]. rewrite call_S. destruct (held_kind md inc Hinc (S j) m) as [[x X]|F].
  - exfalso. change (held md inc (Nat.iter j (held md inc) (Moment m)) = Moment x) in X. unfold held at 1 in X. rewrite call_S in N.
    destruct (answer md (Addition (Nat.iter j (held md inc) (Moment m)) inc)) as [v| | |]; try discriminate X. elim (N v eq_refl).
  - rewrite (failed_again md inc Hinc _ F). rewrite call_S in *.
    change (Nat.iter (S j) (held md inc) (Moment m)) with (held md inc (Nat.iter j (held md inc) (Moment m))). unfold held at 1.
    destruct (answer md (Addition (Nat.iter j (held md inc) (Moment m)) inc)) as [v| | |] eqn:E; [elim (N v eq_refl)|exact E..].
Qed.
Lemma call_valid : forall j m x, dt_valid m = true -> call_answer md m inc j = Ok (Moment x) -> dt_valid x = true.
Proof.
  induction j as [|j IH]; intros m x V H; [injection H as <-; exact V|]. destruct (call_before _ _ _ H) as [y Y]. rewrite call_S, (call_held _ _ _ Y) in H.
  refine (good_value md (Addition (Moment y) inc) (Moment x) _ H). cbn [tt_ok]. rewrite (IH m y V Y), Hok. reflexivity.
Qed.
Lemma call_is_moment : forall j m v, call_answer md m inc j = Ok v -> exists x, v = Moment x.
Proof.
  intros [|j] m v H; [injection H as <-; eexists; reflexivity|]. destruct (call_before _ _ _ H) as [y Y]. rewrite call_S, (call_held _ _ _ Y), (moment_plus md inc Hinc) in H.
  exact (forward_moment md _ _ _ _ H).
Qed.
Lemma over_inc : over (later k) inc = inc.
Proof. destruct Hinc as (u & n & ->). apply over_mk. Qed.
Lemma step_later : forall y x, dt_valid y = true -> dt_valid (later k y) = true -> answer md (Addition (Moment y) inc) = Ok (Moment x) ->
  answer md (Addition (Moment (later k y)) inc) = moved k x \/ (md = Checked /\ answer md (Addition (Moment (later k y)) inc) = Panic PArith).
Proof. intros y x V V' H. rewrite (moment_plus md inc Hinc) in *. exact (forward_later md k y _ _ V V' x H). Qed.
Lemma calls_later : forall j m v v', dt_valid m = true -> dt_valid (later k m) = true -> call_answer md m inc j = Ok v -> call_answer md (later k m) inc j = Ok v' ->
  v' = over (later k) v.
Proof.
  induction j as [|j IH]; intros m v v' V V' H H'.
  - injection H as <-. injection H' as <-. reflexivity.
  - destruct (call_before _ _ _ H) as [y Y]. destruct (call_before _ _ _ H') as [y' Y']. pose proof (IH m _ _ V V' Y Y') as E. injection E as ->.
    destruct (call_is_moment _ _ _ H) as [x ->]. rewrite call_S, (call_held _ _ _ Y) in H. rewrite call_S, (call_held _ _ _ Y') in H'.
    destruct (step_later y x (call_valid _ _ _ V Y) (call_valid _ _ _ V' Y') H) as [E|[_ E]]; rewrite E in H'; [|discriminate H'].
    unfold moved in H'. destruct (_ && _) in H'; [|discriminate H']. injection H' as <-. reflexivity.
Qed.
Lemma calls_stay : forall j m x, dt_valid m = true -> dt_valid (later k m) = true -> call_answer md m inc j = Ok (Moment x) ->
  (forall i y, (i <= j)%nat -> call_answer md m inc i = Ok (Moment y) -> min_year <= year y + 400 * k <= max_year) ->
  call_answer md (later k m) inc j = Ok (Moment (later k x)) \/ (md = Checked /\ call_answer md (later k m) inc j = Panic PArith).
Proof.
  induction j as [|j IH]; intros m x V V' H R; [injection H as <-; left; reflexivity|].
  destruct (call_before _ _ _ H) as [y Y]. destruct (IH m y V V' Y (fun i z Hi => R i z (le_S _ _ Hi))) as [Y'|[M Y']].
  - rewrite call_S, (call_held _ _ _ Y'). pose proof (R (S j) x (le_n _) H) as Rx. rewrite call_S, (call_held _ _ _ Y) in H.
    destruct (step_later y x (call_valid _ _ _ V Y) (call_valid _ _ _ V' Y') H) as [E|E]; [left|right; exact E].
    rewrite E. unfold moved. replace ((min_year <=? year x + 400 * k) && (year x + 400 * k <=? max_year)) with true by lia. reflexivity.
  - right. split; [exact M|]. rewrite call_fails; [exact Y'|]. intros v Ev. rewrite Y' in Ev. discriminate Ev.
Qed.
End Calls.

Lemma later_items : forall md k m inc it it' j v v', dt_valid m = true -> dt_valid (later k m) = true -> tt_ok inc = true ->
  build m inc = Ok it -> build (later k m) inc = Ok it' ->
  nth_item (iter_next md) j it = Some (Ok v) -> nth_item (iter_next md) j it' = Some (Ok v') -> v' = over (later k) v.
Proof.
  intros md k m inc it it' j v v' V V' I B B' H H'. rewrite (built_calls md m inc it j V I B) in H. rewrite (built_calls md _ inc it' j V' I B') in H'.
  injection H as H. injection H' as H'. exact (calls_later md k inc (build_mk _ _ _ B) I j m v v' V V' H H').
Qed.
Lemma later_items_stay : forall md k m inc it it' j x, dt_valid m = true -> dt_valid (later k m) = true -> tt_ok inc = true ->
  build m inc = Ok it -> build (later k m) inc = Ok it' -> nth_item (iter_next md) j it = Some (Ok (Moment x)) ->
  (forall i y, (i <= j)%nat -> nth_item (iter_next md) i it = Some (Ok (Moment y)) -> min_year <= year y + 400 * k <= max_year) ->
  nth_item (iter_next md) j it' = Some (Ok (Moment (later k x))) \/ (md = Checked /\ nth_item (iter_next md) j it' = Some (Panic PArith)).
Proof.
  intros md k m inc it it' j x V V' I B B' H R. rewrite (built_calls md m inc it j V I B) in H. rewrite (built_calls md _ inc it' j V' I B').
  injection H as H. destruct (calls_stay md k inc (build_mk _ _ _ B) I j m x V V' H) as [->|[M ->]]; [|left; reflexivity|right; split; [exact M|reflexivity]].
  intros i y Hi Hy. apply (R i y Hi). rewrite (built_calls md m inc it i V I B), Hy. reflexivity.
Qed.

Lemma year_days_later : forall y k, days_before_year (y + 400 * k) = days_before_year y + 146097 * k.
Proof.
  intros y k. unfold days_before_year. replace (y + 400 * k - 1) with (y - 1 + 400 * k) by lia. generalize (y - 1). intro z.
  replace ((z + 400 * k) / 4) with (z / 4 + 100 * k) by (replace (z + 400 * k) with (z + (100 * k) * 4) by lia; rewrite Z.div_add by lia; lia).
  replace ((z + 400 * k) / 100) with (z / 100 + 4 * k) by (replace (z + 400 * k) with (z + (4 * k) * 100) by lia; rewrite Z.div_add by lia; lia).
  replace ((z + 400 * k) / 400) with (z / 400 + k) by (replace (z + 400 * k) with (z + k * 400) by lia; rewrite Z.div_add by lia; lia). lia.
Qed.
Lemma day_later : forall y k mo d, day_number (y + 400 * k) mo d = day_number y mo d + 146097 * k.
Proof.
  intros. unfold day_number. rewrite year_days_later. unfold days_before. rewrite (dbn_days (y + 400 * k)), (dbn_days y), leap_later. lia.
Qed.
Lemma weekday_later : forall k m, dt_weekday (later k m) = dt_weekday m.
Proof.
  intros k m. unfold dt_weekday, weekday. cbn [later year month day]. rewrite day_later.
  replace (day_number (year m) (month m) (day m) + 146097 * k - 1) with (day_number (year m) (month m) (day m) - 1 + (20871 * k) * 7) by lia. apply Z.mod_add. lia.
Qed.
Lemma inst_later : forall k m, inst (later k m) = inst m + 400 * k * 31556952.
Proof. intros k m. unfold inst, instant. cbn [later year month day hour minute second]. rewrite day_later. lia. Qed.
Lemma elapsed_later : forall k m, inst (later k m) = inst m + k * 146097 * 86400.
Proof. intros k m. rewrite inst_later. lia. Qed.
Lemma queries_later : forall k t, (forall d, is_a (over (later k) t) d = is_a t d /\ day_matches d (over (later k) t) = day_matches d t /\ day_filter d (over (later k) t) = day_filter d t) /\
  (forall mo, is_in (over (later k) t) mo = is_in t mo /\ month_matches mo (over (later k) t) = month_matches mo t /\ month_filter mo (over (later k) t) = month_filter mo t).
Proof.
  intros k t. split; intro x; unfold is_a, is_in, day_matches, month_matches, day_filter, month_filter; destruct t; cbn [over get_moment name]; rewrite ?weekday_later; repeat split.
Qed.
Lemma compare_later : forall k a b, dt_compare (later k a) (later k b) = dt_compare a b.
Proof. intros k a b. unfold dt_compare. cbn [later year month day hour minute second nano]. rewrite !(Z.add_comm _ (400 * k)), Z.add_compare_mono_l. reflexivity. Qed.
Lemma order_later : forall k x y, tt_compare (over (later k) x) (over (later k) y) = tt_compare x y.
Proof.
  intro k. induction x; destruct y; cbn [over tt_compare variant]; rewrite ?IHx, ?IHx1, ?IHx2; try reflexivity. apply compare_later.
Qed.
