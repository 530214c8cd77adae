(** Evaluation nests its calls no deeper than three times the height of the expression. *)
Require Import ZArith Bool List Lia ZifyBool.
From Verif Require Import Prelude Spec Chrono Util TimeType Iter SpecIter ParserTimetype SpecTree SpecDepth PreludeProofs CalendarProofs EvalProofs AmountProofs ShapeProofs IterProofs.
Local Open Scope Z_scope.

Lemma value_height : forall t, is_value t = true -> height t = 0%nat.
Proof. intros t H. destruct t; try discriminate H; reflexivity. Qed.
(** How deep a call may nest further calls. *)
Definition nesting (c : call) : nat :=
  match c with
  | CCalc t => 3 * height t - 1
  | CAdd a b | CSub a b => 3 * Nat.max (height a) (height b) + Nat.min 1 (Nat.min (height a) (height b)) + (1 - Nat.max (height a) (height b))
  | CEndOfYear t | CEndOfMonth t | CEndOfDay t | CEndOfHour t | CEndOfMinute t => 3 * height t + 1
  | CAddToSeconds _ t | CAddToMinutes _ t | CAddToHours _ t | CAddToDays _ t | CAddToMonths _ t
  | CAddToYears _ t | CSubFromSeconds _ t | CSubFromMinutes _ t | CSubFromHours _ t
  | CSubFromDays _ t | CSubFromMonths _ t | CSubFromYears _ t | CAddToMoment _ t | CSubFromMoment _ t => 3 * height t - 1
  end%nat.

Section Body.
Variable md : mode.

Ltac gz := repeat first
  [ exact I
  | apply addc_goodz | apply subc_goodz | apply mulc_goodz ].

(** Closes [good] goals whose recursive calls go through [IH]. *)
Ltac okargs :=
  repeat match goal with
  | H : _ && _ = true |- _ => apply andb_true_iff in H; destruct H
  | H : _ /\ _ |- _ => destruct H
  | |- _ && _ = true => apply andb_true_iff
  | |- _ /\ _ => split
  end.
Ltac measure :=
  repeat match goal with
  | H : is_value ?a = true |- _ => apply value_height in H
  end;
  cbn [nesting height] in *; lia.
Ltac gstep rec IH :=
  lazymatch goal with
  | |- good md (Err _) => exact I
  | |- good md (Ok _) => split; [reflexivity|cbn [tt_ok] in *; try assumption; try (apply in_i64_iff); eauto using addc_range, subc_range, mulc_range]
  | |- good md (build_moment _) => apply build_moment_good
  | |- good md (bind (rec _) _) => apply bind_good_good; [|intros ? ? ?]
  | |- good md (bind (adjust_times_add _ _ _ _ _ _ _) _) =>
      apply bind_goodz_good; [apply adjust_times_add_goodz|intros ? ?]
  | |- good md (bind (adjust_times_sub _ _ _ _ _ _ _) _) =>
      apply bind_goodz_good; [apply adjust_times_sub_goodz|intros ? ?]
  | |- good md (bind _ _) => apply bind_goodz_good; [gz|intros ? ?]
  | |- good md (rec _) => apply IH; [cbn in *; okargs; auto|measure]
  end.

Lemma body_nested : forall (rec : call -> result) n,
  (forall c, call_ok c -> (nesting c < n)%nat -> good md (rec c)) ->
  forall c, call_ok c -> (nesting c < S n)%nat -> good md (body md rec c).
Proof.
  intros rec n IH c Hok Hm. destruct c; cbn [body call_ok nesting] in *.
  - destruct t; cbn [do_calculate tt_ok height] in *; okargs;
      try (split; [reflexivity|assumption]); gstep rec IH.
  - destruct Hok as [Ha Hb]. destruct a, b; cbn [add tt_ok height] in *; repeat gstep rec IH.
  - destruct Hok as [Ha Hb]. destruct a, b; cbn [sub tt_ok height] in *; repeat gstep rec IH.
  - unfold end_of_year. gstep rec IH; [gstep rec IH|].
    destruct a; try discriminate; try exact I. cbn in H0.
    destruct (from_ymd_opt _ _ _) as [nd|] eqn:H1; [|exact I]. cbn [ok_or bind].
    destruct (@and_hms_good kek nd 0 0 0) as (dt & H2 & H3); try lia. rewrite H3. cbn [bind].
    split; [reflexivity|]. eapply ymd_hms_valid; eassumption.
  - unfold end_of_month. gstep rec IH; [gstep rec IH|].
    destruct a; try discriminate; try exact I. cbn in H0.
    destruct (from_ymd_opt _ _ _) as [nd|] eqn:H1; [|exact I]. cbn [ok_or bind].
    destruct (@and_hms_good kek nd 0 0 0) as (dt & H2 & H3); try lia. rewrite H3. cbn [bind].
    split; [reflexivity|]. eapply ymd_hms_valid; eassumption.
  - unfold end_of_day. gstep rec IH; [gstep rec IH|].
    destruct a; try discriminate; try exact I. cbn in H0.
    destruct (from_ymd_opt _ _ _) as [nd|] eqn:H1; [|exact I]. cbn [ok_or bind].
    destruct (@and_hms_good kek nd 23 59 59) as (dt & H2 & H3); try lia. rewrite H3. cbn [bind].
    split; [reflexivity|]. eapply ymd_hms_valid; eassumption.
  - unfold end_of_hour. gstep rec IH; [gstep rec IH|].
    destruct a; try discriminate; try exact I. cbn in H0.
    destruct (from_ymd_opt _ _ _) as [nd|] eqn:H1; [|exact I].
    destruct (and_hms_opt _ _ _ _) as [dt|] eqn:H2; [|exact I]. cbn [ok_or bind].
    split; [reflexivity|]. eapply ymd_hms_valid; eassumption.
  - unfold end_of_minute. gstep rec IH; [gstep rec IH|].
    destruct a; try discriminate; try exact I. cbn in H0.
    destruct (from_ymd_opt _ _ _) as [nd|] eqn:H1; [|exact I].
    destruct (and_hms_opt _ _ _ _) as [dt|] eqn:H2; [|exact I]. cbn [ok_or bind].
    split; [reflexivity|]. eapply ymd_hms_valid; eassumption.
  - destruct t; cbn [add_to_seconds tt_ok height] in *; repeat gstep rec IH.
  - destruct t; cbn [add_to_minutes tt_ok height] in *; repeat gstep rec IH.
  - destruct t; cbn [add_to_hours tt_ok height] in *; repeat gstep rec IH.
  - destruct t; cbn [add_to_days tt_ok height] in *; repeat gstep rec IH.
  - destruct t; cbn [add_to_months tt_ok height] in *; repeat gstep rec IH.
  - destruct t; cbn [add_to_years tt_ok height] in *; repeat gstep rec IH.
  - destruct Hok as [Ha Hb].
    assert (month mom <= i64_max).
    { apply dt_valid_iff in Ha. destruct Ha as (_ & Ha & _). apply date_exists_iff in Ha.
      unfold i64_max. lia. }
    destruct t; cbn [add_to_moment tt_ok height] in *; repeat gstep rec IH; try assumption.
    eapply addc_range; eassumption.
  - destruct t; cbn [sub_from_seconds tt_ok height] in *; repeat gstep rec IH.
  - destruct t; cbn [sub_from_minutes tt_ok height] in *; repeat gstep rec IH.
  - destruct t; cbn [sub_from_hours tt_ok height] in *; repeat gstep rec IH.
  - destruct t; cbn [sub_from_days tt_ok height] in *; repeat gstep rec IH.
  - destruct t; cbn [sub_from_months tt_ok height] in *; repeat gstep rec IH.
  - destruct t; cbn [sub_from_years tt_ok height] in *; repeat gstep rec IH.
  - destruct Hok as [Ha Hb].
    destruct t; cbn [sub_from_moment tt_ok height] in *; repeat gstep rec IH; try assumption.
Qed.

Lemma run_nested : forall n c, call_ok c -> (nesting c < n)%nat -> good md (run md n c).
Proof. induction n; intros c Hok Hm; [lia|]. cbn [run]. eapply body_nested; eauto. Qed.
Lemma depth_enough : forall t n, tt_ok t = true -> (Nat.max 1 (3 * height t) <= n)%nat -> run md n (CCalc t) = calculate md t.
Proof.
  intros t n Ht Hn. assert (G : good md (run md n (CCalc t))) by (apply run_nested; [exact Ht|cbn [nesting]; lia]).
  unfold calculate. destruct (Nat.le_ge_cases n (S (size t))) as [L|L].
  - symmetry. apply (run_le md n (S (size t)) (CCalc t) L). apply (good_not_fuel md). exact G.
  - apply (run_le md (S (size t)) n (CCalc t) L). apply (good_not_fuel md). exact (calculate_good md t Ht).
Qed.

(** ** Depths that are needed *)
Definition zeros : timetype := Addition (Seconds 0) (Seconds 0).
Lemma zero_sum : forall n, (2 <= n)%nat -> run md n (CAdd (Seconds 0) (Seconds 0)) = Ok (Seconds 0).
Proof. intros [|[|n]] H; try lia. destruct md; reflexivity. Qed.
Lemma tower_add : forall k, run md (3 * k + 1) (CAdd (match k with O => Seconds 0 | _ => zeros end) (tower k)) = OutOfFuel.
Proof.
  induction k as [|k IH]; [reflexivity|].
  replace (3 * S k + 1)%nat with (S (3 * k + 3))%nat by lia. cbn [run]. unfold zeros. cbn [body].
  change (add (run md (3 * k + 3)) (Addition (Seconds 0) (Seconds 0)) (tower (S k)) = OutOfFuel).
  assert (E : add (run md (3 * k + 3)) (Addition (Seconds 0) (Seconds 0)) (tower (S k)) =
    do bx <- run md (3 * k + 3) (CAdd (Seconds 0) (Seconds 0)); run md (3 * k + 3) (CAdd bx (tower (S k)))) by (destruct k; reflexivity).
  rewrite E, zero_sum by lia. cbn [bind].
  replace (3 * k + 3)%nat with (S (S (3 * k + 1)))%nat by lia.
  assert (F : run md (S (S (3 * k + 1))) (CAdd (Seconds 0) (tower (S k))) =
    do x <- run md (3 * k + 1) (CAdd (match k with O => Seconds 0 | _ => zeros end) (tower k)); run md (3 * k + 1) (CAddToSeconds 0 x)) by (destruct k; reflexivity).
  rewrite F, IH. reflexivity.
Qed.
Lemma tower_height : forall k, height (tower k) = k.
Proof. induction k as [|k IH]; [reflexivity|]. destruct k; [reflexivity|]. cbn [tower height] in *. lia. Qed.
Lemma tower_ok : forall k, tt_ok (tower k) = true.
Proof. induction k as [|k IH]; [reflexivity|]. destruct k; [reflexivity|]. cbn [tower tt_ok] in *. rewrite IH. reflexivity. Qed.
Lemma tower_needs : forall k, run md (3 * S k - 1) (CCalc (tower (S k))) = OutOfFuel.
Proof.
  intro k. replace (3 * S k - 1)%nat with (S (3 * k + 1))%nat by lia. rewrite <- (tower_add k). destruct k; reflexivity.
Qed.
Lemma less_fails : forall n m c, (n <= m)%nat -> run md m c = OutOfFuel -> run md n c = OutOfFuel.
Proof. intros n m c H E. pose proof (run_le md n m c H) as L. destruct (run md n c); try reflexivity; rewrite L in E by discriminate; discriminate E. Qed.

(** Texts. *)
Fixpoint long_tree (k : nat) : timetype := match k with O => Seconds 0 | S k' => Addition (Seconds 0) (long_tree k') end.
Lemma long_into : forall k, amountexpr_into md (long_text k) = Ok (long_tree k).
Proof. induction k as [|k IH]; [reflexivity|]. cbn [long_text amountexpr_into]. rewrite IH. reflexivity. Qed.
Lemma long_add : forall k, run md (2 * k + 1) (CAdd (Seconds 0) (long_tree k)) = OutOfFuel.
Proof.
  induction k as [|k IH]; [reflexivity|]. replace (2 * S k + 1)%nat with (S (S (2 * k + 1))) by lia.
  change (run md (S (S (2 * k + 1))) (CAdd (Seconds 0) (long_tree (S k)))) with
    (do x <- run md (2 * k + 1) (CAdd (Seconds 0) (long_tree k)); run md (2 * k + 1) (CAddToSeconds 0 x)).
  rewrite IH. reflexivity.
Qed.
Lemma long_needs : forall k, run md (2 * k) (CCalc (long_tree k)) = OutOfFuel.
Proof.
  intros [|k]; [reflexivity|]. replace (2 * S k)%nat with (S (2 * k + 1)) by lia. exact (long_add k).
Qed.
Lemma long_ok : forall k, tt_ok (long_tree k) = true /\ calculate md (long_tree k) = Ok (Seconds 0).
Proof.
  intro k. assert (P : tt_ok (long_tree k) = true /\ amount_only (long_tree k) = true /\ abs_secs (long_tree k) = 0 /\ secs (long_tree k) = 0 /\ finest (long_tree k) = USec).
  { induction k as [|k (H1 & H2 & H3 & H4 & H5)]; [repeat split|]. cbn [long_tree tt_ok amount_only abs_secs secs finest]. rewrite H1, H2, H3, H4, H5. repeat split. }
  destruct P as (H1 & H2 & H3 & H4 & H5). split; [exact H1|]. destruct (calculate_amount_exact md _ H1 H2) as (v & Ev & Es); [rewrite H3; unfold i64_max; lia|].
  rewrite Ev, H5. cbn [mk]. f_equal. f_equal. rewrite H4, H5 in Es. cbn in Es. lia.
Qed.

(** ** Iterators after an error *)
Lemma error_next : forall it e it', iter_next md it = (Some (Err e), it') -> it' = mkiter (Addition (base it) (increment it)) (increment it) true.
Proof.
  intros it e it' H. unfold iter_next in H. destruct (had_first it) eqn:F; [|discriminate H]. cbn [negb] in H.
  unfold skip, recalculate, op_add_assign in H. cbn [base increment had_first] in H. rewrite F in H.
  destruct (calculate md (Addition (base it) (increment it))); try discriminate H. injection H as _ <-. reflexivity.
Qed.
Lemma error_grows : forall it e it' j, iter_ok it -> iter_next md it = (Some (Err e), it') ->
  base (after (iter_next md) j it') = Nat.iter (S j) (fun t => Addition t (increment it)) (base it).
Proof.
  intros it e it' j Hi H.
  assert (A : after (iter_next md) j it' = mkiter (Nat.iter (S j) (fun t => Addition t (increment it)) (base it)) (increment it) true); [|rewrite A; reflexivity].
  induction j as [|j IH]; [exact (error_next _ _ _ H)|]. rewrite after_S.
  pose proof (sticky md _ _ _ Hi H j) as K. unfold nth_item in K.
  destruct (iter_next md (after (iter_next md) j it')) as [x it2] eqn:E. cbn [fst snd] in *. subst x. apply error_next in E. rewrite IH in E. exact E.
Qed.
End Body.

Lemma tower_exact : forall md k, height (tower (S k)) = S k /\ tt_ok (tower (S k)) = true /\
  forall n, run md n (CCalc (tower (S k))) = if (n <? 3 * S k)%nat then OutOfFuel else calculate md (tower (S k)).
Proof.
  intros md k. split; [apply tower_height|]. split; [apply tower_ok|]. intro n. destruct (n <? 3 * S k)%nat eqn:E.
  - apply Nat.ltb_lt in E. apply (less_fails md n (3 * S k - 1)); [lia|]. apply tower_needs.
  - apply Nat.ltb_ge in E. apply depth_enough; [apply tower_ok|]. rewrite tower_height. lia.
Qed.
Lemma text_needs : forall md k, exists t, amountexpr_into md (long_text k) = Ok t /\ tt_ok t = true /\ calculate md t = Ok (Seconds 0) /\
  forall n, (n <= 2 * k)%nat -> run md n (CCalc t) = OutOfFuel.
Proof.
  intros md k. exists (long_tree k). destruct (long_ok md k) as [H1 H2]. split; [apply long_into|]. split; [exact H1|]. split; [exact H2|].
  intros n Hn. apply (less_fails md n (2 * k)); [exact Hn|]. apply long_needs.
Qed.
Lemma held_height : forall md it e it' j, iter_ok it -> iter_next md it = (Some (Err e), it') ->
  height (base (after (iter_next md) j it')) = (height (base it) + S j)%nat.
Proof.
  intros md it e it' j Hi H. rewrite (error_grows md it e it' j Hi H). destruct Hi as (_ & _ & Ha).
  assert (Z : height (increment it) = 0%nat) by (destruct (increment it); try discriminate Ha; reflexivity).
  clear H. induction j as [|j IH]; cbn [Nat.iter nat_rect height] in *; lia.
Qed.
