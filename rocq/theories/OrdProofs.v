(** The order on TimeType, weekday and month queries. *)
Require Import ZArith Bool List Lia ZifyBool.
From Verif Require Import Prelude Spec Chrono Util TimeType Matcher SpecTree SpecMoment PreludeProofs CalendarProofs EvalProofs AmountProofs ShapeProofs CompProofs AddProofs AddProofs2.
Local Open Scope Z_scope.
Ltac Zify.zify_post_hook ::= Z.div_mod_to_equations.

(** ** Moments *)
Lemma dt_cmp_eq : forall a b, dt_compare a b = Eq <-> a = b.
Proof.
  intros [a1 a2 a3 a4 a5 a6 a7] [b1 b2 b3 b4 b5 b6 b7]. unfold dt_compare. cbn. split.
  - repeat match goal with |- context [?x ?= ?y] => destruct (Z.compare_spec x y); [subst|discriminate|discriminate] end. reflexivity.
  - intro H. injection H as <- <- <- <- <- <- <-. rewrite !Z.compare_refl. reflexivity.
Qed.
Lemma dt_cmp_opp : forall a b, dt_compare b a = CompOpp (dt_compare a b).
Proof.
  intros [a1 a2 a3 a4 a5 a6 a7] [b1 b2 b3 b4 b5 b6 b7]. unfold dt_compare. cbn.
  rewrite (Z.compare_antisym a1 b1). destruct (a1 ?= b1); [cbn|reflexivity|reflexivity].
  rewrite (Z.compare_antisym a2 b2). destruct (a2 ?= b2); [cbn|reflexivity|reflexivity].
  rewrite (Z.compare_antisym a3 b3). destruct (a3 ?= b3); [cbn|reflexivity|reflexivity].
  rewrite (Z.compare_antisym a4 b4). destruct (a4 ?= b4); [cbn|reflexivity|reflexivity].
  rewrite (Z.compare_antisym a5 b5). destruct (a5 ?= b5); [cbn|reflexivity|reflexivity].
  rewrite (Z.compare_antisym a6 b6). destruct (a6 ?= b6); [cbn|reflexivity|reflexivity].
  apply Z.compare_antisym.
Qed.
Ltac zlt := repeat match goal with
  | H : (_ ?= _) = Lt |- _ => rewrite Z.compare_lt_iff in H
  | |- (_ ?= _) = Lt => rewrite Z.compare_lt_iff
  end.
Lemma dt_cmp_trans : forall a b c, dt_compare a b = Lt -> dt_compare b c = Lt -> dt_compare a c = Lt.
Proof.
  intros [a1 a2 a3 a4 a5 a6 a7] [b1 b2 b3 b4 b5 b6 b7] [c1 c2 c3 c4 c5 c6 c7]. unfold dt_compare. cbn.
  assert (Step : forall a b c (P Q R : comparison), (P = Lt -> Q = Lt -> R = Lt) ->
    match a ?= b with Eq => P | o => o end = Lt -> match b ?= c with Eq => Q | o => o end = Lt ->
    match a ?= c with Eq => R | o => o end = Lt).
  { intros a b c P Q R H H1 H2.
    destruct (Z.compare_spec a b); [|clear H1|discriminate];
    (destruct (Z.compare_spec b c); [|clear H2|discriminate]); subst.
    - rewrite Z.compare_refl. auto.
    - replace (b ?= c) with Lt by (symmetry; apply Z.compare_lt_iff; lia). reflexivity.
    - replace (a ?= c) with Lt by (symmetry; apply Z.compare_lt_iff; lia). reflexivity.
    - replace (a ?= c) with Lt by (symmetry; apply Z.compare_lt_iff; lia). reflexivity. }
  do 6 apply Step. intros. zlt. lia.
Qed.

Lemma inst_lt_date : forall a b, dt_valid a = true -> dt_valid b = true ->
  year a < year b \/ (year a = year b /\ (month a < month b \/ (month a = month b /\ day a < day b))) ->
  inst a < inst b.
Proof.
  intros a b Ha Hb H. apply day_number_lt_iff in H; [|apply valid_date; assumption|apply valid_date; assumption].
  rewrite !inst_sod. pose proof (sod_range a Ha). pose proof (sod_range b Hb). lia.
Qed.
Lemma nano_range : forall a, dt_valid a = true -> 0 <= nano a < 2000000000.
Proof. intros a H. apply dt_valid_iff in H. tauto. Qed.

Lemma dt_cmp_lt : forall a b, dt_valid a = true -> dt_valid b = true ->
  dt_compare a b = Lt -> inst a < inst b \/ (inst a = inst b /\ nano a < nano b).
Proof.
  intros a b Ha Hb H. unfold dt_compare in H.
  destruct (valid_facts a Ha) as (Ay & Amo & Ad & Aml & Ah & Ami & As).
  destruct (valid_facts b Hb) as (By & Bmo & Bd & Bml & Bh & Bmi & Bs).
  destruct (Z.compare_spec (year a) (year b)) as [E1|L|]; [|left; apply inst_lt_date; auto|discriminate].
  destruct (Z.compare_spec (month a) (month b)) as [E2|L|]; [|left; apply inst_lt_date; auto|discriminate].
  destruct (Z.compare_spec (day a) (day b)) as [E3|L|]; [|left; apply inst_lt_date; auto|discriminate].
  unfold inst, instant. rewrite E1, E2, E3.
  destruct (Z.compare_spec (hour a) (hour b)) as [E4|L|]; [|left; lia|discriminate].
  destruct (Z.compare_spec (minute a) (minute b)) as [E5|L|]; [|left; lia|discriminate].
  destruct (Z.compare_spec (second a) (second b)) as [E6|L|]; [|left; lia|discriminate].
  zlt. right. split; [lia|assumption].
Qed.
Lemma dt_cmp_chrono : forall a b, dt_valid a = true -> dt_valid b = true ->
  dt_compare a b = (inst a * 2000000000 + nano a ?= inst b * 2000000000 + nano b).
Proof.
  intros a b Ha Hb. pose proof (nano_range a Ha). pose proof (nano_range b Hb).
  destruct (dt_compare a b) eqn:E; symmetry.
  - apply dt_cmp_eq in E. subst b. apply Z.compare_refl.
  - apply dt_cmp_lt in E; [|assumption|assumption]. apply Z.compare_lt_iff. lia.
  - assert (E' : dt_compare b a = Lt) by (rewrite dt_cmp_opp, E; reflexivity).
    apply dt_cmp_lt in E'; [|assumption|assumption]. apply Z.compare_gt_iff. lia.
Qed.
Lemma dt_ltb_inst : forall a b, dt_valid a = true -> dt_valid b = true ->
  dt_ltb a b = (inst a * 2000000000 + nano a <? inst b * 2000000000 + nano b).
Proof. intros a b Ha Hb. unfold dt_ltb. rewrite dt_cmp_chrono by assumption. reflexivity. Qed.

(** ** Trees *)
Lemma cmp_variant : forall x y, variant x <> variant y -> tt_compare x y = (variant x ?= variant y).
Proof. intros [] [] H; try reflexivity; exfalso; apply H; reflexivity. Qed.

Lemma tt_cmp_eq : forall x y, tt_compare x y = Eq <-> x = y.
Proof.
  induction x; intro y; destruct y; cbn; (split; [intro H|intro H; try discriminate H]); try discriminate H;
    try (apply Z.compare_eq in H; congruence);
    try (injection H as <-; rewrite ?Z.compare_refl; reflexivity);
    try (apply dt_cmp_eq in H; congruence);
    try (injection H as <-; apply dt_cmp_eq; reflexivity);
    try (apply IHx in H; congruence);
    try (injection H as <-; apply IHx; reflexivity).
  - destruct (tt_compare x1 y1) eqn:E; try discriminate. apply IHx1 in E. apply IHx2 in H. congruence.
  - injection H as <- <-. rewrite (proj2 (IHx1 x1) eq_refl). apply IHx2. reflexivity.
  - destruct (tt_compare x1 y1) eqn:E; try discriminate. apply IHx1 in E. apply IHx2 in H. congruence.
  - injection H as <- <-. rewrite (proj2 (IHx1 x1) eq_refl). apply IHx2. reflexivity.
Qed.
Lemma tt_cmp_opp : forall x y, tt_compare y x = CompOpp (tt_compare x y).
Proof.
  induction x; intro y; destruct y; cbn; try reflexivity; try apply Z.compare_antisym; try apply dt_cmp_opp; try apply IHx.
  - rewrite (IHx1 y1). destruct (tt_compare x1 y1); cbn; try reflexivity. apply IHx2.
  - rewrite (IHx1 y1). destruct (tt_compare x1 y1); cbn; try reflexivity. apply IHx2.
Qed.
Lemma cmp_lt_variant : forall x y, tt_compare x y = Lt -> variant x <= variant y.
Proof.
  intros x y H. destruct (Z.eq_dec (variant x) (variant y)) as [E|E]; [lia|].
  rewrite cmp_variant in H by exact E. zlt. lia.
Qed.
Lemma lex_lt : forall c1 c2 c3 d1 d2 d3,
  (c1 = Eq -> c3 = c2) -> (c2 = Eq -> c3 = c1) -> (c1 = Lt -> c2 = Lt -> c3 = Lt) -> (d1 = Lt -> d2 = Lt -> d3 = Lt) ->
  match c1 with Eq => d1 | Lt => Lt | Gt => Gt end = Lt -> match c2 with Eq => d2 | Lt => Lt | Gt => Gt end = Lt ->
  match c3 with Eq => d3 | Lt => Lt | Gt => Gt end = Lt.
Proof.
  intros c1 c2 c3 d1 d2 d3 H1 H2 H3 H4 A B.
  destruct c1, c2; try discriminate;
    try (rewrite (H1 eq_refl)); auto; try (rewrite (H2 eq_refl)); auto; try (rewrite H3 by reflexivity); auto.
Qed.
Lemma tt_cmp_trans : forall x y z, tt_compare x y = Lt -> tt_compare y z = Lt -> tt_compare x z = Lt.
Proof.
  induction x; intros y z H1 H2;
  pose proof (cmp_lt_variant _ _ H1) as V1; pose proof (cmp_lt_variant _ _ H2) as V2;
  (match goal with |- tt_compare ?x z = Lt =>
    destruct (Z.eq_dec (variant x) (variant z)) as [E|E];
    [assert (E1 : variant x = variant y) by lia|
     rewrite cmp_variant by exact E; zlt; lia] end);
  destruct y; cbn in E1; try discriminate E1; destruct z; cbn in E; try discriminate E; cbn in H1, H2 |- *;
  try (zlt; lia); try (eapply dt_cmp_trans; eassumption); try (eapply IHx; eassumption).
  - revert H1 H2. refine (lex_lt (tt_compare x1 y1) (tt_compare y1 z1) (tt_compare x1 z1) (tt_compare x2 y2) (tt_compare y2 z2) (tt_compare x2 z2) _ _ _ _).
    + intro Q. apply tt_cmp_eq in Q. subst. reflexivity.
    + intro Q. apply tt_cmp_eq in Q. subst. reflexivity.
    + apply IHx1.
    + apply IHx2.
  - revert H1 H2. refine (lex_lt (tt_compare x1 y1) (tt_compare y1 z1) (tt_compare x1 z1) (tt_compare x2 y2) (tt_compare y2 z2) (tt_compare x2 z2) _ _ _ _).
    + intro Q. apply tt_cmp_eq in Q. subst. reflexivity.
    + intro Q. apply tt_cmp_eq in Q. subst. reflexivity.
    + apply IHx1.
    + apply IHx2.
Qed.

Lemma tt_cmp_amount : forall u a b, tt_compare (mk u a) (mk u b) = (a ?= b).
Proof. intros [] a b; reflexivity. Qed.
Lemma tt_cmp_units : forall u v a b, unit_secs u < unit_secs v -> tt_compare (mk u a) (mk v b) = Lt.
Proof. intros [] [] a b H; cbn in H; try lia; reflexivity. Qed.

Lemma tt_cmp_kinds : forall u n m a b c d k x k' y,
  tt_compare (mk u n) (Moment m) = Lt /\ tt_compare (Moment m) (Addition a b) = Lt /\ tt_compare (Addition a b) (Subtraction c d) = Lt /\
  tt_compare (Subtraction c d) (end_of k x) = Lt /\ (coarseness k' < coarseness k -> tt_compare (end_of k x) (end_of k' y) = Lt).
Proof.
  intros u n m a b c d k x k' y. split; [destruct u; reflexivity|]. split; [reflexivity|]. split; [reflexivity|]. split; [destruct k; reflexivity|].
  destruct k, k'; cbn; intro H; try lia; reflexivity.
Qed.
Lemma tt_cmp_lexi : forall a b c d,
  (tt_compare (Addition a b) (Addition c d) = Lt <-> tt_compare a c = Lt \/ a = c /\ tt_compare b d = Lt) /\
  (tt_compare (Subtraction a b) (Subtraction c d) = Lt <-> tt_compare a c = Lt \/ a = c /\ tt_compare b d = Lt) /\
  forall k, tt_compare (end_of k a) (end_of k b) = tt_compare a b.
Proof.
  intros a b c d. cbn [tt_compare]. destruct (tt_compare a c) eqn:E.
  - apply tt_cmp_eq in E. subst c. split; [|split]; [..|intros []; reflexivity]; (split; [intro H; right; split; [reflexivity|exact H]|intros [H|[_ H]]; [discriminate H|exact H]]).
  - split; [|split]; [..|intros []; reflexivity]; (split; [intro H; left; reflexivity|reflexivity]).
  - assert (N : a <> c) by (intro H; apply tt_cmp_eq in H; congruence).
    split; [|split]; [..|intros []; reflexivity]; (split; [discriminate|intros [H|[H _]]; [discriminate H|contradiction]]).
Qed.

(** ** Weekdays and months *)
Lemma weekday_range : forall y m d, 0 <= weekday y m d < 7.
Proof. intros. unfold weekday. lia. Qed.
Lemma one_wday : forall k, 0 <= k < 7 -> exists! d, (k =? wday_into d) = true.
Proof.
  intros k H.
  assert (C : k = 0 \/ k = 1 \/ k = 2 \/ k = 3 \/ k = 4 \/ k = 5 \/ k = 6) by lia.
  destruct C as [->|[->|[->|[->|[->|[->| ->]]]]]];
  [exists Monday|exists Tuesday|exists Wednesday|exists Thursday|exists Friday|exists Saturday|exists Sunday];
  (split; [reflexivity|intros [] Q; (reflexivity || discriminate Q)]).
Qed.
Lemma one_ymonth : forall k, 1 <= k <= 12 -> exists! d, (k =? ymonth_into d) = true.
Proof.
  intros k H.
  assert (C : k = 1 \/ k = 2 \/ k = 3 \/ k = 4 \/ k = 5 \/ k = 6 \/ k = 7 \/ k = 8 \/ k = 9 \/ k = 10 \/ k = 11 \/ k = 12) by lia.
  destruct C as [->|[->|[->|[->|[->|[->|[->|[->|[->|[->|[->| ->]]]]]]]]]]];
  [exists January|exists February|exists March|exists April|exists May|exists June|exists July|exists August|exists September|exists October|exists November|exists December];
  (split; [reflexivity|intros [] Q; (reflexivity || discriminate Q)]).
Qed.
Lemma one_day : forall m, exists! d, is_a (Moment m) d = Ok true.
Proof.
  intro m. destruct (one_wday (dt_weekday m) (weekday_range _ _ _)) as (d & H1 & H2).
  exists d. split; [cbn; rewrite H1; reflexivity|]. intros d' Q. apply H2. cbn in Q. congruence.
Qed.
Lemma one_month : forall m, dt_valid m = true -> exists! d, is_in (Moment m) d = Ok true.
Proof.
  intros m Hm. destruct (valid_facts m Hm) as (_ & Vmo & _).
  destruct (one_ymonth (month m) Vmo) as (d & H1 & H2).
  exists d. split; [cbn; rewrite H1; reflexivity|]. intros d' Q. apply H2. cbn in Q. congruence.
Qed.

Lemma agree_day : forall t d, day_matches d t =
  match is_a t d with Ok b => Ok b | _ => Err (ArgumentErrorNotAMoment (name t)) end.
Proof. intros [] d; try reflexivity. cbn. rewrite Z.eqb_sym. reflexivity. Qed.
Lemma agree_month : forall t d, month_matches d t =
  match is_in t d with Ok b => Ok b | _ => Err (ArgumentErrorNotAMoment (name t)) end.
Proof. intros [] d; try reflexivity. cbn. rewrite Z.eqb_sym. reflexivity. Qed.
Lemma agree_day_filter : forall t d, day_filter d t = match is_a t d with Ok b => b | _ => false end.
Proof. intros [] d; reflexivity. Qed.
Lemma agree_month_filter : forall t d, month_filter d t = match is_in t d with Ok b => b | _ => false end.
Proof. intros [] d; reflexivity. Qed.

Lemma non_moment_queries : forall t, is_moment t = false ->
  (forall d, is_a t d = Err (CannotCompareDayTo (name t)) /\ day_matches d t = Err (ArgumentErrorNotAMoment (name t)) /\ day_filter d t = false) /\
  (forall d, is_in t d = Err (CannotCompareMonthTo (name t)) /\ month_matches d t = Err (ArgumentErrorNotAMoment (name t)) /\ month_filter d t = false).
Proof. intros [] H; try discriminate H; repeat split. Qed.

(** The weekday [n] days later. *)
Lemma is_a_weekday : forall m d, is_a (Moment m) d = Ok true <-> wday_into d = weekday (year m) (month m) (day m).
Proof. intros m d. cbn. unfold dt_weekday. split; [intro H; injection H as H; lia|intro H; f_equal; lia]. Qed.

Lemma day_advance : forall md m n m' d, dt_valid m = true -> 0 <= n ->
  inst m + n * 86400 < instant (year m + 1) 1 31 0 0 0 ->
  calculate md (Addition (Moment m) (Days n)) = Ok (Moment m') ->
  is_a (Moment m) d = Ok true ->
  exists d', is_a (Moment m') d' = Ok true /\ wday_into d' = (wday_into d + n) mod 7.
Proof.
  intros md m n m' d Hm Hn HJ E Ha.
  assert (I : inst m' = inst m + n * 86400 /\ dt_valid m' = true).
  { destruct (Z_lt_le_dec (inst m + n * 86400) (instant (max_year + 1) 1 1 0 0 0)) as [L|G].
    - destruct (add_clock_exact md m UDay n Hm eq_refl Hn HJ L) as (m1 & E1 & V1 & _ & I1).
      cbn [mk] in E1. rewrite E1 in E. injection E as <-. split; assumption.
    - exfalso. assert (HS : n * unit_secs UDay <= span32).
      { assert (HI : inst m >= instant (year m) 1 1 0 0 0).
        { rewrite inst_sod. pose proof (sod_range m Hm). pose proof (doy_bounds _ _ _ (valid_date m Hm)).
          pose proof (day_number_jan (year m) 1). unfold instant, day_number in *. lia. }
        unfold instant in *. rewrite day_number_jan in *. rewrite leap_year_step in HJ.
        pose proof (year_length_bounds (year m)). cbn [unit_secs]. unfold span32. lia. }
      pose proof (add_clock_beyond md m UDay n Hm eq_refl Hn HS G) as O.
      cbn [mk] in O. exact (oob_err _ O _ E). }
  destruct I as [I V].
  destruct (one_day m') as (d' & Hd' & _). exists d'. split; [assumption|].
  apply is_a_weekday in Ha, Hd'. rewrite Ha, Hd'. unfold weekday.
  rewrite !inst_sod in I. pose proof (sod_range m Hm). pose proof (sod_range m' V).
  assert (Q : day_number (year m') (month m') (day m') = day_number (year m) (month m) (day m) + n).
  { generalize dependent (day_number (year m') (month m') (day m')).
    generalize (day_number (year m) (month m) (day m)). intros. lia. }
  rewrite Q. generalize (day_number (year m) (month m) (day m)). intro z. lia.
Qed.

Lemma leap_divides : forall y, is_leap_year y = true <-> (4 | y) /\ (~ (100 | y) \/ (400 | y)).
Proof.
  intro y. rewrite is_leap_year_leap. unfold leap.
  rewrite andb_true_iff, orb_true_iff, negb_true_iff, !Z.eqb_eq, Z.eqb_neq.
  rewrite !Z.mod_divide by lia. reflexivity.
Qed.
