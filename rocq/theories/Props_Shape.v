(** Properties C05-C09, C25 and C57: which expressions evaluate, and to what kind of value. *)
Require Import ZArith Bool List Lia String.
From Verif Require Import Prelude Spec Chrono TimeType SpecTree PreludeProofs EvalProofs AmountProofs ShapeProofs CompProofs.
Local Open Scope Z_scope.

(** C05 *)
Theorem C05_total : forall md t, tt_ok t = true ->
  calculate md t <> OutOfFuel /\
  (forall v, calculate md t = Ok v ->
     ((exists u n, v = mk u n /\ i64_min <= n <= i64_max) \/ (exists m, v = Moment m)) /\
     calculate md v = Ok v).
Proof.
  intros md t H. pose proof (calculate_good md t H) as G. split.
  - apply (good_not_fuel md). exact G.
  - intros v E. split; [|eapply calc_idem; eassumption].
    rewrite E in G. destruct G as [Gv Go].
    destruct v; try discriminate Gv; try (right; eexists; reflexivity); left;
      apply in_i64_iff in Go.
    + exists USec, n; auto. + exists UMin, n; auto. + exists UHour, n; auto.
    + exists UDay, n; auto. + exists UMonth, n; auto. + exists UYear, n; auto.
Qed.
Print Assumptions C05_total.

Definition m0 : datetime := mkdt 2016 2 29 23 59 58 123.
Definition C05_tree : timetype :=
  EndOfDay (Subtraction (Addition (Moment m0) (Addition (Hours 1) (Seconds 2))) (Subtraction (Hours 1) (Minutes 30))).
Example C05_case : tt_ok C05_tree = true /\
  calculate Checked C05_tree = Ok (Moment (mkdt 2016 3 1 23 59 59 0)) /\
  calculate Checked (EndOfMonth (Addition (Moment m0) (Seconds 2))) = Ok (Moment (mkdt 2016 3 31 0 0 0 0)).
Proof. repeat split. Qed.

(** C06 *)
Theorem C06_shape : forall md t, tt_ok t = true ->
  match shape_of t with
  | SAmount => (exists u n, calculate md t = Ok (mk u n)) \/ (md = Checked /\ calculate md t = Panic PArith)
  | SMoment => (exists m, calculate md t = Ok (Moment m)) \/
               (exists y mo d h mi s, calculate md t = Err (OutOfBounds y mo d h mi s)) \/
               (md = Checked /\ calculate md t = Panic PArith)
  | SBad => (exists e, calculate md t = Err e) \/ (md = Checked /\ calculate md t = Panic PArith)
  end.
Proof.
  intros md t H. pose proof (calculate_good md t H) as G. pose proof (calculate_shape md t) as K.
  destruct (calculate md t) as [v|e|p|]; cbn in G, K; [| |destruct G as [-> ->]|contradiction].
  - destruct (shape_of t); [| |contradiction]; left.
    + destruct v; try discriminate K.
      * exists USec, n; reflexivity. * exists UMin, n; reflexivity. * exists UHour, n; reflexivity.
      * exists UDay, n; reflexivity. * exists UMonth, n; reflexivity. * exists UYear, n; reflexivity.
    + destruct v; try discriminate K. eauto.
  - destruct (shape_of t); [contradiction| |eauto]. right; left. destruct e; try discriminate K.
    repeat eexists.
  - destruct (shape_of t); auto.
Qed.
Print Assumptions C06_shape.
Example C06_case :
  shape_of C05_tree = SMoment /\ shape_of (Addition (Subtraction (Moment m0) (Days 1)) (Days 1)) = SBad /\
  shape_of (Addition (Hours 3) (EndOfDay (Moment m0))) = SBad /\
  shape_of (Subtraction (Days 1) (Hours 2)) = SAmount.
Proof. repeat split. Qed.

(** C07 *)
Theorem C07_moment_left_only : forall md t m, tt_ok t = true -> dt_valid m = true ->
  calculate md (Addition t (Moment m)) = Err (CannotAdd t (Moment m)) /\
  (forall v, is_end t = false -> calculate md t = Ok v ->
     calculate md (Subtraction t (Moment m)) = Err (CannotSub v (Moment m))).
Proof.
  intros md t m Ht Hm. split; [apply add_any_moment; assumption|].
  intros v He Hv. apply sub_any_moment; assumption.
Qed.
Print Assumptions C07_moment_left_only.
Example C07_case :
  calculate Checked (Addition (Hours 3) (Moment m0)) = Err (CannotAdd (Hours 3) (Moment m0)) /\
  calculate Checked (Addition (Moment m0) (Moment m0)) = Err (CannotAdd (Moment m0) (Moment m0)) /\
  calculate Checked (Subtraction (Addition (Hours 3) (Days 1)) (Moment m0)) = Err (CannotSub (Hours 27) (Moment m0)) /\
  calculate Checked (Subtraction (Moment m0) (Moment m0)) = Err (CannotSub (Moment m0) (Moment m0)).
Proof. repeat split. Qed.

(** C08. False of the code: the README's `moment - a + b` is always an error (or an overflow
    panic).  [_partial] states what does happen: the subtraction is evaluated and then the
    operands of the addition are swapped, which is rejected. *)
Theorem C08_sub_then_add_partial : forall md m a u n, dt_valid m = true -> tt_ok a = true -> in_i64 n = true ->
  match calculate md (Subtraction (Moment m) a) with
  | Ok r => calculate md (Addition (Subtraction (Moment m) a) (mk u n)) = Err (CannotAdd (mk u n) r)
  | other => calculate md (Addition (Subtraction (Moment m) a) (mk u n)) = other
  end.
Proof.
  intros md m a u n Hm Ha Hn. rewrite sub_then_add by assumption.
  pose proof (calculate_good md (Subtraction (Moment m) a)) as G.
  destruct (calculate md (Subtraction (Moment m) a)) as [r| | |] eqn:E; try reflexivity.
  cbn [bind].
  assert (Hm' : is_moment r = true).
  { pose proof (calculate_shape md (Subtraction (Moment m) a)) as K. rewrite E in K. cbn in K.
    destruct (shape_of a); [exact K|contradiction|contradiction]. }
  destruct r; try discriminate Hm'.
  apply add_any_moment; [rewrite ok_mk; assumption|].
  apply G. cbn. rewrite Hm. exact Ha.
Qed.
Print Assumptions C08_sub_then_add_partial.
Theorem C08_sub_then_add_refuted : exists m a b r,
  dt_valid m = true /\ calculate Checked (Subtraction (Moment m) a) = Ok (Moment r) /\
  (exists r', calculate Checked (Addition (Moment r) b) = Ok (Moment r')) /\
  calculate Checked (Addition (Subtraction (Moment m) a) b) = Err (CannotAdd b (Moment r)).
Proof.
  exists (mkdt 2000 1 10 0 0 0 0), (Days 2), (Hours 1), (mkdt 2000 1 8 0 0 0 0).
  repeat split. eexists. vm_compute. reflexivity.
Qed.
Print Assumptions C08_sub_then_add_refuted.
Example C08_case : calculate Checked (Addition (Subtraction (Moment (mkdt 2000 1 10 0 0 0 0)) (Days 2)) (mk UHour 1))
  = Err (CannotAdd (Hours 1) (Moment (mkdt 2000 1 8 0 0 0 0))).
Proof. reflexivity. Qed.

(** C09 *)
Theorem C09_end_of_operand : forall md e o v, tt_ok e = true -> tt_ok o = true -> is_end e = true ->
  calculate md (Addition e o) <> Ok v /\ calculate md (Addition o e) <> Ok v /\
  calculate md (Subtraction e o) <> Ok v /\ calculate md (Subtraction o e) <> Ok v.
Proof.
  intros md e o v He Ho Hend.
  assert (H : forall t, shape_of t = SBad -> calculate md t <> Ok v).
  { intros t Hs E. pose proof (calculate_shape md t) as K. rewrite Hs, E in K. exact K. }
  pose proof (end_shape e Hend) as Hs.
  repeat split; apply H; cbn [shape_of]; rewrite ?Hend, ?orb_true_r;
    destruct Hs as [-> | ->]; try destruct (shape_of o); reflexivity.
Qed.
Print Assumptions C09_end_of_operand.
Example C09_case : let e := EndOfMonth (Moment m0) in
  is_end e = true /\ tt_ok e = true /\
  calculate Checked (Addition e (Days 1)) = Err (CannotAdd (Days 1) e) /\
  calculate Checked (Subtraction (Days 1) e) = Err (CannotSub (Days 1) e).
Proof. repeat split. Qed.

(** C25 *)
Theorem C25_ok_moments_valid : forall md t m, tt_ok t = true -> calculate md t = Ok (Moment m) ->
  min_year <= year m <= max_year /\ date_exists (year m) (month m) (day m) = true /\
  0 <= hour m < 24 /\ 0 <= minute m < 60 /\ 0 <= second m < 60 /\ 0 <= nano m < 2000000000 /\
  (is_moment t = false -> nano m = 0).
Proof.
  intros md t m Ht E. pose proof (calculate_good md t Ht) as G. rewrite E in G.
  destruct G as [_ G]. cbn [tt_ok] in G. apply dt_valid_iff in G.
  destruct G as (G1 & G2 & G3 & G4 & G5 & G6). do 6 (split; [assumption|]).
  intro Hm. eapply calculate_whole; eassumption.
Qed.
Print Assumptions C25_ok_moments_valid.
(** Parts of seconds remain only in a moment that stands alone. *)
Theorem C25_bare_moment : forall md t m, tt_ok t = true -> calculate md t = Ok (Moment m) -> nano m <> 0 -> t = Moment m.
Proof.
  intros md t m Ht E Hn. destruct (C25_ok_moments_valid md t m Ht E) as (_ & _ & _ & _ & _ & _ & G).
  destruct t; try (elim Hn; apply G; reflexivity). injection E as <-. reflexivity.
Qed.
Print Assumptions C25_bare_moment.
Example C25_bare_case : nano m0 = 123 /\ calculate Checked (Moment m0) = Ok (Moment m0) /\ calculate Checked (EndOfMinute (Moment m0)) = Ok (Moment (mkdt 2016 2 29 23 59 59 0)).
Proof. repeat split. Qed.
Example C25_case : tt_ok (Addition (Moment m0) (Seconds 0)) = true /\
  calculate Checked (Addition (Moment m0) (Seconds 0)) = Ok (Moment (mkdt 2016 2 29 23 59 58 0)).
Proof. repeat split. Qed.

(** C57. Well-shaped expressions are evaluated operand by operand. *)
Theorem C57_compositional : forall md a b, tt_ok a = true -> tt_ok b = true ->
  (shape_of (Addition a b) <> SBad -> forall v,
     (calculate md (Addition a b) = Ok v <->
      exists x y, calculate md a = Ok x /\ calculate md b = Ok y /\ calculate md (Addition x y) = Ok v)) /\
  (shape_of (Subtraction a b) <> SBad -> forall v,
     (calculate md (Subtraction a b) = Ok v <->
      exists x y, calculate md a = Ok x /\ calculate md b = Ok y /\ calculate md (Subtraction x y) = Ok v)).
Proof.
  intros md a b Ha Hb.
  assert (H : forall r f, comp r (calculate md a) (calculate md b) f -> forall v,
    (r = Ok v <-> exists x y, calculate md a = Ok x /\ calculate md b = Ok y /\ f x y = Ok v)).
  { intros r f (H1 & H2 & H3) v. split.
    - intro E. destruct (calculate md a) as [x| | |], (calculate md b) as [y| | |];
        try (rewrite E in H2; discriminate (H2 eq_refl)); try (rewrite E in H3; discriminate (H3 eq_refl)).
      exists x, y. repeat split. rewrite <- (H1 x y eq_refl eq_refl). exact E.
    - intros (x & y & E1 & E2 & E3). rewrite (H1 x y E1 E2). exact E3. }
  split; intro Hs; apply H; [apply calc_add_comp|apply calc_sub_comp]; assumption.
Qed.
Print Assumptions C57_compositional.
Example C57_case :
  let a := Addition (Moment m0) (Seconds 62) in let b := Subtraction (Days 3) (Hours 1) in
  shape_of (Addition a b) = SMoment /\ tt_ok a && tt_ok b = true /\
  calculate Checked (Addition a b) = Ok (Moment (mkdt 2016 3 3 23 1 0 0)).
Proof. repeat split. Qed.
