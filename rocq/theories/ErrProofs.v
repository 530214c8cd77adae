(** What an OutOfBounds error reports. *)
Require Import ZArith Bool List Lia ZifyBool.
From Verif Require Import Prelude Spec Chrono Util TimeType SpecTree SpecMoment PreludeProofs CalendarProofs EvalProofs AmountProofs ShapeProofs CompProofs AddProofs AddProofs2 SubProofs EndProofs.
Local Open Scope Z_scope.
Ltac Zify.zify_post_hook ::= Z.div_mod_to_equations.

Definition dh (r : result) : Prop :=
  match r with
  | Err (OutOfBounds _ _ d h _ _) => d = h
  | Err (CannotCalculateEndOfYearOn v) | Err (CannotCalculateEndOfMonthOn v) => is_a_amount v = true
  | Err (CannotAdd _ _) | Err (CannotSub _ _) => True
  | Err _ => False
  | _ => True
  end.

Lemma dh_build : forall f, dh (build_moment f).
Proof.
  intros [[[[[y mo] d] h] mi] s]. unfold build_moment.
  destruct (from_ymd_opt _ _ _) as [nd|]; [|reflexivity].
  destruct (and_hms_opt _ _ _ _); [exact I|reflexivity].
Qed.
Lemma dh_noerr : forall {A} (x : outcome kek A) f, noerr x -> (forall a, dh (f a)) -> dh (bind x f).
Proof. intros A x f Hx Hf. destruct x; cbn in *; auto; contradiction. Qed.
Lemma dh_rec : forall md c (f : timetype -> result), call_ok c -> dh (ev md c) ->
  (forall a, is_value a = true -> tt_ok a = true -> dh (f a)) -> dh (bind (ev md c) f).
Proof.
  intros md c f Hc Hx Hf. pose proof (ev_good md c Hc) as G. destruct (ev md c); cbn in *; auto. apply Hf; apply G.
Qed.

Section Dh.
Variable md : mode.
Ltac okargs :=
  repeat match goal with
  | H : _ && _ = true |- _ => apply andb_true_iff in H; destruct H
  | H : _ /\ _ |- _ => destruct H
  | |- _ && _ = true => apply andb_true_iff
  | |- _ /\ _ => split
  end.
Ltac measure :=
  repeat match goal with
  | H : is_value ?a = true |- _ => apply value_size in H
  end;
  cbn [meas size] in *;
  repeat match goal with
  | a : timetype |- _ => lazymatch goal with
      | _ : (1 <= size a)%nat |- _ => fail
      | _ => pose proof (size_pos a)
      end
  end;
  lia.
Ltac dstep IH :=
  lazymatch goal with
  | |- dh (Err _) => exact I
  | |- dh (Ok _) => exact I
  | |- dh (build_moment _) => apply dh_build
  | |- dh (bind (ev md _) _) => apply dh_rec; [cbn in *; okargs; auto| |intros ? ? ?]
  | |- dh (bind _ _) => apply dh_noerr; [solve [apply noerr_adjust_add | apply noerr_adjust_sub | ne]|intros ?]
  | |- dh (ev md _) => apply IH; [cbn in *; okargs; auto|measure]
  end.

Lemma dh_all : forall n c, call_ok c -> (meas c < n)%nat -> dh (ev md c).
Proof.
  induction n; intros c Hok Hm; [lia|]. rewrite ev_eq by exact Hok.
  destruct c; cbn [body call_ok meas] in *.
  - destruct t; cbn [do_calculate tt_ok size] in *; okargs; repeat dstep IHn.
  - destruct Hok as [Ha Hb]. destruct a, b; cbn [add tt_ok size] in *; repeat dstep IHn.
  - destruct Hok as [Ha Hb]. destruct a, b; cbn [sub tt_ok size] in *; repeat dstep IHn.
  - unfold end_of_year. dstep IHn; [dstep IHn|].
    destruct a; try discriminate; try exact I; try reflexivity. cbn in H0. destruct (rep_last m H0) as (R1 & R2 & R3).
    rewrite from_ymd_ok by assumption. exact I.
  - unfold end_of_month. dstep IHn; [dstep IHn|].
    destruct a; try discriminate; try exact I; try reflexivity. cbn in H0. destruct (rep_last m H0) as (R1 & R2 & R3).
    cbv zeta. rewrite last_day_eq by assumption. rewrite from_ymd_ok by assumption. exact I.
  - unfold end_of_day. dstep IHn; [dstep IHn|].
    destruct a; try discriminate; try exact I; try reflexivity. cbn in H0. destruct (rep_last m H0) as (R1 & R2 & R3).
    rewrite from_ymd_ok by assumption. exact I.
  - unfold end_of_hour. dstep IHn; [dstep IHn|].
    destruct a; try discriminate; try exact I; try reflexivity. cbn in H0. destruct (rep_last m H0) as (R1 & R2 & R3).
    rewrite from_ymd_ok by assumption. cbn [ok_or bind].
    destruct (valid_facts m H0) as (Vy & Vmo & Vd & Vml & Vh & Vmi & Vs).
    unfold and_hms_opt. replace (_ && _) with true by lia. exact I.
  - unfold end_of_minute. dstep IHn; [dstep IHn|].
    destruct a; try discriminate; try exact I; try reflexivity. cbn in H0. destruct (rep_last m H0) as (R1 & R2 & R3).
    rewrite from_ymd_ok by assumption. cbn [ok_or bind].
    destruct (valid_facts m H0) as (Vy & Vmo & Vd & Vml & Vh & Vmi & Vs).
    unfold and_hms_opt. replace (_ && _) with true by lia. exact I.
  - destruct t; cbn [add_to_seconds tt_ok size] in *; repeat dstep IHn.
  - destruct t; cbn [add_to_minutes tt_ok size] in *; repeat dstep IHn.
  - destruct t; cbn [add_to_hours tt_ok size] in *; repeat dstep IHn.
  - destruct t; cbn [add_to_days tt_ok size] in *; repeat dstep IHn.
  - destruct t; cbn [add_to_months tt_ok size] in *; repeat dstep IHn.
  - destruct t; cbn [add_to_years tt_ok size] in *; repeat dstep IHn.
  - destruct Hok as [Ha Hb]. destruct t; cbn [add_to_moment tt_ok size] in *; repeat dstep IHn.
  - destruct t; cbn [sub_from_seconds tt_ok size] in *; repeat dstep IHn.
  - destruct t; cbn [sub_from_minutes tt_ok size] in *; repeat dstep IHn.
  - destruct t; cbn [sub_from_hours tt_ok size] in *; repeat dstep IHn.
  - destruct t; cbn [sub_from_days tt_ok size] in *; repeat dstep IHn.
  - destruct t; cbn [sub_from_months tt_ok size] in *; repeat dstep IHn.
  - destruct t; cbn [sub_from_years tt_ok size] in *; repeat dstep IHn.
  - destruct Hok as [Ha Hb]. destruct t; cbn [sub_from_moment tt_ok size] in *; repeat dstep IHn.
Qed.

(** The kinds of evaluation error. *)
Lemma error_kinds : forall t e, tt_ok t = true -> calculate md t = Err e ->
  match e with
  | OutOfBounds _ _ _ _ _ _ | CannotAdd _ _ | CannotSub _ _ => True
  | CannotCalculateEndOfYearOn v | CannotCalculateEndOfMonthOn v => is_a_amount v = true
  | _ => False
  end.
Proof.
  intros t e Ht E. rewrite calculate_ev in E.
  pose proof (dh_all (S (meas (CCalc t))) (CCalc t) Ht (Nat.lt_succ_diag_r _)) as H. rewrite E in H.
  destruct e; try exact H; exact I.
Qed.
Lemma oob_day_is_hour : forall t y mo d h mi s, tt_ok t = true ->
  calculate md t = Err (OutOfBounds y mo d h mi s) -> d = h.
Proof.
  intros t y mo d h mi s Ht E. rewrite calculate_ev in E.
  pose proof (dh_all (S (meas (CCalc t))) (CCalc t) Ht (Nat.lt_succ_diag_r _)) as H. rewrite E in H. exact H.
Qed.

(** The error of [built] reports everything but the day. *)
Lemma built_reports : forall Y Mo D r, 0 <= r < 86400 -> reports (built Y Mo D r) Y Mo D r.
Proof.
  intros Y Mo D r Hr. unfold reports, built. intros y mo d h mi s E.
  destruct (representable Y Mo D); [discriminate|]. injection E as <- <- <- <- <- <-. repeat split; lia.
Qed.
Lemma built3_reports : forall x r, 0 <= r < 86400 -> let '(Y, Mo, D) := x in reports (built3 x r) Y Mo D r.
Proof. intros [[Y Mo] D] r Hr. apply built_reports. exact Hr. Qed.

Lemma add_months_reports : forall m n, dt_valid m = true -> 0 <= n -> month m + n < i64_max ->
  let '(Y, Mo, D) := plus_months (year m) (month m) (day m) n in
  reports (calculate md (Addition (Moment m) (Months n))) (wrap32 Y) Mo D (sod m).
Proof.
  intros m n Hm Hn Hb. rewrite add_months by assumption.
  destruct (plus_months _ _ _ _) as [[Y Mo] D]. apply built_reports. apply sod_range; assumption.
Qed.
Lemma add_years_reports : forall m n, dt_valid m = true -> i64_min <= year m + n <= i64_max -> in_i64 n = true ->
  let '(Y, Mo, D) := in_year (wrap32 (year m + n)) (month m) (day m) in
  reports (calculate md (Addition (Moment m) (Years n))) Y Mo D (sod m).
Proof.
  intros m n Hm Hn Hb. rewrite add_years by assumption.
  destruct (in_year _ _ _) as [[Y Mo] D]. apply built_reports. apply sod_range; assumption.
Qed.
Lemma add_clock_reports : forall m u n, dt_valid m = true -> clock_unit u = true -> 0 <= n ->
  field u m + n <= i64_max ->
  forall y mo d h mi s, calculate md (Addition (Moment m) (mk u n)) = Err (OutOfBounds y mo d h mi s) ->
  let T := sod m + n * unit_secs u in
  let e := days_before (year m) (month m) + day m + T / 86400 - year_length (year m) - 1 in
  0 <= e /\ y = wrap32 (year m + 1 + e / 360) /\ mo = e mod 360 / 30 + 1 /\
  representable y mo (e mod 30 + 1) = false /\
  h * 3600 + mi * 60 + s = T mod 86400 /\ 0 <= mi < 60 /\ 0 <= s < 60.
Proof.
  intros m u n Hm Hu Hn Hb y mo d h mi s E.
  destruct (add_clock md m u n Hm Hu Hn Hb) as [A B]. cbv zeta in *.
  set (T := sod m + n * unit_secs u) in *. set (K := days_before (year m) (month m) + day m + T / 86400) in *.
  destruct (Z_le_gt_dec K (year_length (year m))) as [L|G].
  - destruct (A L) as (mo' & d' & _ & _ & Q). rewrite Q in E. discriminate.
  - rewrite B in E by lia. split; [lia|].
    apply built_reports in E; [|apply Z.mod_pos_bound; lia].
    destruct E as (R & -> & -> & S). split; [reflexivity|]. split; [reflexivity|]. split; [exact R|exact S].
Qed.
Lemma sub_days_reports : forall m n, dt_valid m = true -> 0 <= n < 2147483648 -> -30 <= day m - n ->
  let '(Y, Mo, D) := back_day (year m) (month m) (day m - n) in
  reports (calculate md (Subtraction (Moment m) (Days n))) Y Mo D (sod m).
Proof.
  intros m n Hm Hn HD. destruct (sub_days md m n Hm Hn) as [A _]. cbv zeta in A. rewrite A by assumption.
  apply built3_reports. apply sod_range; assumption.
Qed.
Lemma sub_months_reports : forall m n, dt_valid m = true -> 0 <= n < 2147483648 -> -11 <= month m - n ->
  let i := year m * 12 + month m - n - 1 in
  reports (calculate md (Subtraction (Moment m) (Months n))) (i / 12) (i mod 12 + 1) (day m) (sod m).
Proof.
  intros m n Hm Hn HM. cbv zeta. destruct (sub_months md m n Hm Hn) as (A & B & _). cbv zeta in *.
  pose proof (sod_range m Hm). destruct (valid_facts m Hm) as (Vy & Vmo & _).
  destruct (Z_le_gt_dec 1 (month m - n)).
  - rewrite A by assumption.
    replace ((year m * 12 + month m - n - 1) / 12) with (year m) by lia.
    replace ((year m * 12 + month m - n - 1) mod 12 + 1) with (month m - n) by lia.
    apply built_reports; assumption.
  - rewrite B by lia.
    replace ((year m * 12 + month m - n - 1) / 12) with (year m - 1) by lia.
    replace ((year m * 12 + month m - n - 1) mod 12 + 1) with (month m - n + 12) by lia.
    apply built_reports; assumption.
Qed.
Lemma sub_years_reports : forall m n, dt_valid m = true -> in_i64 n = true -> i64_min <= year m - n <= i64_max ->
  reports (calculate md (Subtraction (Moment m) (Years n))) (wrap32 (year m - n)) (month m) (day m) (sod m).
Proof.
  intros m n Hm Hn Hb. rewrite sub_years by assumption. apply built_reports. apply sod_range; assumption.
Qed.
End Dh.
