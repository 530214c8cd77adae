(** Proofs about the end_of family and about the payload of OutOfBounds errors. *)
Require Import ZArith Bool List Lia ZifyBool.
From Verif Require Import Prelude Spec Chrono Util TimeType SpecTree SpecMoment PreludeProofs CalendarProofs EvalProofs AmountProofs ShapeProofs CompProofs AddProofs AddProofs2 SubProofs.
Local Open Scope Z_scope.
Ltac Zify.zify_post_hook ::= Z.div_mod_to_equations.

Section End.
Variable md : mode.

Lemma from_ymd_ok : forall y mo d, representable y mo d = true -> from_ymd_opt y mo d = Some (mkdate y mo d).
Proof. intros y mo d H. unfold from_ymd_opt. unfold representable in H. rewrite H. reflexivity. Qed.

Lemma rep_last : forall m, dt_valid m = true ->
  representable (year m) 12 31 = true /\
  representable (year m) (month m) (month_length (year m) (month m)) = true /\
  representable (year m) (month m) (day m) = true.
Proof.
  intros m Hm. destruct (valid_facts m Hm) as (Vy & Vmo & Vd & Vml & _).
  pose proof (month_length_bounds (year m) (month m) Vmo).
  split; [|split]; apply representable_iff; (split; [assumption|]).
  - reflexivity.
  - apply date_exists_iff. lia.
  - apply valid_date; assumption.
Qed.

Lemma last_day_eq : forall m, dt_valid m = true ->
  as_u32 (get_num_of_days_in_month (year m) (month m)) = month_length (year m) (month m).
Proof.
  intros m Hm. destruct (valid_facts m Hm) as (Vy & Vmo & Vd & Vml & _).
  rewrite gndm_val by (unfold min_year, max_year in *; lia). pose proof (month_length_bounds (year m) (month m) Vmo).
  apply as_u32_id. lia.
Qed.

Lemma end_forms : forall t m, tt_ok t = true -> calculate md t = Ok (Moment m) ->
  calculate md (EndOfYear t) = Ok (Moment (mkdt (year m) 12 31 0 0 0 0)) /\
  calculate md (EndOfMonth t) = Ok (Moment (mkdt (year m) (month m) (month_length (year m) (month m)) 0 0 0 0)) /\
  calculate md (EndOfDay t) = Ok (Moment (mkdt (year m) (month m) (day m) 23 59 59 0)) /\
  calculate md (EndOfHour t) = Ok (Moment (mkdt (year m) (month m) (day m) (hour m) 59 59 0)) /\
  calculate md (EndOfMinute t) = Ok (Moment (mkdt (year m) (month m) (day m) (hour m) (minute m) 59 0)).
Proof.
  intros t m Ht E.
  assert (Hm : dt_valid m = true).
  { pose proof (calculate_good md t Ht) as G. rewrite E in G. apply G. }
  destruct (rep_last m Hm) as (R1 & R2 & R3).
  destruct (valid_facts m Hm) as (Vy & Vmo & Vd & Vml & Vh & Vmi & Vs).
  rewrite calculate_ev in E.
  rewrite !calc_eq by exact Ht. cbn [do_calculate].
  rewrite !ev_eq by exact Ht. cbn [body].
  unfold end_of_year, end_of_month, end_of_day, end_of_hour, end_of_minute. rewrite !E. cbn [bind].
  rewrite last_day_eq by assumption.
  rewrite !from_ymd_ok by assumption. cbn [ok_or bind].
  repeat split; try reflexivity.
  - unfold and_hms_opt. cbn [dyear dmonth dday].
    replace (_ && _) with true by lia. reflexivity.
  - unfold and_hms_opt. cbn [dyear dmonth dday].
    replace (_ && _) with true by lia. reflexivity.
Qed.

Lemma end_complete : forall k t, tt_ok t = true ->
  calculate md (end_of k t) =
  match calculate md t with
  | Ok (Moment m) => Ok (Moment (end_at k m))
  | Ok v => Err (end_error k v)
  | r => r
  end.
Proof.
  intros k t Ht.
  pose proof (calculate_good md t Ht) as G.
  destruct (calculate md t) as [v|e|q|] eqn:E.
  - destruct G as [Gv Gt].
    destruct v; try discriminate Gv;
    [rewrite calculate_ev in E; destruct k; cbn [end_of]; rewrite calc_eq by exact Ht; cbn [do_calculate];
     rewrite ev_eq by exact Ht; cbn [body]; unfold end_of_year, end_of_month, end_of_day, end_of_hour, end_of_minute;
     rewrite E; reflexivity ..|].
    destruct (end_forms t m Ht E) as (H1 & H2 & H3 & H4 & H5). destruct k; assumption.
  - rewrite calculate_ev in E; destruct k; cbn [end_of]; rewrite calc_eq by exact Ht; cbn [do_calculate];
     rewrite ev_eq by exact Ht; cbn [body]; unfold end_of_year, end_of_month, end_of_day, end_of_hour, end_of_minute;
     rewrite E; reflexivity.
  - rewrite calculate_ev in E; destruct k; cbn [end_of]; rewrite calc_eq by exact Ht; cbn [do_calculate];
     rewrite ev_eq by exact Ht; cbn [body]; unfold end_of_year, end_of_month, end_of_day, end_of_hour, end_of_minute;
     rewrite E; reflexivity.
  - contradiction.
Qed.

Lemma tt_ok_end : forall k t, tt_ok (end_of k t) = tt_ok t.
Proof. intros [] t; reflexivity. Qed.

Lemma end_at_same : forall k m, end_at k (end_at k m) = end_at k m.
Proof. intros [] m; reflexivity. Qed.
Lemma end_at_nest : forall k k' m, coarseness k' <= coarseness k -> end_at k (end_at k' m) = end_at k m.
Proof. intros [] [] m H; cbn in H; try lia; reflexivity. Qed.

Lemma end_idem : forall k t, tt_ok t = true -> calculate md (end_of k (end_of k t)) = calculate md (end_of k t).
Proof.
  intros k t Ht. rewrite (end_complete k (end_of k t)) by (rewrite tt_ok_end; exact Ht).
  rewrite (end_complete k t) by exact Ht.
  destruct (calculate md t) as [v|e|q|]; try reflexivity.
  destruct v; try reflexivity. rewrite end_at_same. reflexivity.
Qed.
Lemma end_nest : forall k k' t m, tt_ok t = true -> calculate md t = Ok (Moment m) -> coarseness k' <= coarseness k ->
  calculate md (end_of k (end_of k' t)) = calculate md (end_of k t).
Proof.
  intros k k' t m Ht E H. rewrite (end_complete k (end_of k' t)) by (rewrite tt_ok_end; exact Ht).
  rewrite !end_complete by exact Ht. rewrite E. rewrite end_at_nest by exact H. reflexivity.
Qed.

Lemma end_at_valid : forall k m, dt_valid m = true -> dt_valid (end_at k m) = true.
Proof.
  intros k m Hm. destruct (rep_last m Hm) as (R1 & R2 & R3).
  destruct (valid_facts m Hm) as (Vy & Vmo & Vd & Vml & Vh & Vmi & Vs).
  apply representable_iff in R1, R2, R3.
  apply dt_valid_iff. destruct k; cbn [end_at year month day hour minute second nano]; repeat split; try lia; try apply R1; try apply R2; try apply R3.
Qed.

Lemma end_at_last : forall k m, dt_valid m = true ->
  inst (end_at k m) + period_resolution k = next_period k m /\ period_start k m <= inst m < next_period k m.
Proof.
  intros k m Hm. destruct (valid_facts m Hm) as (Vy & Vmo & Vd & Vml & Vh & Vmi & Vs).
  pose proof (valid_date m Hm) as HD. pose proof (sod_range m Hm) as Hsod. pose proof (month_length_bounds (year m) (month m) Vmo) as HL.
  rewrite !inst_sod. unfold instant.
  destruct k; cbn [end_at year month day hour minute second nano period_resolution next_period period_start]; unfold instant, sod in *; cbn [hour minute second] in *.
  - pose proof (doy_bounds _ _ _ HD). pose proof (day_number_jan (year m + 1) 1). pose proof (day_number_next_year (year m)).
    pose proof (leap_year_step (year m)). pose proof (day_number_jan (year m) 1).
    assert (day_number (year m) (month m) (day m) = days_before_year (year m) + (days_before (year m) (month m) + day m)) by (unfold day_number; lia). lia.
  - pose proof (day_number_next_month (year m) (month m) Vmo). pose proof (day_number_next_year (year m)).
    destruct (Z.eqb_spec (month m) 12) as [E|E].
    + rewrite E in *. change (month_length (year m) 12) with 31 in *. unfold day_number in *. lia.
    + unfold day_number in *. lia.
  - unfold day_number in *; lia.
  - unfold day_number in *; lia.
  - unfold day_number in *; lia.
Qed.

Lemma end_mono : forall k m1 m2, dt_valid m1 = true -> dt_valid m2 = true -> inst m1 <= inst m2 ->
  inst (end_at k m1) <= inst (end_at k m2).
Proof.
  intros k m1 m2 H1 H2 H.
  destruct (Z_le_gt_dec (inst (end_at k m1)) (inst (end_at k m2))) as [L|G]; [assumption|exfalso].
  (* the fields of the ends order the fields of the moments *)
  pose proof (end_at_valid k m1 H1) as V1. pose proof (end_at_valid k m2 H2) as V2.
  destruct (valid_facts m1 H1) as (Ay & Amo & Ad & Aml & Ah & Ami & As).
  destruct (valid_facts m2 H2) as (By & Bmo & Bd & Bml & Bh & Bmi & Bs).
  apply month_index_le in H; [|assumption|assumption]. unfold sod in H.
  assert (G' : inst (end_at k m2) <= inst (end_at k m1)) by lia.
  apply month_index_le in G'; [|assumption|assumption]. unfold sod in G'.
  assert (X : inst (end_at k m1) = inst (end_at k m2)).
  { unfold inst. destruct k; cbn [end_at year month day hour minute second nano] in *.
    - replace (year m1) with (year m2) by lia. reflexivity.
    - replace (year m1) with (year m2) in * by lia. replace (month m1) with (month m2) in * by lia. reflexivity.
    - replace (year m1) with (year m2) in * by lia. replace (month m1) with (month m2) in * by lia.
      replace (day m1) with (day m2) by lia. reflexivity.
    - replace (year m1) with (year m2) in * by lia. replace (month m1) with (month m2) in * by lia.
      replace (day m1) with (day m2) by lia. replace (hour m1) with (hour m2) by lia. reflexivity.
    - replace (year m1) with (year m2) in * by lia. replace (month m1) with (month m2) in * by lia.
      replace (day m1) with (day m2) by lia. replace (hour m1) with (hour m2) by lia.
      replace (minute m1) with (minute m2) by lia. reflexivity. }
  lia.
Qed.

Lemma end_not_before : forall k m, dt_valid m = true ->
  match k with PYear | PMonth => sod m = 0 | _ => True end -> inst m <= inst (end_at k m).
Proof.
  intros k m Hm H. destruct (end_at_last k m Hm) as [H1 H2].
  destruct k; cbn [period_resolution] in *; try lia.
  - rewrite !inst_sod in *. cbn [next_period end_at] in *. unfold instant in *. unfold sod at 1 in H1. cbn [hour minute second] in H1.
    unfold sod at 2. cbn [hour minute second]. lia.
  - rewrite !inst_sod in *. cbn [next_period end_at] in *. unfold instant in *. unfold sod at 1 in H1. cbn [hour minute second] in H1.
    unfold sod at 2. cbn [hour minute second]. destruct (month m =? 12); lia.
Qed.

Lemma end_same_day_or_later : forall k m, dt_valid m = true -> inst m - sod m <= inst (end_at k m).
Proof.
  intros k m Hm.
  assert (V : dt_valid (mkdt (year m) (month m) (day m) 0 0 0 0) = true).
  { apply dt_valid_iff in Hm. apply dt_valid_iff. cbn. intuition lia. }
  pose proof (end_not_before k _ V) as N. rewrite !inst_sod in *. cbn [year month day] in *.
  assert (S0 : sod (mkdt (year m) (month m) (day m) 0 0 0 0) = 0) by reflexivity. rewrite S0 in N.
  pose proof (sod_range m Hm).
  destruct k.
  - specialize (N eq_refl). cbn [end_at year month day] in *. unfold sod in *. cbn [hour minute second] in *. lia.
  - specialize (N eq_refl). cbn [end_at year month day] in *. unfold sod in *. cbn [hour minute second] in *. lia.
  - pose proof (end_not_before PDay m Hm I) as Q. rewrite !inst_sod in Q. lia.
  - pose proof (end_not_before PHour m Hm I) as Q. rewrite !inst_sod in Q. lia.
  - pose proof (end_not_before PMinute m Hm I) as Q. rewrite !inst_sod in Q. lia.
Qed.
End End.

Section EndTop.
Variable md : mode.
Lemma end_inv : forall k t m e, tt_ok t = true -> calculate md t = Ok (Moment m) ->
  calculate md (end_of k t) = Ok (Moment e) -> e = end_at k m /\ dt_valid m = true.
Proof.
  intros k t m e Ht E1 E2. rewrite end_complete, E1 in E2 by exact Ht. split; [congruence|].
  pose proof (calculate_good md t Ht) as G. rewrite E1 in G. apply G.
Qed.
Lemma end_last : forall k t m, tt_ok t = true -> calculate md t = Ok (Moment m) ->
  exists e, calculate md (end_of k t) = Ok (Moment e) /\ dt_valid e = true /\ nano e = 0 /\
    inst e + period_resolution k = next_period k m /\ period_start k m <= inst m < next_period k m.
Proof.
  intros k t m Ht E1. exists (end_at k m).
  assert (E2 : calculate md (end_of k t) = Ok (Moment (end_at k m))) by (rewrite end_complete, E1 by exact Ht; reflexivity).
  destruct (end_inv k t m _ Ht E1 E2) as [_ Hm].
  split; [exact E2|]. split; [apply end_at_valid; exact Hm|]. split; [destruct k; reflexivity|].
  apply end_at_last. exact Hm.
Qed.
Lemma end_monotone : forall k t1 t2 m1 m2 e1 e2, tt_ok t1 = true -> tt_ok t2 = true ->
  calculate md t1 = Ok (Moment m1) -> calculate md t2 = Ok (Moment m2) ->
  calculate md (end_of k t1) = Ok (Moment e1) -> calculate md (end_of k t2) = Ok (Moment e2) ->
  inst m1 <= inst m2 -> inst e1 <= inst e2.
Proof.
  intros k t1 t2 m1 m2 e1 e2 H1 H2 E1 E2 F1 F2 H.
  destruct (end_inv _ _ _ _ H1 E1 F1) as [-> V1]. destruct (end_inv _ _ _ _ H2 E2 F2) as [-> V2].
  apply end_mono; assumption.
Qed.
Lemma end_forward : forall k t m e, tt_ok t = true ->
  calculate md t = Ok (Moment m) -> calculate md (end_of k t) = Ok (Moment e) ->
  match k with PYear | PMonth => sod m = 0 | _ => True end -> inst m <= inst e.
Proof.
  intros k t m e Ht E F H. destruct (end_inv _ _ _ _ Ht E F) as [-> V]. apply end_not_before; assumption.
Qed.
Lemma end_day_forward : forall k t m e, tt_ok t = true ->
  calculate md t = Ok (Moment m) -> calculate md (end_of k t) = Ok (Moment e) ->
  day_number (year m) (month m) (day m) <= day_number (year e) (month e) (day e).
Proof.
  intros k t m e Ht E F. destruct (end_inv _ _ _ _ Ht E F) as [-> V].
  pose proof (end_same_day_or_later k m V) as H. rewrite !inst_sod in H.
  pose proof (sod_range _ (end_at_valid k m V)). lia.
Qed.
End EndTop.
