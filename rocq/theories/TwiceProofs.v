(** Adding twice (C62). *)
Require Import ZArith Bool List Lia ZifyBool.
From Verif Require Import Prelude Spec Chrono Util TimeType Iter SpecTree SpecMoment SpecIter SpecExact SpecSeq SpecWide SpecTwice PreludeProofs EvalProofs AmountProofs
  ShapeProofs CompProofs CalendarProofs AddProofs AddProofs2 ExactProofs2 SeqProofs FarProofs SameProofs.
Local Open Scope Z_scope.
Local Ltac Zify.zify_post_hook ::= Z.to_euclidean_division_equations.

Lemma drift_below : forall y mo, 1 <= mo <= 12 -> drift y mo < year_length y - 360.
Proof.
  intros y mo H. unfold drift. rewrite days_before_val by lia. unfold year_length.
  assert (mo = 1 \/ mo = 2 \/ mo = 3 \/ mo = 4 \/ mo = 5 \/ mo = 6 \/ mo = 7 \/ mo = 8 \/ mo = 9 \/ mo = 10 \/ mo = 11 \/ mo = 12) as X by lia.
  destruct X as [-> | [-> | [-> | [-> | [-> | [-> | [-> | [-> | [-> | [-> | [-> | ->]]]]]]]]]]]; destruct (leap y); vm_compute; reflexivity.
Qed.

Section Twice.
Variable md : mode.

Lemma reach : forall m u n m', dt_valid m = true -> clock_unit u = true -> 0 <= n -> n * unit_secs u <= span32 -> field u m + n <= i64_max ->
  calculate md (Addition (Moment m) (mk u n)) = Ok (Moment m') ->
  let T := sod m + n * unit_secs u in
  let K := days_before (year m) (month m) + day m + T / 86400 in
  sod m' = T mod 86400 /\ nano m' = 0 /\ dt_valid m' = true /\
  ((K <= year_length (year m) /\ year m' = year m /\ days_before (year m) (month m') + day m' = K) \/
   (year_length (year m) < K /\ let e := K - year_length (year m) - 1 in
     year m' = year m + 1 + e / 360 /\ month m' = e mod 360 / 30 + 1 /\ day m' = e mod 30 + 1)).
Proof.
  intros m u n m' Hm Hu Hn Hs Hf R T K. destruct (add_clock md m u n Hm Hu Hn Hf) as [A1 A2]. cbv zeta in A1, A2. fold T in A1, A2. fold K in A1, A2.
  destruct (valid_facts m Hm) as (Vy & Vmo & Vd & Vml & Vh & Vmi & Vs). pose proof (sod_range m Hm) as Sr.
  assert (V : dt_valid m' = true).
  { refine (moment_valid md _ m' (plus_ok m u n Hm _) R). apply in_i64_iff. unfold i64_min, i64_max in *. destruct u; try discriminate Hu; cbn [field] in Hf; lia. }
  assert (Rr : 0 <= T mod 86400 < 86400) by lia.
  destruct (Z_le_gt_dec K (year_length (year m))) as [L|L].
  - destruct (A1 L) as (mo' & d' & D & E & R'). rewrite R in R'. injection R' as ->. rewrite sod_at by exact Rr. repeat split; try exact V. left. auto.
  - specialize (A2 ltac:(lia)). rewrite R in A2. symmetry in A2. apply built_ok in A2 as [_ A2]. injection A2 as ->. rewrite sod_at by exact Rr. repeat split; try exact V.
    right. split; [lia|]. cbn [at_time year month day]. split; [|split; reflexivity].
    pose proof (doy_bounds _ _ _ (valid_date m Hm)). pose proof (year_length_bounds (year m)).
    unfold span32, min_year, max_year in *. assert (0 <= n * unit_secs u) by (destruct u; try discriminate Hu; cbn [unit_secs]; lia).
    set (X := n * unit_secs u) in *. subst K T. unfold wrap32. lia.
Qed.

Lemma twice_steps : forall m u a m1 v b m2 w c m3, dt_valid m = true -> clock_unit u = true -> clock_unit v = true -> clock_unit w = true -> 0 <= a -> 0 <= b -> 0 <= c ->
  c * unit_secs w = a * unit_secs u + b * unit_secs v -> c * unit_secs w <= span32 ->
  calculate md (Addition (Moment m) (mk u a)) = Ok (Moment m1) -> calculate md (Addition (Moment m1) (mk v b)) = Ok (Moment m2) ->
  calculate md (Addition (Moment m) (mk w c)) = Ok (Moment m3) ->
  (m2 = m3 <-> year m1 = year m \/ (year m1 = year m2 /\ year m2 = year m3 /\ drift (year m1) (month m1) = drift (year m1) (month m3))).
Proof.
  intros m u a m1 v b m2 w c m3 Hm Hu Hv Hw Ha Hb Hc Hs Hl R1 R2 R3.
  assert (F : forall t x, dt_valid x = true -> clock_unit t = true -> forall n, 0 <= n -> n * unit_secs t <= span32 -> field t x + n <= i64_max).
  { intros t x V C n N1 N2. destruct (valid_facts x V) as (Vy & Vmo & Vd & Vml & Vh & Vmi & Vs). unfold span32, i64_max in *.
    destruct t; try discriminate C; cbn [field unit_secs] in *; lia. }
  assert (Pa : 0 <= a * unit_secs u) by (destruct u; try discriminate Hu; cbn [unit_secs]; lia).
  assert (Pb : 0 <= b * unit_secs v) by (destruct v; try discriminate Hv; cbn [unit_secs]; lia).
  destruct (reach m u a m1 Hm Hu Ha ltac:(lia) (F u m Hm Hu a Ha ltac:(lia)) R1) as (S1 & N1 & V1 & C1). cbv zeta in S1, C1.
  destruct (reach m1 v b m2 V1 Hv Hb ltac:(lia) (F v m1 V1 Hv b Hb ltac:(lia)) R2) as (S2 & N2 & V2 & C2). cbv zeta in S2, C2.
  destruct (reach m w c m3 Hm Hw Hc ltac:(lia) (F w m Hm Hw c Hc ltac:(lia)) R3) as (S3 & N3 & V3 & C3). cbv zeta in S3, C3.
  rewrite Hs in S3, C3. clear F R1 R2 R3 Hs. set (A := a * unit_secs u) in *. set (B := b * unit_secs v) in *.
  set (Bd := (sod m1 + B) / 86400) in *.
  assert (E3 : (sod m + (A + B)) / 86400 = (sod m + A) / 86400 + Bd) by (subst Bd; rewrite S1; lia).
  assert (S23 : sod m2 = sod m3) by (rewrite S2, S3, S1; lia).
  pose proof (sod_range m1 V1) as Sr1. assert (PB : 0 <= Bd) by (subst Bd; lia).
  rewrite E3 in C3. clearbody Bd. set (K := days_before (year m) (month m) + day m + (sod m + A) / 86400) in *.
  replace (days_before (year m) (month m) + day m + ((sod m + A) / 86400 + Bd)) with (K + Bd) in C3 by lia. clearbody K.
  assert (Eq : year m2 = year m3 -> days_before (year m2) (month m2) + day m2 = days_before (year m3) (month m3) + day m3 -> m2 = m3).
  { intros Y D. apply same_moment; try assumption. rewrite !inst_sod. unfold day_number. rewrite Y, S23 in *. lia. }
  clear S1 S2 S3 E3 A B Pa Pb Hl.
  destruct (valid_facts m1 V1) as (_ & Vmo1 & Vd1 & _). destruct (valid_facts m3 V3) as (_ & Vmo3 & Vd3 & _).
  destruct C1 as [(L1 & Y1 & D1)|(L1 & Y1 & M1 & D1)].
  - split; [intros _; left; exact Y1|]. intros _. rewrite Y1 in C2. rewrite D1 in C2.
    destruct C2 as [(L2 & Y2 & D2)|(L2 & Y2 & M2 & D2)], C3 as [(L3 & Y3 & D3)|(L3 & Y3 & M3 & D3)]; try lia.
    + apply Eq; [congruence|]. rewrite Y2, Y3. lia.
    + apply Eq; [congruence|]. rewrite Y2, Y3, M2, M3, D2, D3. reflexivity.
  - pose proof (year_length_bounds (year m)). destruct C3 as [(L3 & _)|(L3 & Y3 & M3 & D3)]; [lia|].
    set (e := K - year_length (year m) - 1) in *. replace (K + Bd - year_length (year m) - 1) with (e + Bd) in * by lia.
    assert (He : 0 <= e) by lia. clearbody e. clear L1 L3.
    assert (I1 : 30 * (month m1 - 1) + day m1 - 1 = e mod 360) by (rewrite M1, D1; lia).
    assert (I3 : 30 * (month m3 - 1) + day m3 - 1 = (e + Bd) mod 360) by (rewrite M3, D3; lia).
    pose proof (drift_below (year m1) (month m1) Vmo1) as Dr.
    destruct C2 as [(L2 & Y2 & D2)|(L2 & Y2 & M2 & D2)].
    + split.
      * intros ->. right. split; [congruence|]. split; [reflexivity|]. unfold drift. rewrite Y3 in Y2. lia.
      * intros [X|(X1 & X2 & X3)]; [lia|]. apply Eq; [exact X2|]. rewrite <- X2, <- X1. unfold drift in X3. rewrite X2 in X1. lia.
    + split; [|intros [X|(X & _)]; [lia|exfalso; pose proof (year_length_bounds (year m1)); lia]].
      intros <-. exfalso. unfold drift in Dr.
      set (e2 := days_before (year m1) (month m1) + day m1 + Bd - year_length (year m1) - 1) in *.
      assert (I2 : 30 * (month m2 - 1) + day m2 - 1 = e2 mod 360) by (rewrite M2, D2; lia).
      assert (e2 + 360 = e mod 360 + Bd) by lia. lia.
Qed.

Lemma finest_sum : forall t1 t2, clock_unit (finest t1) = true -> clock_unit (finest t2) = true -> clock_unit (finest (Addition t1 t2)) = true.
Proof. intros t1 t2 F1 F2. cbn [finest]. destruct (finest t1), (finest t2); try discriminate F1; try discriminate F2; reflexivity. Qed.
Lemma counts : forall u n s, clock_unit u = true -> n * unit_secs u = s -> 0 <= s -> 0 <= n.
Proof. intros u n s C E H. destruct u; try discriminate C; cbn [unit_secs] in E; lia. Qed.

Lemma twice_exactly : forall m t1 t2 m1 m2 m3, dt_valid m = true -> tt_ok t1 = true -> tt_ok t2 = true -> amount_only t1 = true -> amount_only t2 = true ->
  abs_secs t1 + abs_secs t2 <= i64_max -> clock_unit (finest t1) = true -> clock_unit (finest t2) = true -> 0 <= secs t1 -> 0 <= secs t2 -> secs t1 + secs t2 <= span32 ->
  calculate md (Addition (Moment m) t1) = Ok (Moment m1) -> calculate md (Addition (Addition (Moment m) t1) t2) = Ok (Moment m2) ->
  calculate md (Addition (Moment m) (Addition t1 t2)) = Ok (Moment m3) ->
  (m2 = m3 <-> year m1 = year m \/ (year m1 = year m2 /\ year m2 = year m3 /\ drift (year m1) (month m1) = drift (year m1) (month m3))).
Proof.
  intros m t1 t2 m1 m2 m3 Hm O1 O2 A1 A2 Sm F1 F2 P1 P2 L R1 R2 R3. pose proof (secs_abs t1). pose proof (secs_abs t2).
  rewrite (add_twice md m t1 t2 m1 Hm O1 O2 A1 A2 ltac:(lia) R1) in R2.
  assert (V1 : dt_valid m1 = true).
  { refine (moment_valid md _ m1 _ R1). cbn [tt_ok]. rewrite Hm, O1. reflexivity. }
  destruct (add_tree md m t1 Hm O1 A1 ltac:(lia)) as (a & Ea & _ & _ & Ra & _). rewrite Ra in R1.
  destruct (add_tree md m1 t2 V1 O2 A2 ltac:(lia)) as (b & Eb & _ & _ & Rb & _). rewrite Rb in R2.
  destruct (add_tree md m (Addition t1 t2) Hm) as (c & Ec & _ & _ & Rc & _); [cbn [tt_ok]; rewrite O1, O2; reflexivity|cbn [amount_only]; rewrite A1, A2; reflexivity|cbn [abs_secs]; lia|].
  rewrite Rc in R3. pose proof (finest_sum t1 t2 F1 F2) as F3. cbn [secs] in Ec.
  apply (twice_steps m (finest t1) a m1 (finest t2) b m2 (finest (Addition t1 t2)) c m3); try assumption; try lia.
  - exact (counts _ a _ F1 Ea P1).
  - exact (counts _ b _ F2 Eb P2).
  - exact (counts _ c _ F3 Ec ltac:(lia)).
Qed.
End Twice.
