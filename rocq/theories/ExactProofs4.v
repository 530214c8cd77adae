(** Exact conditions: order of sums, months added one after the other. *)
Require Import ZArith Bool List Lia ZifyBool.
From Verif Require Import Prelude Spec Chrono Util TimeType Iter SpecTree SpecMoment SpecIter SpecExact PreludeProofs EvalProofs AmountProofs ShapeProofs CompProofs CalendarProofs
  AddProofs AddProofs2 SubProofs SubProofs2 EndProofs IterProofs IterProofs2 ExactProofs2.
Local Open Scope Z_scope.
Local Ltac Zify.zify_post_hook ::= Z.to_euclidean_division_equations.

Section Order.
Variable md : mode.

Lemma at_facts : forall y mo d r, 0 <= r < 86400 -> sod (at_time y mo d r) = r.
Proof. intros y mo d r H. unfold sod, at_time. cbn [hour minute second]. lia. Qed.
Lemma ok_moment : forall m u n m', dt_valid m = true -> 0 <= n -> n * unit_secs u <= span32 ->
  calculate md (Addition (Moment m) (mk u n)) = Ok (Moment m') -> dt_valid m' = true.
Proof.
  intros m u n m' Hm Hn Hs E. destruct (span_field m u n Hm Hn Hs) as [_ Hi].
  assert (Ht : tt_ok (Addition (Moment m) (mk u n)) = true) by (cbn [tt_ok]; rewrite ok_mk, Hm, Hi; reflexivity).
  pose proof (calculate_good md _ Ht) as G. rewrite E in G. apply G.
Qed.

(** Months and years: where the sum lies. *)
Definition in_months (u : tunit) (n : Z) : Z := match u with UYear => 12 * n | _ => n end.
Lemma moved : forall m u n m', dt_valid m = true -> clock_unit u = false -> 0 <= n -> n * unit_secs u <= span32 ->
  calculate md (Addition (Moment m) (mk u n)) = Ok (Moment m') ->
  sod m' = sod m /\ 0 <= spill u n m <= 3 /\
  (spill u n m = 0 -> month_index m' = month_index m + in_months u n /\ day m' = day m) /\
  (0 < spill u n m -> month_index m' = month_index m + in_months u n + 1 /\ day m' = spill u n m).
Proof.
  intros m u n m' Hm Hu Hn Hs E. destruct (valid_facts m Hm) as (Vy & Vmo & Vd & Vml & Vh & Vmi & Vs). pose proof (sod_range m Hm) as Sr.
  unfold month_index. destruct u; try discriminate Hu; cbn [mk in_months unit_secs] in *.
  - destruct (span_field m UMonth n Hm Hn Hs) as [Hf _]. cbn [field] in Hf.
    rewrite add_months in E by assumption. unfold plus_months in E. cbn [spill].
    assert (Y : forall k, -2 <= k <= (month m + n) / 12 -> wrap32 (year m + k) = year m + k).
    { intros k Hk. apply wrap32_id. unfold span32, min_year, max_year in *. lia. }
    destruct (month m + n <=? 12) eqn:C1.
    + pose proof (month_length_bounds (year m) (month m + n) ltac:(lia)) as Lb.
      destruct (day m <=? month_length (year m) (month m + n)) eqn:C2; rewrite wrap32_id in E by (unfold min_year, max_year in *; lia);
        apply built_ok in E as [_ E]; injection E as ->; rewrite at_facts by exact Sr; cbn [at_time year month day]; lia.
    + destruct (day m <=? 30) eqn:C2; rewrite Y in E by lia; apply built_ok in E as [_ E]; injection E as ->; rewrite at_facts by exact Sr; cbn [at_time year month day];
        destruct (Z.eqb_spec (day m) 31) as [D|D]; lia.
  - assert (R : year m + n <= max_year \/ max_year < year m + n) by lia. destruct R as [R|R].
    + rewrite add_years_in_range in E by (try exact Hm; lia). cbn [spill].
      destruct ((month m =? 2) && (day m =? 29) && negb (leap (year m + n))) eqn:C; injection E as <-; unfold sod; cbn [hour minute second year month day]; lia.
    + exfalso. unfold span32, min_year, max_year in *. 
      pose proof (add_years_beyond md m n Hm ltac:(lia) ltac:(right; unfold max_year; lia)) as O. exact (oob_err _ O _ E).
Qed.

(** Order of sums with months or years. *)
Lemma order_exact : forall u n m1 m2 m1' m2', dt_valid m1 = true -> dt_valid m2 = true -> clock_unit u = false -> 0 <= n -> n * unit_secs u <= span32 ->
  calculate md (Addition (Moment m1) (mk u n)) = Ok (Moment m1') -> calculate md (Addition (Moment m2) (mk u n)) = Ok (Moment m2') ->
  inst m1 <= inst m2 ->
  (inst m2' < inst m1' <-> month_index m2 = month_index m1 + 1 /\ (day m2 < spill u n m1 \/ (day m2 = spill u n m1 /\ sod m2 < sod m1))).
Proof.
  intros u n m1 m2 m1' m2' V1 V2 Hu Hn Hs E1 E2 L.
  pose proof (ok_moment m1 u n m1' V1 Hn Hs E1) as W1. pose proof (ok_moment m2 u n m2' V2 Hn Hs E2) as W2.
  destruct (moved m1 u n m1' V1 Hu Hn Hs E1) as (A1 & A2 & A3 & A4). destruct (moved m2 u n m2' V2 Hu Hn Hs E2) as (B1 & B2 & B3 & B4).
  pose proof (sod_range m1 V1) as R1. pose proof (sod_range m2 V2) as R2.
  destruct (valid_facts m1 V1) as (_ & M1 & D1 & L1 & _). destruct (valid_facts m2 V2) as (_ & M2 & D2 & L2 & _).
  destruct (valid_facts m1' W1) as (_ & M1' & D1' & L1' & _). destruct (valid_facts m2' W2) as (_ & M2' & D2' & L2' & _).
  apply month_index_le in L; [|assumption|assumption]. unfold month_index in *.
  assert (Q : inst m2' < inst m1' <-> year m2' * 12 + month m2' < year m1' * 12 + month m1' \/
    (year m1' = year m2' /\ month m1' = month m2' /\ day m2' * 86400 + sod m2' < day m1' * 86400 + sod m1')).
  { split; intro H.
    - destruct (month_index_le m2' m1' W2 W1 ltac:(lia)) as [K|(K1 & K2 & K3)]; [left; exact K|]. right.
      rewrite !inst_sod in H. unfold day_number in H. rewrite K1, K2 in H. lia.
    - destruct (Z_lt_le_dec (inst m2') (inst m1')) as [K|K]; [exact K|]. apply month_index_le in K; [|assumption|assumption]. lia. }
  rewrite Q. clear Q.
  assert (Sp : year m1 = year m2 -> month m1 = month m2 -> day m1 <= day m2 -> spill u n m1 <= spill u n m2 /\ (0 < spill u n m1 -> spill u n m2 - spill u n m1 = day m2 - day m1)).
  { intros Ey Em Ed. unfold spill. rewrite Ey, Em. destruct u; try discriminate Hu.
    - destruct (month m2 + n <=? 12) eqn:C; [lia|]. destruct (Z.eqb_spec (day m1) 31), (Z.eqb_spec (day m2) 31); lia.
    - destruct (Z.eqb_spec (month m2) 2) as [C|C]; cbn [andb]; [|lia]. pose proof (month_length_bounds (year m2) 2) as Fb.
      assert (month_length (year m2) 2 <= 29) by (unfold month_length; destruct (leap (year m2)); vm_compute; discriminate).
      rewrite C in *. destruct (Z.eqb_spec (day m1) 29), (Z.eqb_spec (day m2) 29); cbn [andb]; try lia; destruct (negb (leap (year m2 + n))); lia. }
  destruct L as [L|(Ey & Em & Ed)].
  - (* a later month *)
    assert (Sm : month m2 + year m2 * 12 = year m1 * 12 + month m1 + 1 -> day m2 <= spill u n m1 -> spill u n m2 = 0).
    { intros _ D. assert (D3 : day m2 <= 3) by lia. clear D A3 A4 B3 B4 A2 B2 L. unfold spill. destruct u; try discriminate Hu.
      - destruct (month m2 + n <=? 12) eqn:C; [pose proof (month_length_bounds (year m2) (month m2 + n) ltac:(lia)); lia|]. destruct (Z.eqb_spec (day m2) 31); lia.
      - destruct (Z.eqb_spec (day m2) 29); [lia|]. rewrite andb_false_r. reflexivity. }
    destruct (Z.eq_dec (spill u n m1) 0) as [Z1|Z1]; destruct (Z.eq_dec (spill u n m2) 0) as [Z2|Z2]; lia.
  - destruct (Sp Ey Em ltac:(lia)) as [S1 S2]. destruct (Z.eq_dec (spill u n m1) 0) as [Z1|Z1]; destruct (Z.eq_dec (spill u n m2) 0) as [Z2|Z2]; lia.
Qed.

Lemma span_reached : forall m u n, dt_valid m = true -> clock_unit u = true -> 0 <= n -> n * unit_secs u <= span32 ->
  let T := sod m + n * unit_secs u in
  exists Y Mo D, reached (T / 86400) m Y Mo D /\ calculate md (Addition (Moment m) (mk u n)) = built Y Mo D (T mod 86400).
Proof.
  intros m u n Hm Hu Hn Hs T. destruct (span_field m u n Hm Hn Hs) as [Hf _]. destruct (valid_facts m Hm) as (Vy & _).
  destruct (add_clock md m u n Hm Hu ltac:(lia) ltac:(lia)) as [A B]. cbv zeta in A, B. fold T in A, B.
  pose proof (add_clock_past m u n Hm Hu Hn Hs) as P. cbv zeta in P. fold T in P.
  destruct (Z_le_gt_dec (days_before (year m) (month m) + day m + T / 86400) (year_length (year m))) as [L|G].
  - destruct (A L) as (mo' & d' & Ex & Eq & ->). exists (year m), mo', d'. split; [left; auto|].
    unfold built. replace (representable (year m) mo' d') with true; [reflexivity|]. symmetry. apply representable_iff. auto.
  - rewrite (B ltac:(lia)). specialize (P ltac:(lia)).
    rewrite wrap32_id by (unfold min_year in *; lia). do 3 eexists. split; [right; eexists; split; [reflexivity|]; split; [lia|repeat split]|reflexivity].
Qed.
Lemma reached_order : forall c1 m1 Y1 Mo1 D1 c2 m2 Y2 Mo2 D2, year m1 = year m2 ->
  reached c1 m1 Y1 Mo1 D1 -> reached c2 m2 Y2 Mo2 D2 -> date_exists Y1 Mo1 D1 = true -> date_exists Y2 Mo2 D2 = true ->
  (days_before (year m1) (month m1) + day m1 + c1 <= days_before (year m2) (month m2) + day m2 + c2 -> day_number Y1 Mo1 D1 <= day_number Y2 Mo2 D2) /\
  (days_before (year m1) (month m1) + day m1 + c1 < days_before (year m2) (month m2) + day m2 + c2 -> day_number Y1 Mo1 D1 < day_number Y2 Mo2 D2).
Proof.
  intros c1 m1 Y1 Mo1 D1 c2 m2 Y2 Mo2 D2 Ey R1 R2 X1 X2.
  set (K1 := days_before (year m1) (month m1) + day m1 + c1). set (K2 := days_before (year m2) (month m2) + day m2 + c2).
  assert (Eqk : K1 = K2 -> day_number Y1 Mo1 D1 = day_number Y2 Mo2 D2 /\ True).
  { intro Q. split; [|exact I]. destruct R1 as [(-> & _ & R1)|(e1 & Q1 & P1 & -> & -> & ->)], R2 as [(-> & _ & R2)|(e2 & Q2 & P2 & -> & -> & ->)].
    - fold K1 in R1. fold K2 in R2. unfold day_number. rewrite Ey in *. lia.
    - fold K1 in R1. fold K2 in Q2. pose proof (doy_bounds _ _ _ X1). rewrite Ey in *. lia.
    - fold K1 in Q1. fold K2 in R2. pose proof (doy_bounds _ _ _ X2). rewrite Ey in *. lia.
    - fold K1 in Q1. fold K2 in Q2. rewrite Ey in *. assert (e1 = e2) as -> by lia. reflexivity. }
  assert (Ltk : K1 < K2 -> day_number Y1 Mo1 D1 < day_number Y2 Mo2 D2).
  { intro Q. destruct R1 as [(-> & _ & R1)|(e1 & Q1 & P1 & E1 & F1 & G1)], R2 as [(-> & _ & R2)|(e2 & Q2 & P2 & E2 & F2 & G2)].
    - fold K1 in R1. fold K2 in R2. unfold day_number. rewrite Ey in *. lia.
    - apply day_number_lt_year; [assumption|assumption|]. lia.
    - fold K1 in Q1. fold K2 in R2. pose proof (doy_bounds _ _ _ X2). rewrite Ey in *. lia.
    - apply day_number_lt_iff; [assumption|assumption|]. fold K1 in Q1. fold K2 in Q2. rewrite Ey in *. clear - Q Q1 Q2 E1 F1 G1 E2 F2 G2 P1 P2. lia. }
  split; [intro Q; destruct (Z.eq_dec K1 K2) as [D|D]; [destruct (Eqk D); lia|specialize (Ltk ltac:(lia)); lia]|exact Ltk].
Qed.

(** Clock units keep the order of moments of one year. *)
Lemma same_year_order : forall u n m1 m2 m1' m2', dt_valid m1 = true -> dt_valid m2 = true -> clock_unit u = true -> 0 <= n -> n * unit_secs u <= span32 ->
  calculate md (Addition (Moment m1) (mk u n)) = Ok (Moment m1') -> calculate md (Addition (Moment m2) (mk u n)) = Ok (Moment m2') ->
  year m1 = year m2 -> inst m1 <= inst m2 -> inst m1' <= inst m2'.
Proof.
  intros u n m1 m2 m1' m2' V1 V2 Hu Hn Hs E1 E2 Y L.
  destruct (span_reached m1 u n V1 Hu Hn Hs) as (Y1 & Mo1 & D1 & R1 & C1). destruct (span_reached m2 u n V2 Hu Hn Hs) as (Y2 & Mo2 & D2 & R2 & C2).
  rewrite C1 in E1. rewrite C2 in E2. apply built_ok in E1 as [P1 E1]. apply built_ok in E2 as [P2 E2]. injection E1 as ->. injection E2 as ->.
  apply representable_iff in P1 as [_ P1]. apply representable_iff in P2 as [_ P2].
  destruct (reached_order _ _ _ _ _ _ _ _ _ _ Y R1 R2 P1 P2) as [A B].
  rewrite !inst_at by (apply Z.mod_pos_bound; lia). rewrite !inst_sod in L. unfold day_number in L. rewrite Y in L.
  set (T1 := sod m1 + n * unit_secs u) in *. set (T2 := sod m2 + n * unit_secs u) in *.
  assert (M : (days_before (year m1) (month m1) + day m1) * 86400 + T1 <= (days_before (year m2) (month m2) + day m2) * 86400 + T2) by (subst T1 T2; rewrite Y; lia).
  clear - M A B. lia.
Qed.
End Order.
