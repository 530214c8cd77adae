(** Different moments and one amount (C118). *)
Require Import ZArith Bool List Lia ZifyBool.
From Verif Require Import Prelude Spec Chrono Util TimeType SpecTree SpecMoment SpecExact SpecOrder SpecSwap SpecReach SpecMeet PreludeProofs EvalProofs AmountProofs
  ShapeProofs CompProofs CalendarProofs OrdProofs AddProofs AddProofs2 SubProofs SubProofs2 ExactProofs4 FarProofs SeqProofs OrderProofs2 FurtherProofs SwapProofs ReachProofs IterProofs VisitProofs.
Local Open Scope Z_scope.
Local Ltac Zify.zify_post_hook ::= Z.to_euclidean_division_equations.

Section Meet.
Variable md : mode.

Lemma inst_pos : forall m, inst m = 86400 * (days_before_year (year m) + (days_before (year m) (month m) + day m)) + sod m.
Proof. intro m. rewrite inst_sod. unfold day_number. lia. Qed.
Lemma drift_bounds : forall y mo, 1 <= mo <= 12 -> -1 <= drift y mo <= 5.
Proof.
  intros y mo H. unfold drift.
  assert (C : mo = 1 \/ mo = 2 \/ mo = 3 \/ mo = 4 \/ mo = 5 \/ mo = 6 \/ mo = 7 \/ mo = 8 \/ mo = 9 \/ mo = 10 \/ mo = 11 \/ mo = 12) by lia.
  destruct C as [->|[->|[->|[->|[->|[->|[->|[->|[->|[->|[->| ->]]]]]]]]]]]; rewrite days_before_val by lia;
    match goal with |- context [Z.to_nat ?k] => let v := eval vm_compute in (Z.to_nat k) in change (Z.to_nat k) with v end; cbn [nth]; cbv zeta; destruct (leap y); lia.
Qed.

Lemma clock_meet : forall u n a b x, clock_unit u = true -> dt_valid a = true -> dt_valid b = true -> inst a < inst b -> 0 <= n -> n * unit_secs u <= span32 ->
  calculate md (Addition (Moment a) (mk u n)) = Ok (Moment x) ->
  (calculate md (Addition (Moment b) (mk u n)) = Ok (Moment x) <->
   year b = year a + 1 /\ year b <= year x /\
   inst b - inst a = 86400 * (if year x =? year b then drift (year b) (month x) else year_length (year b) - 360)).
Proof.
  intros u n a b x Hu Ha Hb L Hn Hs E.
  apply (reach_iff md a u n x Ha Hu Hn Hs) in E. destruct E as (Vx & Nx & Lx & Ox & Wx).
  rewrite (reach_iff md b u n x Hb Hu Hn Hs).
  pose proof (inst_pos a) as Ia. pose proof (inst_pos b) as Ib. pose proof (inst_pos x) as Ix.
  pose proof (sod_range a Ha) as Sa. pose proof (sod_range b Hb) as Sb. pose proof (sod_range x Vx) as Sx.
  pose proof (doy_year a Ha) as Da. pose proof (doy_year b Hb) as Db. pose proof (doy_year x Vx) as Dx.
  pose proof (year_length_bounds (year a)) as Ya. pose proof (year_length_bounds (year b)) as Yb.
  pose proof (year_le a b Ha Hb ltac:(lia)) as Lab. pose proof (year_le a x Ha Vx Lx) as Lax.
  destruct (valid_facts x Vx) as (_ & Vmo & Vd & _). pose proof (drift_bounds (year x) (month x) Vmo) as Dr. unfold drift in *.
  pose proof (leap_year_step (year a)) as St.
  unfold way, on_way in *. split.
  - intros (_ & _ & Lbx & Ob & Wb). pose proof (year_le b x Hb Vx Lbx) as Yx.
    destruct (Z.eqb_spec (year x) (year a)) as [Q|Q]; destruct (Z.eqb_spec (year x) (year b)) as [Q'|Q']; try lia.
    + assert (Yab : year b = year a + 1).
      { rewrite Q' in *. assert (year b - year a - 1 = 0); lia. }
      split; [exact Yab|]. split; [lia|]. rewrite Q' in *. rewrite Yab in *. lia.
    + assert (Yab : year b = year a + 1).
      { destruct (Z.eq_dec (year a) (year b)) as [C|C]; [rewrite C in *; lia|]. lia. }
      split; [exact Yab|]. split; [lia|]. rewrite Yab in *. lia.
  - intros (Yab & Yx & D). split; [exact Vx|]. split; [exact Nx|].
    destruct (Z.eqb_spec (year x) (year a)) as [Q|Q]; [lia|].
    destruct (Z.eqb_spec (year x) (year b)) as [Q'|Q'].
    + rewrite Q' in *. rewrite Yab in *. split; [|split; [left; reflexivity|]]; lia.
    + split; [pose proof (inst_lt_date b x Hb Vx ltac:(lia)); lia|]. split; [lia|]. rewrite Yab in *. lia.
Qed.

Lemma same_at : forall a b, dt_valid a = true -> dt_valid b = true -> month_index a = month_index b -> day a = day b -> sod a = sod b -> inst a = inst b.
Proof.
  intros a b Ha Hb I D S. destruct (valid_facts a Ha) as (_ & Ma & _). destruct (valid_facts b Hb) as (_ & Mb & _).
  unfold month_index in I. rewrite (inst_sod a), (inst_sod b). assert (year a = year b /\ month a = month b) as [-> ->] by lia. rewrite D, S. reflexivity.
Qed.
Lemma from_index : forall a b, dt_valid a = true -> dt_valid b = true -> month_index a <= month_index b - 1 -> inst a < inst b.
Proof.
  intros a b Ha Hb I. destruct (valid_facts a Ha) as (_ & Ma & _). destruct (valid_facts b Hb) as (_ & Mb & _).
  apply inst_lt_date; try assumption. unfold month_index in I. lia.
Qed.
Lemma index_of : forall a b, dt_valid a = true -> dt_valid b = true -> inst a < inst b -> month_index a <= month_index b.
Proof.
  intros a b Ha Hb L. destruct (Z_le_gt_dec (month_index a) (month_index b)) as [l|g]; [exact l|exfalso].
  pose proof (from_index b a Hb Ha ltac:(lia)). lia.
Qed.

Lemma month_meet : forall n a b x, dt_valid a = true -> dt_valid b = true -> inst a < inst b -> 0 <= n -> n * unit_secs UMonth <= span32 ->
  calculate md (Addition (Moment a) (Months n)) = Ok (Moment x) ->
  (calculate md (Addition (Moment b) (Months n)) = Ok (Moment x) <->
   month_index b = month_index a + 1 /\ 0 < spill UMonth n a /\ day b = spill UMonth n a /\ sod b = sod a).
Proof.
  intros n a b x Ha Hb L Hn Hs E. destruct (span_field a UMonth n Ha Hn Hs) as [_ Hi].
  destruct (ok_valid md a UMonth n x Ha Hi E) as [Vx Nx].
  destruct (moved md a UMonth n x Ha eq_refl Hn Hs E) as (S1 & R1 & A1 & B1). cbn [in_months] in *.
  destruct (valid_facts a Ha) as (_ & Ma & Da & La & _). destruct (valid_facts b Hb) as (Yb & Mb & Db & Lb & _). destruct (valid_facts x Vx) as (Yx & Mx & Dx & Lx & _).
  pose proof (month_length_bounds (year a) (month a) Ma) as Ba. pose proof (month_length_bounds (year b) (month b) Mb) as Bb.
  split.
  - intro F. destruct (moved md b UMonth n x Hb eq_refl Hn Hs F) as (S2 & R2 & A2 & B2). cbn [in_months] in *.
    pose proof (index_of a b Ha Hb L) as Li.
    destruct (Z.eq_dec (spill UMonth n a) 0) as [Za|Za]; destruct (Z.eq_dec (spill UMonth n b) 0) as [Zb|Zb].
    + destruct (A1 Za), (A2 Zb). pose proof (same_at a b Ha Hb ltac:(lia) ltac:(lia) ltac:(lia)). lia.
    + destruct (A1 Za), (B2 ltac:(lia)). lia.
    + destruct (B1 ltac:(lia)), (A2 Zb). lia.
    + exfalso. destruct (B1 ltac:(lia)), (B2 ltac:(lia)). assert (Ii : month_index a = month_index b) by lia.
      assert (Ey : year a = year b /\ month a = month b) by (unfold month_index in Ii; lia). destruct Ey as [Ey Em].
      assert (Ed : day a = day b).
      { assert (Es : spill UMonth n a = spill UMonth n b) by lia. unfold spill in Es, Za, Zb. rewrite <- Ey, <- Em in Es, Zb.
        destruct (month a + n <=? 12); [lia|]. destruct (day a =? 31) eqn:Q1; destruct (day b =? 31) eqn:Q2; lia. }
      pose proof (same_at a b Ha Hb Ii Ed ltac:(lia)). lia.
  - intros (I & P & D & S). destruct (B1 P) as [I2 D2].
    rewrite (add_months_same_day md b n (year x) (month x) Hb); try lia; [|unfold month_index in *; lia].
    do 2 f_equal. apply inst_same; try assumption; try reflexivity.
    + apply dt_valid_iff. apply dt_valid_iff in Vx. apply dt_valid_iff in Hb. cbn. rewrite D, <- D2. split; [tauto|]. split; [tauto|]. intuition lia.
    + rewrite (inst_sod x). rewrite inst_sod. cbn [year month day]. rewrite D, <- D2. f_equal. unfold sod in *. cbn [hour minute second]. lia.
Qed.
Lemma year_meet : forall n a b x, dt_valid a = true -> dt_valid b = true -> inst a < inst b -> 0 <= n -> n * unit_secs UYear <= span32 ->
  calculate md (Addition (Moment a) (Years n)) = Ok (Moment x) ->
  (calculate md (Addition (Moment b) (Years n)) = Ok (Moment x) <->
   year a = year b /\ month a = 2 /\ day a = 29 /\ month b = 3 /\ day b = 1 /\ sod a = sod b /\ leap (year a + n) = false).
Proof.
  intros n a b x Ha Hb L Hn Hs E. destruct (span_field a UYear n Ha Hn Hs) as [_ Hi].
  destruct (ok_valid md a UYear n x Ha Hi E) as [Vx Nx].
  destruct (moved md a UYear n x Ha eq_refl Hn Hs E) as (S1 & R1 & A1 & B1). cbn [in_months] in *.
  destruct (valid_facts a Ha) as (_ & Ma & Da & La & _). destruct (valid_facts b Hb) as (Yb & Mb & Db & Lb & _). destruct (valid_facts x Vx) as (Yx & Mx & Dx & Lx & _).
  assert (Sp : forall m, 0 < spill UYear n m -> month m = 2 /\ day m = 29 /\ leap (year m + n) = false /\ spill UYear n m = 1).
  { intros m. unfold spill. destruct ((month m =? 2) && (day m =? 29) && negb (leap (year m + n))) eqn:C; [|lia].
    intros _. rewrite !andb_true_iff in C. destruct C as [[C1 C2] C3]. apply negb_true_iff in C3. repeat split; lia || assumption. }
  split.
  - intro F. destruct (moved md b UYear n x Hb eq_refl Hn Hs F) as (S2 & R2 & A2 & B2). cbn [in_months] in *.
    pose proof (index_of a b Ha Hb L) as Li.
    destruct (Z.eq_dec (spill UYear n a) 0) as [Za|Za]; destruct (Z.eq_dec (spill UYear n b) 0) as [Zb|Zb].
    + destruct (A1 Za), (A2 Zb). pose proof (same_at a b Ha Hb ltac:(lia) ltac:(lia) ltac:(lia)). lia.
    + destruct (A1 Za), (B2 ltac:(lia)). lia.
    + destruct (B1 ltac:(lia)), (A2 Zb). destruct (Sp a ltac:(lia)) as (P1 & P2 & P3 & P4).
      unfold month_index in *. repeat split; try assumption; lia.
    + exfalso. destruct (B1 ltac:(lia)), (B2 ltac:(lia)). destruct (Sp a ltac:(lia)) as (P1 & P2 & P3 & P4). destruct (Sp b ltac:(lia)) as (Q1 & Q2 & Q3 & Q4).
      pose proof (same_at a b Ha Hb ltac:(lia) ltac:(lia) ltac:(lia)). lia.
  - intros (Y & M2 & D29 & M3 & D1 & S & Lf).
    assert (P : spill UYear n a = 1) by (unfold spill; rewrite M2, D29, Lf; reflexivity).
    destruct (B1 ltac:(lia)) as [I2 D2]. unfold month_index in I2.
    rewrite (add_years_in_range md b n Hb) by lia.
    replace (month b =? 2) with false by lia. cbn [andb].
    do 2 f_equal. apply inst_same; try assumption; try reflexivity.
    + apply dt_valid_iff. apply dt_valid_iff in Hb. cbn. rewrite M3, D1 in *. split; [lia|]. split; [reflexivity|]. intuition lia.
    + rewrite (inst_sod x). rewrite inst_sod. cbn [year month day]. replace (year b + n) with (year x) by lia. replace (month b) with (month x) by lia. replace (day b) with (day x) by lia.
      f_equal. unfold sod in *. cbn [hour minute second]. lia.
Qed.
Lemma meet_iff : forall u n a b x, dt_valid a = true -> dt_valid b = true -> inst a < inst b -> 0 <= n -> n * unit_secs u <= span32 ->
  calculate md (Addition (Moment a) (mk u n)) = Ok (Moment x) ->
  (calculate md (Addition (Moment b) (mk u n)) = Ok (Moment x) <-> meet u n a b x).
Proof.
  intros u n a b x Ha Hb L Hn Hs E. destruct u; cbn [meet]; [apply clock_meet|apply clock_meet|apply clock_meet|apply clock_meet|apply month_meet|apply year_meet]; assumption || reflexivity.
Qed.
(** Not three. *)
Lemma not_three : forall u n a b c x, dt_valid a = true -> dt_valid b = true -> dt_valid c = true -> inst a < inst b -> inst b < inst c -> 0 <= n -> n * unit_secs u <= span32 ->
  calculate md (Addition (Moment a) (mk u n)) = Ok (Moment x) -> calculate md (Addition (Moment b) (mk u n)) = Ok (Moment x) ->
  calculate md (Addition (Moment c) (mk u n)) <> Ok (Moment x).
Proof.
  intros u n a b c x Ha Hb Hc L1 L2 Hn Hs Ea Eb Ec.
  apply (meet_iff u n a b x Ha Hb L1 Hn Hs Ea) in Eb as Mab. apply (meet_iff u n a c x Ha Hc ltac:(lia) Hn Hs Ea) in Ec as Mac.
  apply (meet_iff u n b c x Hb Hc L2 Hn Hs Eb) in Ec as Mbc.
  destruct u; cbn [meet] in *; lia.
Qed.
(** Within a year nothing meets by clock units. *)
Lemma year_apart : forall u n a b x, clock_unit u = true -> dt_valid a = true -> dt_valid b = true -> year a = year b -> 0 <= n -> n * unit_secs u <= span32 ->
  calculate md (Addition (Moment a) (mk u n)) = Ok (Moment x) -> calculate md (Addition (Moment b) (mk u n)) = Ok (Moment x) -> whole_second a = whole_second b.
Proof.
  intros u n a b x Hu Ha Hb Y Hn Hs Ea Eb. apply inst_inj; try assumption.
  destruct (Z.lt_trichotomy (inst a) (inst b)) as [L|[Q|L]]; [exfalso|exact Q|exfalso].
  - apply (clock_meet u n a b x Hu Ha Hb L Hn Hs Ea) in Eb. lia.
  - apply (clock_meet u n b a x Hu Hb Ha L Hn Hs Eb) in Ea. lia.
Qed.

(** Negative amounts. *)
Lemma meet_negative : forall u n a b x y, dt_valid a = true -> dt_valid b = true -> inst a < inst b -> -2147483648 <= n < 0 ->
  calculate md (Addition (Moment a) (mk u n)) = Ok (Moment x) -> calculate md (Addition (Moment b) (mk u n)) = Ok (Moment y) ->
  (x = y <-> meet_back u n a b).
Proof.
  intros u n a b x y Ha Hb L Hn Ea Eb. unfold meet_back. destruct (clock_unit u) eqn:Hu.
  - split; [|intros [C _]; discriminate C]. intros <-.
    destruct (add_negative md a u n Ha Hu Hn) as [O|(w & W & _ & _ & I)]; [exfalso; exact (not_oob _ _ O Ea)|].
    destruct (add_negative md b u n Hb Hu Hn) as [O|(w' & W' & _ & _ & I')]; [exfalso; exact (not_oob _ _ O Eb)|].
    rewrite W in Ea. injection Ea as ->. rewrite W' in Eb. injection Eb as ->. lia.
  - assert (M : move_ok (mkmove false u n)) by (split; cbn [backward munit mcount]; [|destruct u; cbn [unit_secs]; unfold span32]; lia).
    destruct (date_step md a (mkmove false u n) x Ha Hu M Ea) as (y1 & mo1 & d1 & X & P1 & I1 & D1).
    destruct (date_step md b (mkmove false u n) y Hb Hu M Eb) as (y2 & mo2 & d2 & Y & P2 & I2 & D2). cbn [backward munit mcount] in *.
    pose proof (sod_range a Ha) as Ra. pose proof (sod_range b Hb) as Rb. pose proof (repr_month _ _ _ P1) as M1. pose proof (repr_month _ _ _ P2) as M2.
    destruct (spill_range u n a Ha Hu) as [Sa Ga]. destruct (spill_range u n b Hb Hu) as [Sb Gb].
    pose proof (index_of a b Ha Hb L) as Li. destruct (valid_facts a Ha) as (_ & Ma & _). destruct (valid_facts b Hb) as (_ & Mb & Db & _).
    split.
    + intro Q. split; [reflexivity|]. subst x y.
      pose proof (f_equal year Q) as Q1. pose proof (f_equal month Q) as Q2. pose proof (f_equal day Q) as Q3. pose proof (f_equal sod Q) as Q4.
      rewrite !at_day_sod in Q4 by assumption. cbn [at_time year month day] in Q1, Q2, Q3. subst y2 mo2 d2.
      destruct (0 <? spill_any u n a) eqn:A; destruct (0 <? spill_any u n b) eqn:B.
      * exfalso. assert (Ii : month_index a = month_index b) by lia. assert (Ey : year a = year b /\ month a = month b) by (unfold month_index in Ii; lia). destruct Ey as [Ey Em].
        destruct (Z_le_gt_dec (day a) (day b)) as [c|c].
        -- destruct (spill_same u n a b Hu Ey Em c ltac:(lia) Hb) as (_ & S2 & _).
           assert (Ed : day a = day b) by lia. pose proof (same_at a b Ha Hb Ii Ed Q4). lia.
        -- destruct (spill_same u n b a Hu (eq_sym Ey) (eq_sym Em) ltac:(lia) ltac:(lia) Ha) as (_ & S2 & _). lia.
      * lia.
      * lia.
      * exfalso. pose proof (same_at a b Ha Hb ltac:(lia) ltac:(lia) Q4). lia.
    + intros (_ & Ii & Sp & Dd & Ss). subst x y.
      assert (B0 : (0 <? spill_any u n b) = false) by lia. rewrite B0 in *. replace (0 <? spill_any u n a) with true in * by lia.
      rewrite Ss. replace d2 with d1 by lia. assert (y1 = y2 /\ mo1 = mo2) as [-> ->] by lia. reflexivity.
Qed.

(** A moment [p] seconds into the year [y]. *)
Lemma in_the_year : forall y p, min_year <= y <= max_year -> 0 <= p < 86400 * year_length y ->
  exists m, dt_valid m = true /\ nano m = 0 /\ year m = y /\ inst m = instant y 1 1 0 0 0 + p.
Proof.
  intros y p Hy Hp.
  assert (V : dt_valid (mkdt y 1 1 0 0 0 0) = true).
  { apply dt_valid_iff. cbn. split; [exact Hy|]. split; [reflexivity|]. lia. }
  assert (I0 : inst (mkdt y 1 1 0 0 0 0) = instant y 1 1 0 0 0) by reflexivity.
  assert (St : instant (y + 1) 1 1 0 0 0 = instant y 1 1 0 0 0 + 86400 * year_length y).
  { unfold instant, day_number. rewrite !days_before_1, leap_year_step. lia. }
  assert (Mx : instant (y + 1) 1 1 0 0 0 <= instant (max_year + 1) 1 1 0 0 0).
  { unfold instant, day_number. rewrite !days_before_1. pose proof (days_before_year_mono (y + 1) (max_year + 1) ltac:(lia)). lia. }
  assert (M31 : instant (y + 1) 1 1 0 0 0 <= instant (y + 1) 1 31 0 0 0) by (unfold instant, day_number; lia).
  destruct (add_clock_exact md (mkdt y 1 1 0 0 0 0) USec p V eq_refl ltac:(lia)) as (m & _ & Vm & Nm & Im); cbn [unit_secs year]; try lia.
  exists m. split; [exact Vm|]. split; [exact Nm|]. cbn [unit_secs] in Im. rewrite I0 in Im.
  split; [|lia].
  destruct (Z.lt_trichotomy (year m) y) as [C|[C|C]]; [exfalso|exact C|exfalso].
  - pose proof (inst_lt_date m (mkdt y 1 1 0 0 0 0) Vm V ltac:(left; exact C)). lia.
  - destruct (valid_facts m Vm) as (Ym & _).
    assert (V' : dt_valid (mkdt (y + 1) 1 1 0 0 0 0) = true).
    { apply dt_valid_iff. cbn. split; [lia|]. split; [reflexivity|]. lia. }
    assert (instant (y + 1) 1 1 0 0 0 <= inst m); [|lia].
    change (instant (y + 1) 1 1 0 0 0) with (inst (mkdt (y + 1) 1 1 0 0 0 0)).
    destruct (Z_lt_le_dec (inst m) (inst (mkdt (y + 1) 1 1 0 0 0 0))) as [C2|C2]; [exfalso|exact C2].
    pose proof (year_le m (mkdt (y + 1) 1 1 0 0 0 0) Vm V' ltac:(lia)) as C3. cbn [year] in C3.
    assert (year m = y + 1) by lia. rewrite inst_pos in C2. rewrite (inst_pos (mkdt (y + 1) 1 1 0 0 0 0)) in C2. cbn [year month day] in C2.
    rewrite H, days_before_1 in C2. pose proof (doy_year m Vm) as D. rewrite H in D. pose proof (sod_range m Vm). unfold sod at 2 in C2. cbn [hour minute second] in C2. lia.
Qed.
Lemma clock_hit : forall u n x, clock_unit u = true -> dt_valid x = true -> nano x = 0 -> 0 <= n -> n * unit_secs u <= span32 ->
  ((exists m, dt_valid m = true /\ calculate md (Addition (Moment m) (mk u n)) = Ok (Moment x)) <->
   n * unit_secs u <= since_year x \/
   (day x <= 30 /\ since_year30 x < n * unit_secs u /\
    n * unit_secs u <= since_year30 x + 86400 * (year_length min_year + 360 * (year x - min_year - 1)) /\ min_year < year x)).
Proof.
  intros u n x Hu Vx Nx Hn Hs.
  assert (Us : 1 <= unit_secs u) by (destruct u; try discriminate Hu; cbn; lia).
  assert (N0 : 0 <= n * unit_secs u) by nia. remember (n * unit_secs u) as S eqn:ES.
  assert (Sy : since_year x = 86400 * (days_before (year x) (month x) + day x - 1) + sod x).
  { unfold since_year. rewrite inst_pos. unfold instant, day_number. rewrite days_before_1. lia. }
  pose proof (sod_range x Vx) as Sx. pose proof (doy_year x Vx) as Dx. destruct (valid_facts x Vx) as (Yx & Mx & Ddx & _).
  pose proof (year_length_bounds min_year) as Bmin.
  split.
  - intros (m & Vm & E). apply (reach_iff md m u n x Vm Hu Hn ltac:(lia)) in E. destruct E as (_ & _ & L & O & W).
    pose proof (sod_range m Vm) as Sm. pose proof (doy_year m Vm) as Dm. destruct (valid_facts m Vm) as (Ym & Mm & Ddm & _).
    pose proof (year_le m x Vm Vx L) as Yl. pose proof (year_length_bounds (year m)) as Bm.
    rewrite <- ES in W. unfold way, on_way in *. destruct (Z.eqb_spec (year x) (year m)) as [Q|Q].
    + left. rewrite W, Sy. rewrite (inst_pos x), (inst_pos m), Q. lia.
    + right. split; [lia|]. unfold since_year30. split; [lia|]. split; [|lia]. rewrite W.
      destruct (Z.eq_dec (year m) min_year) as [C|C]; [rewrite C in *; lia|lia].
  - intros [L|(D30 & G & Lw & Lm)].
    + destruct (in_the_year (year x) (since_year x - S) Yx) as (m & Vm & Nm & Ym & Im).
      { rewrite Sy. rewrite Sy in L. lia. }
      exists m. split; [exact Vm|]. apply reach_iff; try assumption; [lia|]. split; [exact Vx|]. split; [exact Nx|].
      unfold since_year in *. split; [lia|]. unfold on_way, way. rewrite Ym, Z.eqb_refl. split; [left; reflexivity|]. lia.
    + set (Q := S - since_year30 x) in *. set (k := (Q - 1) / (360 * 86400)).
      set (y := Z.max min_year (year x - 1 - k)).
      set (rem := Q - 360 * 86400 * (year x - 1 - y)).
      assert (K0 : 0 <= k) by (subst k; apply Z.div_pos; lia).
      assert (Kq : 360 * 86400 * k <= Q - 1 < 360 * 86400 * k + 360 * 86400).
      { subst k. pose proof (Z.div_mod (Q - 1) (360 * 86400) ltac:(lia)). pose proof (Z.mod_pos_bound (Q - 1) (360 * 86400) ltac:(lia)). lia. }
      clearbody k.
      assert (Hy : min_year <= y <= max_year) by lia.
      pose proof (year_length_bounds y) as By.
      assert (Hr : 1 <= rem <= 86400 * year_length y).
      { subst rem. destruct (Z_le_gt_dec min_year (year x - 1 - k)) as [c|c].
        - assert (y = year x - 1 - k) by lia. rewrite H in *. lia.
        - assert (y = min_year) by lia. rewrite H in *. lia. }
      destruct (in_the_year y (86400 * year_length y - rem) Hy ltac:(lia)) as (m & Vm & Nm & Ym & Im).
      exists m. split; [exact Vm|]. apply reach_iff; try assumption; [lia|]. split; [exact Vx|]. split; [exact Nx|].
      assert (Yl : year m < year x) by lia.
      split; [pose proof (inst_lt_date m x Vm Vx ltac:(left; exact Yl)); lia|].
      split; [right; exact D30|]. unfold way. replace (year x =? year m) with false by lia. rewrite <- ES.
      rewrite inst_pos in Im. unfold instant, day_number in Im. rewrite days_before_1, Ym in Im. rewrite Ym.
      subst rem Q. unfold since_year30 in *. lia.
Qed.
Lemma month_hit : forall n x, dt_valid x = true -> nano x = 0 -> 0 <= n -> n * unit_secs UMonth <= span32 ->
  ((exists m, dt_valid m = true /\ calculate md (Addition (Moment m) (Months n)) = Ok (Moment x)) <->
   12 * min_year <= month_index x - n /\ day x <= index_length (month_index x - n) /\ (n < month x \/ day x <= 30)).
Proof.
  intros n x Vx Nx Hn Hs. destruct (valid_facts x Vx) as (Yx & Mx & Dx & Lx & Hx). 
  pose proof (month_length_bounds (year x) (month x) Mx) as Bx.
  assert (IL : 28 <= index_length (month_index x - n) <= 31) by (apply month_length_bounds; lia).
  split.
  - intros (m & Vm & E). destruct (moved md m UMonth n x Vm eq_refl Hn Hs E) as (S1 & R1 & A1 & B1). cbn [in_months] in *.
    destruct (valid_facts m Vm) as (Ym & Mm & Dm & Lm & _).
    destruct (Z.eq_dec (spill UMonth n m) 0) as [Z0|Z0].
    + destruct (A1 Z0) as [I D]. replace (month_index x - n) with (month_index m) by lia.
      assert (Em : index_length (month_index m) = month_length (year m) (month m)).
      { unfold index_length, month_index. replace ((12 * year m + month m - 1) / 12) with (year m) by lia. replace ((12 * year m + month m - 1) mod 12 + 1) with (month m) by lia. reflexivity. }
      rewrite Em. split; [unfold month_index; lia|]. split; [lia|].
      pose proof (month_length_bounds (year m) (month m) Mm).
      destruct (Z_lt_le_dec n (month x)) as [c|c]; [left; exact c|right].
      unfold spill in Z0. destruct (month m + n <=? 12) eqn:C; [unfold month_index in I; lia|]. destruct (day m =? 31) eqn:C2; lia.
    + destruct (B1 ltac:(lia)) as [I D]. split; [unfold month_index in *; lia|]. split; lia.
  - intros (L & D & O). set (i := month_index x - n) in *.
    set (m := mkdt (i / 12) (i mod 12 + 1) (day x) (hour x) (minute x) (second x) 0).
    assert (Vm : dt_valid m = true).
    { apply dt_valid_iff. cbn. apply dt_valid_iff in Vx. split; [unfold month_index in *; lia|]. split; [|intuition lia].
      apply date_exists_iff. fold (index_length i). lia. }
    exists m. split; [exact Vm|]. 
    assert (Im : month_index m = i) by (unfold month_index, m; cbn [year month]; lia).
    assert (Sp : spill UMonth n m = 0).
    { unfold spill. cbn [m year month day]. unfold m. cbn [year month day]. unfold month_index in *. 
      destruct (i mod 12 + 1 + n <=? 12) eqn:C.
      - replace (i / 12) with (year x) by lia. replace (i mod 12 + 1 + n) with (month x) by lia. lia.
      - destruct (day x =? 31) eqn:C2; [exfalso|reflexivity]. lia. }
    destruct (span_field m UMonth n Vm Hn Hs) as [Hf _]. cbn [field] in Hf.
    rewrite add_months by assumption.
    assert (Gl : built (year x) (month x) (day x) (sod x) = (Ok (Moment x) : outcome kek timetype)).
    { rewrite (at_self x Vx Nx) at 5. unfold built. rewrite self_repr by exact Vx. reflexivity. }
    assert (Pm : plus_months (year m) (month m) (day m) n = (year x, month x, day x)).
    { unfold plus_months, spill in *. unfold month_index in *. unfold m in *. cbn [year month day] in *.
      destruct (i mod 12 + 1 + n <=? 12) eqn:C.
      - replace (i / 12) with (year x) in * by lia. replace (i mod 12 + 1 + n) with (month x) in * by lia.
        replace (day x <=? month_length (year x) (month x)) with true by lia. reflexivity.
      - destruct (day x <=? 30) eqn:C2; [|exfalso; lia]. apply (f_equal2 pair); [apply (f_equal2 pair)|]; lia. }
    rewrite Pm. rewrite wrap32_id by (unfold min_year, max_year in *; lia). exact Gl.
Qed.
Lemma year_hit : forall n x, dt_valid x = true -> nano x = 0 -> 0 <= n -> n * unit_secs UYear <= span32 ->
  ((exists m, dt_valid m = true /\ calculate md (Addition (Moment m) (Years n)) = Ok (Moment x)) <->
   min_year <= year x - n /\ day x <= month_length (year x - n) (month x)).
Proof.
  intros n x Vx Nx Hn Hs. destruct (valid_facts x Vx) as (Yx & Mx & Dx & Lx & Hx). split.
  - intros (m & Vm & E). destruct (moved md m UYear n x Vm eq_refl Hn Hs E) as (S1 & R1 & A1 & B1). cbn [in_months] in *.
    destruct (valid_facts m Vm) as (Ym & Mm & Dm & Lm & _).
    destruct (Z.eq_dec (spill UYear n m) 0) as [Z0|Z0].
    + destruct (A1 Z0) as [I D]. unfold month_index in I. assert (year x - n = year m /\ month x = month m) as [-> ->] by lia. lia.
    + destruct (B1 ltac:(lia)) as [I D]. unfold month_index in I. pose proof (month_length_bounds (year x - n) (month x) Mx). split; lia.
  - intros (L & D). set (m := mkdt (year x - n) (month x) (day x) (hour x) (minute x) (second x) 0).
    assert (Vm : dt_valid m = true).
    { apply dt_valid_iff. cbn. apply dt_valid_iff in Vx. split; [lia|]. split; [|intuition lia]. apply date_exists_iff. lia. }
    exists m. split; [exact Vm|]. rewrite (add_years_in_range md m n Vm) by (cbn [m year]; unfold m; cbn [year]; lia).
    unfold m. cbn [year month day hour minute second]. replace (year x - n + n) with (year x) by lia.
    assert (F : (month x =? 2) && (day x =? 29) && negb (leap (year x)) = false).
    { destruct (Z.eqb_spec (month x) 2) as [E2|]; [|reflexivity]. destruct (Z.eqb_spec (day x) 29) as [E9|]; [|reflexivity].
      rewrite E2, E9 in Lx. change (month_length (year x) 2) with (if leap (year x) then 29 else 28) in Lx. destruct (leap (year x)); [reflexivity|lia]. }
    rewrite F. do 2 f_equal. destruct x. cbn in *. subst. reflexivity.
Qed.
Lemma hit_iff : forall u n x, dt_valid x = true -> nano x = 0 -> 0 <= n -> n * unit_secs u <= span32 ->
  ((exists m, dt_valid m = true /\ calculate md (Addition (Moment m) (mk u n)) = Ok (Moment x)) <-> hit u n x).
Proof.
  intros u n x Vx Nx Hn Hs. destruct u; cbn [hit]; [apply clock_hit|apply clock_hit|apply clock_hit|apply clock_hit|apply month_hit|apply year_hit]; assumption || reflexivity.
Qed.
End Meet.
