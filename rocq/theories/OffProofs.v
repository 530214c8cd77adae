(** How far sums and differences with moments are off (C121). *)
Require Import ZArith Bool List Lia ZifyBool.
From Verif Require Import Prelude Spec Chrono Util TimeType Iter SpecTree SpecMoment SpecIter SpecExact SpecTwice SpecOff PreludeProofs CalendarProofs EvalProofs AmountProofs ShapeProofs CompProofs
  LoopProofs AddProofs AddProofs2 SubProofs ExactProofs2 ExactProofs3 SeqProofs FarProofs SameProofs TwiceProofs IterProofs IterProofs2.
Local Open Scope Z_scope.

Lemma drift_range : forall y mo, 1 <= mo <= 12 -> -1 <= drift y mo <= 5.
Proof.
  intros y mo H. unfold drift. rewrite days_before_val by lia.
  assert (mo = 1 \/ mo = 2 \/ mo = 3 \/ mo = 4 \/ mo = 5 \/ mo = 6 \/ mo = 7 \/ mo = 8 \/ mo = 9 \/ mo = 10 \/ mo = 11 \/ mo = 12) as X by lia.
  destruct X as [-> | [-> | [-> | [-> | [-> | [-> | [-> | [-> | [-> | [-> | [-> | ->]]]]]]]]]]]; destruct (leap y); vm_compute; split; discriminate.
Qed.
Lemma years_range : forall y q, 0 <= q -> 365 * q <= days_before_year (y + q) - days_before_year y <= 366 * q.
Proof.
  intros y q Hq. pattern q. apply natlike_ind; [rewrite Z.add_0_r; lia| |exact Hq]. intros x Hx IH.
  replace (y + Z.succ x) with (y + x + 1) by lia. rewrite leap_year_step. pose proof (year_length_bounds (y + x)). lia.
Qed.

Section Off.
Variable md : mode.

Lemma add_field : forall m u n, dt_valid m = true -> clock_unit u = true -> 0 <= n -> n * unit_secs u <= span32 -> field u m + n <= i64_max.
Proof.
  intros m u n V C N1 N2. destruct (valid_facts m V) as (Vy & Vmo & Vd & Vml & Vh & Vmi & Vs). unfold span32, i64_max in *.
  destruct u; try discriminate C; cbn [field unit_secs] in *; lia.
Qed.

Lemma add_off : forall m u n x, dt_valid m = true -> clock_unit u = true -> 0 <= n -> n * unit_secs u <= span32 ->
  calculate md (Addition (Moment m) (mk u n)) = Ok (Moment x) -> inst x = inst m + n * unit_secs u + 86400 * late m x /\ year m <= year x.
Proof.
  intros m u n x Hm Hu Hn Hs R. destruct (reach md m u n x Hm Hu Hn Hs (add_field m u n Hm Hu Hn Hs) R) as (S & N & V & C). cbv zeta in S, C.
  destruct (valid_facts m Hm) as (Vy & Vmo & Vd & Vml & Vh & Vmi & Vs). destruct (valid_facts x V) as (Xy & Xmo & Xd & _). pose proof (sod_range m Hm) as Sr.
  rewrite !inst_sod, S. set (T := sod m + n * unit_secs u) in *. pose proof (Z.div_mod T 86400 ltac:(lia)) as DM. unfold late.
  destruct C as [(L & Y & D)|(L & Y & M & D)].
  - rewrite Y, Z.eqb_refl. split; [|lia]. unfold day_number. subst T. lia.
  - set (e := days_before (year m) (month m) + day m + T / 86400 - year_length (year m) - 1) in *.
    pose proof (leap_year_step (year m)) as LS.
    assert (Q : 0 <= e / 360) by (apply Z.div_pos; lia). destruct (Z.eqb_spec (year x) (year m)) as [E|E]; [lia|]. split; [|lia].
    unfold drift. rewrite !day_number_jan. unfold day_number.
    assert (E' : e = 360 * (year x - year m - 1) + 30 * (month x - 1) + (day x - 1)).
    { rewrite Y, M, D. clear. set (q := e / 360). replace (year m + 1 + q - year m - 1) with q by lia.
      assert (e = 360 * q + e mod 360) by (subst q; apply Z.div_mod; lia).
      assert (e mod 360 = 30 * (e mod 360 / 30) + e mod 360 mod 30) by (apply Z.div_mod; lia).
      assert (e mod 360 mod 30 = e mod 30).
      { rewrite (Z.div_mod e 360) at 2 by lia. rewrite Z.add_comm. replace (360 * (e / 360)) with (12 * (e / 360) * 30) by ring. rewrite Z.mod_add by lia. reflexivity. }
      lia. }
    subst e T. lia.
Qed.
Lemma add_off_range : forall m u n x, dt_valid m = true -> clock_unit u = true -> 0 <= n -> n * unit_secs u <= span32 ->
  calculate md (Addition (Moment m) (mk u n)) = Ok (Moment x) ->
  year x = year m /\ inst x = inst m + n * unit_secs u \/
  (let q := year x - year m - 1 in 0 <= q /\ 86400 * (5 * q - 1) <= inst x - (inst m + n * unit_secs u) <= 86400 * (6 * q + 5)).
Proof.
  intros m u n x Hm Hu Hn Hs R. destruct (add_off m u n x Hm Hu Hn Hs R) as [I Y].
  assert (V : dt_valid x = true) by exact (proj1 (proj2 (proj2 (reach md m u n x Hm Hu Hn Hs (add_field m u n Hm Hu Hn Hs) R)))).
  destruct (valid_facts x V) as (_ & Vmo & _). unfold late in I. destruct (Z.eqb_spec (year x) (year m)) as [E|E]; [left; split; [exact E|lia]|right].
  cbv zeta. split; [lia|]. pose proof (drift_range (year x) (month x) Vmo) as D. rewrite !day_number_jan in I.
  pose proof (years_range (year m + 1) (year x - year m - 1) ltac:(lia)) as YR. replace (year m + 1 + (year x - year m - 1)) with (year x) in YR by lia. lia.
Qed.

Lemma sub_off : forall m u n x, dt_valid m = true -> clock_unit u = true -> 0 <= n < 2147483648 ->
  calculate md (Subtraction (Moment m) (mk u n)) = Ok (Moment x) -> inst x = inst m - n * unit_secs u + sub_late u n m.
Proof.
  intros m u n x Hm Hu Hn E. pose proof (sod_range m Hm) as Sr. destruct (valid_facts m Hm) as (Vy & Vmo & Vd & Vml & _).
  unfold sub_late. cbv zeta. set (L := let '(py, pm) := prev_month (year m) (month m) in month_length py pm).
  assert (Hc : (u <> UDay -> field u m - n <> - modulus u) \/ (u <> UDay /\ field u m - n = - modulus u)).
  { destruct (Z.eq_dec (field u m - n) (- modulus u)) as [Ee|Ne]; [|left; auto]. destruct u; try discriminate Hu; try (right; split; [discriminate|exact Ee]). left. tauto. }
  destruct Hc as [Hx|[Hd Hx]].
  - replace (sub_skips u n m) with false by (symmetry; unfold sub_skips; destruct u; try reflexivity; apply Z.eqb_neq; apply Hx; discriminate).
    pose proof (sub_error md m u n x Hm Hu Hn Hx E) as D. fold L in D. rewrite D, !Z.sub_0_r. destruct (1 <=? _); lia.
  - replace (sub_skips u n m) with true by (symmetry; unfold sub_skips; destruct u; try (exfalso; apply Hd; reflexivity); try discriminate Hu; apply Z.eqb_eq; exact Hx).
    destruct (sub_clock md m u n Hm Hu Hd Hn) as (_ & A2 & _). cbv zeta in A2. rewrite (A2 Hx) in E.
    set (T := sod m - n * unit_secs u - modulus u * unit_secs u) in *.
    apply back_exact in E; [|exact Vmo|apply Z.mod_pos_bound; lia]. fold L in E. pose proof (Z.div_mod T 86400 ltac:(lia)) as Td.
    rewrite E, inst_sod. unfold day_number. subst T. destruct (1 <=? _); lia.
Qed.
Lemma sub_off_range : forall m u n x, dt_valid m = true -> clock_unit u = true -> 0 <= n < 2147483648 ->
  calculate md (Subtraction (Moment m) (mk u n)) = Ok (Moment x) -> -86400 <= inst x - (inst m - n * unit_secs u) <= 86400 * 3.
Proof.
  intros m u n x Hm Hu Hn E. rewrite (sub_off m u n x Hm Hu Hn E). destruct (valid_facts m Hm) as (Vy & Vmo & _). unfold sub_late.
  set (L := let '(py, pm) := prev_month (year m) (month m) in month_length py pm).
  assert (Hl : 28 <= L <= 31).
  { subst L. unfold prev_month. destruct (Z.eqb_spec (month m) 1); apply month_length_bounds; lia. }
  destruct (sub_skips u n m); destruct (1 <=? _); destruct u; try discriminate Hu; cbn [modulus unit_secs]; lia.
Qed.

Lemma weekday_inst : forall m, dt_valid m = true -> weekday_of m = (inst m / 86400 - 1) mod 7.
Proof.
  intros m Hm. pose proof (sod_range m Hm) as S. rewrite inst_sod. rewrite Z.div_add_l, Z.div_small by lia. unfold weekday_of, weekday. f_equal. lia.
Qed.
Lemma week_shift : forall m x d, dt_valid m = true -> dt_valid x = true -> inst x = inst m + 86400 * d -> (weekday_of x = weekday_of m <-> (7 | d)).
Proof.
  intros m x d Hm Hx I. rewrite !weekday_inst, I by assumption. replace (inst m + 86400 * d) with (inst m + d * 86400) by ring. rewrite Z.div_add by lia.
  set (k := inst m / 86400). split.
  - intro E. apply Z.mod_divide; [lia|]. replace d with ((k + d - 1) - (k - 1)) by ring. rewrite Zminus_mod, E, Z.sub_diag. reflexivity.
  - intros [j ->]. replace (k + j * 7 - 1) with (k - 1 + j * 7) by ring. apply Z.mod_add. lia.
Qed.
Lemma week_add : forall m w x, dt_valid m = true -> 0 <= w -> 7 * w * 86400 <= span32 ->
  calculate md (Addition (Moment m) (Days (7 * w))) = Ok (Moment x) -> (weekday_of x = weekday_of m <-> (7 | late m x)).
Proof.
  intros m w x Hm Hw Hs R. destruct (add_off m UDay (7 * w) x Hm eq_refl ltac:(lia) Hs R) as [I _]. cbn [unit_secs] in I.
  assert (V : dt_valid x = true) by exact (proj1 (proj2 (proj2 (reach md m UDay (7 * w) x Hm eq_refl ltac:(lia) Hs (add_field m UDay (7 * w) Hm eq_refl ltac:(lia) Hs) R)))).
  rewrite (week_shift m x (7 * w + late m x)) by (assumption || lia). split; intros [j J]; [exists (j - w)|exists (j + w)]; lia.
Qed.
Lemma week_sub : forall m w x, dt_valid m = true -> 0 <= w -> 7 * w < 2147483648 ->
  calculate md (Subtraction (Moment m) (Days (7 * w))) = Ok (Moment x) ->
  (weekday_of x = weekday_of m <-> 7 * w < day m \/ (let '(y, mo) := prev_month (year m) (month m) in month_length y mo) = 31).
Proof.
  intros m w x Hm Hw Hs R. pose proof (sub_off m UDay (7 * w) x Hm eq_refl ltac:(lia) R) as I. cbn [unit_secs] in I. pose proof (sod_range m Hm) as Sr.
  destruct (valid_facts m Hm) as (Vy & Vmo & _).
  assert (V : dt_valid x = true).
  { refine (moment_valid md _ x (minus_ok m UDay (7 * w) Hm _) R). apply in_i64_iff. unfold i64_min, i64_max. lia. }
  unfold sub_late in I. cbn [sub_skips unit_secs] in I. set (L := let '(y, mo) := prev_month (year m) (month m) in month_length y mo) in *.
  assert (Hl : 28 <= L <= 31).
  { subst L. unfold prev_month. destruct (Z.eqb_spec (month m) 1); apply month_length_bounds; lia. }
  replace (day m + (sod m - 7 * w * 86400 - 0) / 86400) with (day m - 7 * w) in I.
  2:{ replace (sod m - 7 * w * 86400 - 0) with (sod m + (- (7 * w)) * 86400) by ring. rewrite Z.div_add, Z.div_small by lia. ring. }
  destruct (Z.leb_spec 1 (day m - 7 * w)) as [C|C].
  - rewrite (week_shift m x (7 * - w)) by (assumption || lia). split; [intros _; left; lia|intros _; exists (- w); ring].
  - rewrite (week_shift m x (7 * - w + (31 - L))) by (assumption || lia). split.
    + intros [j J]. right. lia.
    + intros [F|F]; [lia|]. rewrite F. exists (- w). ring.
Qed.

Lemma iter_off : forall m u n it k y, build m (mk u n) = Ok it -> dt_valid m = true -> clock_unit u = true -> 0 <= n -> n * unit_secs u <= 30 * 86400 ->
  (1 <= k)%nat -> inst m + Z.of_nat k * n * unit_secs u < instant (max_year + 1) 1 1 0 0 0 -> calculate md (Addition (Moment m) (mk u (Z.of_nat k * n))) = Ok (Moment y) ->
  exists x, nth_item (iter_next md) k it = Some (Ok (Moment x)) /\ inst y = inst x + 86400 * late m y.
Proof.
  intros m u n it k y B Hm Hu Hn Hs Hk Hr R. destruct (b_clock md m u n it k B Hm Hu Hn Hs Hk Hr) as (x & X & _ & _ & I). exists x. split; [exact X|].
  pose proof (all_instants m Hm) as A. assert (P : 0 <= Z.of_nat k * n) by (apply Z.mul_nonneg_nonneg; lia).
  assert (S : Z.of_nat k * n * unit_secs u <= span32).
  { replace (instant (max_year + 1) 1 1 0 0 0) with 8272434096000 in Hr by (vm_compute; reflexivity). unfold span32. lia. }
  destruct (add_off m u (Z.of_nat k * n) y Hm Hu P S R) as [J _]. lia.
Qed.
End Off.
