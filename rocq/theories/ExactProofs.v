(** Exact conditions for the regular behaviour of dates. *)
Require Import ZArith Bool List Lia ZifyBool.
From Verif Require Import Prelude Spec Chrono Util TimeType SpecTree SpecMoment SpecExact PreludeProofs EvalProofs AmountProofs ShapeProofs CompProofs CalendarProofs
  AddProofs AddProofs2 SubProofs EndProofs.
Local Open Scope Z_scope.
Local Ltac Zify.zify_post_hook ::= Z.to_euclidean_division_equations.

Lemma days_before_30 : forall y mo, 1 <= mo <= 12 -> (days_before y mo = 30 * (mo - 1) <->
  mo = 1 \/ (mo = 3 /\ leap y = true) \/ (mo = 4 /\ leap y = false) \/ (mo = 5 /\ leap y = false)).
Proof.
  intros y mo H. rewrite days_before_val by lia.
  destruct (month_cases mo H) as [E|[E|[E|[E|[E|[E|[E|[E|[E|[E|[E|E]]]]]]]]]]]; subst mo; destruct (leap y); cbn [nth Z.to_nat Z.sub Z.add Z.opp Z.pos_sub Pos.pred_double Pos.to_nat Pos.iter_op Nat.add]; split; intro C; intuition (lia || discriminate).
Qed.
Lemma days_before_30_low : forall y mo, 1 <= mo <= 12 -> 30 * (mo - 1) - 1 <= days_before y mo.
Proof.
  intros y mo H. rewrite days_before_val by lia.
  destruct (month_cases mo H) as [E|[E|[E|[E|[E|[E|[E|[E|[E|[E|[E|E]]]]]]]]]]]; subst mo; destruct (leap y); vm_compute; discriminate.
Qed.
Lemma add_exact_iff : forall md m u n, dt_valid m = true -> clock_unit u = true -> 0 <= n -> n * unit_secs u <= span32 ->
  ((exists m', calculate md (Addition (Moment m) (mk u n)) = Ok (Moment m') /\ inst m' = inst m + n * unit_secs u) <->
   lands (year m + 1) (days_past u n m) /\ inst m + n * unit_secs u < instant (max_year + 1) 1 1 0 0 0).
Proof.
  intros md m u n Hm Hu Hn Hs. destruct (span_field m u n Hm Hn Hs) as [Hf Hi].
  destruct (add_clock md m u n Hm Hu Hn ltac:(lia)) as [_ P].
  pose proof (add_clock_past m u n Hm Hu Hn Hs) as B. cbv zeta in P, B.
  pose proof (add_clock_exact md m u n Hm Hu Hn) as X.
  destruct (valid_facts m Hm) as (Vy & Vmo & Vd & Vml & _). pose proof (sod_range m Hm) as Vs.
  pose proof (leap_year_step (year m)) as Ly. pose proof (doy_bounds _ _ _ (valid_date m Hm)) as Dy.
  assert (De : days_past u n m = days_before (year m) (month m) + day m + (sod m + n * unit_secs u) / 86400 - year_length (year m) - 1).
  { unfold days_past. rewrite inst_sod, day_number_jan. unfold day_number. rewrite Ly.
    replace ((days_before_year (year m) + days_before (year m) (month m) + day m) * 86400 + sod m + n * unit_secs u)
      with (sod m + n * unit_secs u + (days_before_year (year m) + days_before (year m) (month m) + day m) * 86400) by ring.
    rewrite Z.div_add by discriminate. lia. }
  assert (Ei : inst m + n * unit_secs u = (days_before_year (year m + 1) + days_past u n m + 1) * 86400 + (sod m + n * unit_secs u) mod 86400).
  { rewrite De, inst_sod. unfold day_number. rewrite Ly. pose proof (Z.div_mod (sod m + n * unit_secs u) 86400 ltac:(discriminate)). lia. }
  assert (Lt : forall e', instant (year m + 1) 1 (e' + 1) 0 0 0 = (days_before_year (year m + 1) + e' + 1) * 86400).
  { intro e'. unfold instant. rewrite day_number_jan. ring. }
  pose proof (Z.mod_pos_bound (sod m + n * unit_secs u) 86400 ltac:(lia)) as Mb.
  set (e := days_past u n m) in *. rewrite <- De in P, B.
  set (T := sod m + n * unit_secs u) in *. clearbody e. 
  destruct (Z_lt_ge_dec e 30) as [Le|Ge].
  { split.
    - intros (m' & E & I). split; [left; exact Le|].
      assert (Vm' : dt_valid m' = true).
      { pose proof (calculate_good md (Addition (Moment m) (mk u n))) as G. rewrite E in G. apply G. cbn. rewrite Hm. destruct u; exact Hi. }
      rewrite <- I. rewrite inst_sod. pose proof (sod_range m' Vm'). pose proof (doy_bounds _ _ _ (valid_date m' Vm')). destruct (valid_facts m' Vm') as (Vy' & _).
      unfold instant. rewrite day_number_jan. unfold day_number. pose proof (leap_year_step (year m')).
      pose proof (days_before_year_mono (year m' + 1) (max_year + 1) ltac:(lia)). lia.
    - intros [_ L]. destruct (X ltac:(change 31 with (30 + 1); rewrite Lt; lia) L) as (m' & E & _ & _ & I). eauto. }
  specialize (P ltac:(lia)). specialize (B ltac:(lia)). rewrite wrap32_id in P by (unfold min_year in *; lia). rewrite P.
  assert (Mo : 1 <= e mod 360 / 30 + 1 <= 12) by lia. assert (Dd : e mod 30 = e mod 360 - 30 * (e mod 360 / 30)) by lia.
  pose proof (days_before_30 (year m + 1) _ Mo) as D30. pose proof (days_before_30_low (year m + 1 + e / 360) _ Mo) as D30l.
  split.
  - intros (m' & E & I). apply built_ok in E as [R [= ->]]. rewrite inst_at in I by lia. rewrite Ei in I. unfold day_number in I.
    apply representable_iff in R as [R _].
    pose proof (days_before_year_mono (year m + 1) (year m + 1 + e / 360) ltac:(lia)) as Mn.
    assert (Q : e / 360 = 0) by lia. rewrite Q in *. rewrite Z.add_0_r in *.
    assert (Eq : days_before (year m + 1) (e mod 360 / 30 + 1) = 30 * (e mod 360 / 30 + 1 - 1)) by lia. apply D30 in Eq.
    split.
    + unfold lands. destruct Eq as [Eq|[[Eq L]|[[Eq L]|[Eq L]]]]; [lia|right; left|right; right|right; right]; (split; [exact L|lia]).
    + rewrite Ei. unfold instant. rewrite day_number_jan. pose proof (days_before_year_mono (year m + 1 + 1) (max_year + 1) ltac:(lia)) as Mx.
      pose proof (leap_year_step (year m + 1)). pose proof (year_length_bounds (year m + 1)). lia.
  - intros [L M]. rewrite Ei in M. unfold instant in M. rewrite day_number_jan in M.
    assert (Q : 60 <= e < 150) by (unfold lands in L; lia). assert (Q0 : e / 360 = 0) by lia. rewrite Q0, Z.add_0_r in *.
    assert (Eq : days_before (year m + 1) (e mod 360 / 30 + 1) = 30 * (e mod 360 / 30 + 1 - 1)).
    { apply D30. destruct L as [L|[[L1 L2]|[L1 L2]]]; [lia| |]; [right; left; split; [lia|exact L1]|right; right].
      destruct (Z_lt_ge_dec e 120); [left|right]; (split; [lia|exact L1]). }
    assert (Yx : year m + 1 <= max_year).
    { destruct (Z_le_gt_dec (year m + 1) max_year); [assumption|]. pose proof (days_before_year_mono (max_year + 1) (year m + 1) ltac:(lia)). lia. }
    assert (R : representable (year m + 1) (e mod 360 / 30 + 1) (e mod 30 + 1) = true).
    { apply representable_iff. split; [lia|]. apply date_exists_iff. split; [exact Mo|]. rewrite month_length_val by exact Mo.
      replace (e mod 360 / 30 + 1 =? 2) with false by lia. destruct (_ || _); lia. }
    unfold built. rewrite R. eexists. split; [reflexivity|]. rewrite inst_at by lia. rewrite Ei. unfold day_number. rewrite Eq. lia.
Qed.
