(** Moment + amount: consequences (range, negative amounts, direction, order). *)
Require Import ZArith Bool List Lia ZifyBool.
From Verif Require Import Prelude Spec Chrono Util TimeType SpecTree SpecMoment PreludeProofs CalendarProofs EvalProofs AmountProofs ShapeProofs CompProofs LoopProofs AddProofs.
Local Open Scope Z_scope.
Ltac Zify.zify_post_hook ::= Z.div_mod_to_equations.

Ltac iflia := repeat match goal with |- context[if ?b then _ else _] => destruct b eqn:? end; lia.

Section Add2.
Variable md : mode.

Lemma add_overflow : forall m u n, dt_valid m = true -> in_i64 n = true -> i64_max < field u m + n ->
  calculate Checked (Addition (Moment m) (mk u n)) = Panic PArith.
Proof.
  intros m u n Hm Hn H. rewrite calc_add_mk by assumption.
  assert (F : in_i64 (field u m + n) = false) by (apply in_i64_false; lia).
  destruct u; cbn [mk add_to_moment field] in *; unfold addc; cbn [bind]; unfold arith; rewrite F; reflexivity.
Qed.

Lemma span_field : forall m u n, dt_valid m = true -> 0 <= n -> n * unit_secs u <= span32 ->
  field u m + n < i64_max /\ in_i64 n = true.
Proof.
  intros m u n Hm Hn H. pose proof (field_bnd m u Hm). unfold span32 in H.
  assert (n <= n * unit_secs u) by (destruct u; cbn; lia).
  split; [|apply in_i64_iff]; unfold min_year, max_year, i64_min, i64_max in *; lia.
Qed.

(** Year reached past December. *)
Lemma add_clock_past : forall m u n, dt_valid m = true -> clock_unit u = true -> 0 <= n ->
  n * unit_secs u <= span32 ->
  let K := days_before (year m) (month m) + day m + (sod m + n * unit_secs u) / 86400 in
  let e := K - year_length (year m) - 1 in
  year_length (year m) < K ->
  year m + 1 <= year m + 1 + e / 360 < 2147483648.
Proof.
  intros m u n Hm Hu Hn Hs K e H. pose proof (sod_range m Hm).
  pose proof (doy_bounds _ _ _ (valid_date m Hm)). destruct (valid_facts m Hm) as (Vy & _).
  set (N := n * unit_secs u) in *.
  assert (0 <= e) by (subst e; lia).
  assert (e <= (sod m + N) / 86400) by (subst e K; lia).
  unfold span32, min_year, max_year in *. clearbody N. clear - H2 H3 Vy Hs H0. lia.
Qed.

Lemma days_before_year_lower : forall y k, 0 <= k -> days_before_year (y + k) <= days_before_year y + 366 * k.
Proof.
  intros y k Hk. pattern k. apply natlike_ind; [| |assumption]; cbv beta.
  - rewrite Z.add_0_r. lia.
  - intros x Hx IH. replace (y + Z.succ x) with (y + x + 1) by lia. rewrite leap_year_step.
    pose proof (year_length_bounds (y + x)). lia.
Qed.
Lemma days_before_year_upper : forall y k, 0 <= k -> days_before_year y + 365 * k <= days_before_year (y + k).
Proof.
  intros y k Hk. pattern k. apply natlike_ind; [| |assumption]; cbv beta.
  - replace (y + 0) with y by lia. lia.
  - intros x Hx IH. replace (y + Z.succ x) with (y + x + 1) by lia. rewrite leap_year_step.
    pose proof (year_length_bounds (y + x)). lia.
Qed.

(** C15, clock units: a target after the last representable second is an error. *)
Lemma add_clock_beyond : forall m u n, dt_valid m = true -> clock_unit u = true -> 0 <= n ->
  n * unit_secs u <= span32 ->
  instant (max_year + 1) 1 1 0 0 0 <= inst m + n * unit_secs u ->
  oob (calculate md (Addition (Moment m) (mk u n))).
Proof.
  intros m u n Hm Hu Hn Hs Ht.
  destruct (span_field m u n Hm Hn Hs) as [Hf _].
  pose proof (add_clock md m u n Hm Hu Hn ltac:(lia)) as [_ A2]. cbv zeta in A2.
  pose proof (add_clock_past m u n Hm Hu Hn Hs) as P. cbv zeta in P.
  rewrite inst_sod in Ht. unfold instant in Ht. rewrite day_number_jan in Ht. unfold day_number in Ht.
  destruct (valid_facts m Hm) as (Vy & _).
  set (N := n * unit_secs u) in *. set (T := sod m + N) in *.
  pose proof (sod_range m Hm) as Hsod.
  set (K := days_before (year m) (month m) + day m + T / 86400) in *.
  assert (HK : days_before_year (max_year + 1) + 1 <= days_before_year (year m) + K) by (subst K; lia).
  assert (Hmono : days_before_year (year m) + year_length (year m) + 365 * (max_year - year m) <= days_before_year (max_year + 1)).
  { pose proof (days_before_year_upper (year m + 1) (max_year - year m) ltac:(lia)) as U.
    rewrite leap_year_step in U. replace (year m + 1 + (max_year - year m)) with (max_year + 1) in U by lia. exact U. }
  assert (HKgt : year_length (year m) < K) by lia.
  specialize (A2 HKgt). specialize (P HKgt). rewrite A2.
  set (e := K - year_length (year m) - 1) in *.
  assert (Hbig : max_year < year m + 1 + e / 360).
  { assert (365 * (max_year - year m) <= e) by (subst e; lia). clear - H Vy. lia. }
  apply oob_built. unfold representable.
  rewrite wrap32_id by (unfold min_year, max_year in *; lia).
  apply andb_false_iff. left. lia.
Qed.

Lemma add_months_beyond : forall m n, dt_valid m = true -> 0 <= n -> n * unit_secs UMonth <= span32 ->
  max_year * 12 + 12 < year m * 12 + month m + n ->
  oob (calculate md (Addition (Moment m) (Months n))).
Proof.
  intros m n Hm Hn Hs Ht. destruct (span_field m UMonth n Hm Hn Hs) as [Hf _]. cbn [field] in Hf.
  rewrite add_months by assumption. unfold plus_months.
  destruct (valid_facts m Hm) as (Vy & Vmo & _).
  set (M := month m + n) in *.
  replace (M <=? 12) with false by lia.
  assert (Hw : forall Y Mo D, max_year < Y < 2147483648 -> oob (built (wrap32 Y) Mo D (sod m))).
  { intros Y Mo D HY. apply oob_built. rewrite wrap32_id by (unfold max_year in *; lia). unfold representable.
    apply andb_false_iff; left; lia. }
  cbn [unit_secs] in Hs. unfold span32, min_year, max_year in *.
  destruct (day m <=? 30); apply Hw; subst M; lia.
Qed.

Lemma add_years_beyond : forall m n, dt_valid m = true -> -2147483648 <= year m + n < 2147483648 ->
  year m + n < min_year \/ max_year < year m + n ->
  oob (calculate md (Addition (Moment m) (Years n))).
Proof.
  intros m n Hm Hs Ht. destruct (valid_facts m Hm) as (Vy & _).
  assert (Hi : in_i64 n = true) by (apply in_i64_iff; unfold min_year, max_year, i64_min, i64_max in *; lia).
  rewrite add_years by (assumption || unfold min_year, max_year, i64_min, i64_max in *; lia).
  rewrite wrap32_id by assumption. unfold in_year.
  assert (Hw : forall Mo D, oob (built (year m + n) Mo D (sod m))).
  { intros Mo D. apply oob_built. unfold representable. apply andb_false_iff; left; lia. }
  destruct (_ && _ && _); apply Hw.
Qed.

(** C16 *)
Lemma fix_carry_le : forall b k n, -4294967296 <= b < k -> 0 < k <= 60 -> -4294967296 <= n <= 60 ->
  exists n' b', @fix_carry kek md b k n = Ok (n', b') /\ n' * k + b' = n * k + b /\ - k < b' < k /\
    n' <= n /\ n + (if b <? 0 then b else 0) <= n'.
Proof.
  intros b k n Hb Hk Hn.
  rewrite fix_carry_eq by (unfold i64_min, i64_max; lia).
  assert (Hq : Z.quot b k <= 0 /\ (if b <? 0 then b else 0) <= Z.quot b k).
  { destruct (Z.ltb_spec b 0).
    - pose proof (Z.quot_opp_l b k ltac:(lia)). pose proof (Z.quot_pos (- b) k ltac:(lia) ltac:(lia)).
      pose proof (Z.quot_le_upper_bound (- b) k (- b) ltac:(lia) ltac:(nia)). lia.
    - rewrite Z.quot_small by lia. lia. }
  rewrite arith_ok by (destruct (b <? 0); unfold i64_min, i64_max; lia). cbn [bind].
  exists (n + Z.quot b k), (Z.rem b k). split; [reflexivity|].
  pose proof (Z.quot_rem' b k). pose proof (Z.rem_bound_abs b k ltac:(lia)).
  split; [lia|]. split; [lia|]. lia.
Qed.

Lemma add_negative : forall m u n, dt_valid m = true -> clock_unit u = true -> -2147483648 <= n < 0 ->
  let r := calculate md (Addition (Moment m) (mk u n)) in
  oob r \/ exists m', r = Ok (Moment m') /\ dt_valid m' = true /\ nano m' = 0 /\ inst m' = inst m + n * unit_secs u.
Proof.
  intros m u n Hm Hu Hn r. subst r.
  destruct (valid_facts m Hm) as (Vy & Vmo & Vd & Vml & Vh & Vmi & Vs).
  rewrite calc_add_mk by (assumption || apply in_i64_iff; unfold i64_min, i64_max; lia).
  assert (Hfin : forall d h mi s, -2147483648 <= d <= day m -> -2147483648 <= h < 24 ->
     -2147483648 <= mi < 60 -> -2147483648 <= s < 60 ->
     h + (if s <? 0 then s else 0) + (if mi <? 0 then mi else 0) >= -2147483648 ->
     d + (if s <? 0 then s else 0) + (if mi <? 0 then mi else 0) + (if h <? 0 then h else 0) >= -2147483648 ->
     mi + (if s <? 0 then s else 0) >= -2147483648 ->
     let r := do f <- adjust_times_add md (year m) (month m) d h mi s; build_moment f in
     oob r \/ exists m', r = Ok (Moment m') /\ dt_valid m' = true /\ nano m' = 0 /\
       inst m' = day_number (year m) (month m) d * 86400 + h * 3600 + mi * 60 + s).
  { intros d h mi s Hd Hh Hmi Hs B1 B2 B3 r. subst r. unfold adjust_times_add.
    destruct (fix_carry_le s 60 mi ltac:(lia) ltac:(lia) ltac:(lia)) as (mi1 & s1 & -> & E1 & R1 & L1 & G1). cbn [bind].
    destruct (fix_carry_le mi1 60 h ltac:(destruct (s <? 0); lia) ltac:(lia) ltac:(lia)) as (h1 & mi2 & -> & E2 & R2 & L2 & G2). cbn [bind].
    destruct (fix_carry_le h1 24 d ltac:(destruct (s <? 0), (mi1 <? 0) eqn:?, (mi <? 0) eqn:?; lia) ltac:(lia) ltac:(lia)) as (d1 & h2 & -> & E3 & R3 & L3 & G3). cbn [bind].
    assert (Gd : -4294967296 < d1).
    { clear - G1 G2 G3 B1 B2 B3 L1 L2 L3 Hd Hh Hmi Hs.
      destruct (Z.ltb_spec s 0), (Z.ltb_spec mi 0), (Z.ltb_spec h 0), (Z.ltb_spec mi1 0), (Z.ltb_spec h1 0); lia. }
    pose proof (gndm_wrap (year m) (month m) Vmo) as G.
    rewrite wrap32_id in G by (unfold min_year, max_year in *; lia).
    rewrite month_loop_stop by lia. cbn [bind]. rewrite year_loop_small by lia. cbn [bind].
    destruct (build_cases (year m) (month m) d1 h2 mi2 s1) as [(C1 & C2 & C3 & C4 & ->)|[-> _]];
      [right|left; repeat eexists].
    assert (Q1 : as_u32 s1 = s1) by (apply as_u32_id; unfold as_u32 in C4; lia).
    assert (Q2 : as_u32 mi2 = mi2) by (apply as_u32_id; unfold as_u32 in C3; lia).
    assert (Q3 : as_u32 h2 = h2) by (apply as_u32_id; unfold as_u32 in C2; lia).
    assert (Q5 : as_u32 (month m) = month m) by (apply as_u32_id; lia).
    rewrite wrap32_id in * by (unfold min_year, max_year in *; lia).
    assert (Q4 : as_u32 d1 = d1).
    { apply representable_iff in C1. destruct C1 as [_ C1]. apply date_exists_iff in C1.
      rewrite Q5 in C1. pose proof (month_length_bounds (year m) (month m) Vmo).
      apply as_u32_id. unfold as_u32 in C1. lia. }
    rewrite Q1, Q2, Q3, Q4, Q5 in *. eexists. split; [reflexivity|].
    split.
    - apply dt_valid_iff. cbn. apply representable_iff in C1. destruct C1 as [? ?].
      split; [assumption|]. split; [assumption|]. lia.
    - split; [reflexivity|]. unfold inst, instant, day_number. cbn. lia. }
  unfold inst, instant in *.
  assert (Hday : day_number (year m) (month m) (day m + n) = day_number (year m) (month m) (day m) + n)
    by (unfold day_number; lia).
  destruct u; try discriminate Hu; cbn [mk add_to_moment unit_secs] in *;
    unfold addc; cbn [bind]; (rewrite arith_ok by (unfold i64_min, i64_max; lia)); cbn [bind].
  - destruct (Hfin (day m) (hour m) (minute m) (second m + n)) as [?|(m' & ? & ? & ? & ?)];
      [lia|lia|lia|lia|iflia|iflia|iflia|left; assumption|right; exists m'; repeat split; try assumption; lia].
  - destruct (Hfin (day m) (hour m) (minute m + n) (second m)) as [?|(m' & ? & ? & ? & ?)];
      [lia|lia|lia|lia|iflia|iflia|iflia|left; assumption|right; exists m'; repeat split; try assumption; lia].
  - destruct (Hfin (day m) (hour m + n) (minute m) (second m)) as [?|(m' & ? & ? & ? & ?)];
      [lia|lia|lia|lia|iflia|iflia|iflia|left; assumption|right; exists m'; repeat split; try assumption; lia].
  - destruct (Hfin (day m + n) (hour m) (minute m) (second m)) as [?|(m' & ? & ? & ? & ?)];
      [lia|lia|lia|lia|iflia|iflia|iflia|left; assumption|right; exists m'; repeat split; try assumption; lia].
Qed.

(** C17 *)
Lemma built_ok : forall y mo d r v, built y mo d r = Ok v ->
  representable y mo d = true /\ v = Moment (at_time y mo d r).
Proof. intros y mo d r v H. unfold built in H. destruct (representable y mo d); [|discriminate]. injection H as <-. auto. Qed.

Lemma add_forward : forall m u n m', dt_valid m = true -> 0 < n -> n * unit_secs u <= span32 ->
  calculate md (Addition (Moment m) (mk u n)) = Ok (Moment m') -> inst m < inst m'.
Proof.
  intros m u n m' Hm Hn Hs E. destruct (span_field m u n Hm ltac:(lia) Hs) as [Hf Hi].
  destruct (valid_facts m Hm) as (Vy & Vmo & Vd & Vml & Vh & Vmi & Vs).
  pose proof (sod_range m Hm) as Hsod.
  assert (Hyear : forall Y Mo D r, 0 <= r < 86400 -> year m < Y ->
     representable Y Mo D = true -> inst m < inst (at_time Y Mo D r)).
  { intros Y Mo D r Hr HY Hrep. apply inst_year_lt; [assumption|apply at_valid; assumption|exact HY]. }
  destruct (clock_unit u) eqn:Hu.
  - pose proof (add_clock md m u n Hm Hu ltac:(lia) ltac:(lia)) as [A1 A2]. cbv zeta in A1, A2.
    pose proof (add_clock_past m u n Hm Hu ltac:(lia) Hs) as P. cbv zeta in P.
    pose proof (clock_unit_secs u Hu).
    set (N := n * unit_secs u) in *. assert (HN : 0 < N) by (subst N; nia).
    set (T := sod m + N) in *. set (K := days_before (year m) (month m) + day m + T / 86400) in *.
    assert (Hr : 0 <= T mod 86400 < 86400) by (apply Z.mod_pos_bound; lia).
    destruct (Z_le_gt_dec K (year_length (year m))) as [Hle|Hgt].
    + destruct (A1 Hle) as (mo' & d' & Hex & Hsum & E'). rewrite E in E'. injection E' as ->.
      rewrite inst_at, inst_sod by assumption. unfold day_number. subst K. lia.
    + specialize (A2 ltac:(lia)). specialize (P ltac:(lia)). rewrite E in A2. symmetry in A2.
      apply built_ok in A2. destruct A2 as [Hrep Hm']. injection Hm' as ->.
      rewrite wrap32_id in * by (unfold min_year, max_year in *; lia).
      apply Hyear; [assumption|lia|assumption].
  - destruct u; try discriminate Hu; cbn [mk field unit_secs] in *.
    + rewrite add_months in E by (assumption || lia). unfold plus_months in E.
      set (M := month m + n) in *. unfold span32, min_year, max_year in *.
      destruct (Z.leb_spec M 12) as [HM|HM].
      * assert (HM' : 1 <= M <= 12) by lia.
        assert (Hsame : forall Mo D, month m < Mo -> representable (year m) Mo D = true ->
           inst m < inst (at_time (year m) Mo D (sod m))).
        { intros Mo D HMo Hrep. rewrite inst_at, inst_sod by assumption.
          apply representable_iff in Hrep. destruct Hrep as [_ Hrep].
          pose proof (day_number_lt_month (year m) (month m) (day m) Mo D (valid_date m Hm) Hrep HMo). lia. }
        destruct (day m <=? month_length (year m) M); (rewrite wrap32_id in E by lia); apply built_ok in E; destruct E as [Hrep Hm'];
          injection Hm' as ->; apply Hsame; lia || assumption.
      * destruct (day m <=? 30); (rewrite wrap32_id in E by (subst M; lia)); apply built_ok in E;
          destruct E as [Hrep Hm']; injection Hm' as ->; apply Hyear; lia || assumption.
    + unfold span32 in Hs.
      rewrite add_years in E by (try assumption; unfold min_year, max_year, i64_min, i64_max in *; lia).
      unfold min_year, max_year in *. rewrite wrap32_id in E by lia. unfold in_year in E.
      destruct (_ && _ && _); apply built_ok in E; destruct E as [Hrep Hm']; injection Hm' as ->;
        apply Hyear; lia || assumption.
Qed.

(** Moment + amount tree. *)
Lemma add_tree : forall m t, dt_valid m = true -> tt_ok t = true -> amount_only t = true ->
  abs_secs t <= i64_max -> exists n, n * unit_secs (finest t) = secs t /\ in_i64 n = true /\
    calculate md t = Ok (mk (finest t) n) /\
    calculate md (Addition (Moment m) t) = calculate md (Addition (Moment m) (mk (finest t) n)) /\
    calculate md (Subtraction (Moment m) t) = calculate md (Subtraction (Moment m) (mk (finest t) n)).
Proof.
  intros m t Hm Ht Ha Hs.
  destruct (calculate_amount_exact md t) as (n & En & Hn); try assumption.
  exists n.
  assert (Hok : in_i64 n = true).
  { pose proof (calc_tt_ok md t _ Ht En) as K. rewrite ok_mk in K. exact K. }
  split; [assumption|]. split; [assumption|]. split; [assumption|].
  assert (Sa : shape_of t = SAmount) by (apply shape_amount; assumption).
  split.
  - destruct (calc_add_comp md (Moment m) t) as (C & _); [exact Hm|assumption|cbn [shape_of]; rewrite Sa; discriminate|].
    apply (C _ _ eq_refl En).
  - destruct (calc_sub_comp md (Moment m) t) as (C & _); [exact Hm|assumption|cbn [shape_of]; rewrite Sa; discriminate|].
    apply (C _ _ eq_refl En).
Qed.
End Add2.

Lemma add_months_same_day : forall md m n Y Mo, dt_valid m = true -> day m <= 28 -> 0 <= n ->
  Y * 12 + Mo = year m * 12 + month m + n -> 1 <= Mo <= 12 -> Y <= max_year ->
  calculate md (Addition (Moment m) (Months n)) =
  Ok (Moment (mkdt Y Mo (day m) (hour m) (minute m) (second m) 0)).
Proof.
  intros md m n Y Mo Hm Hd Hn E HMo HY. destruct (valid_facts m Hm) as (Vy & Vmo & Vd & _).
  unfold min_year, max_year in *.
  rewrite add_months by (try assumption; unfold i64_max; lia).
  rewrite <- at_sod by assumption. unfold plus_months.
  pose proof (month_length_bounds Y Mo HMo).
  assert (Hrep : representable Y Mo (day m) = true).
  { apply representable_iff. split; [unfold min_year, max_year; lia|]. apply date_exists_iff. lia. }
  destruct (Z.leb_spec (month m + n) 12) as [HM|HM].
  - assert (Y = year m) by lia. assert (Mo = month m + n) by lia. subst Y Mo.
    replace (day m <=? month_length (year m) (month m + n)) with true by lia.
    rewrite wrap32_id by lia. unfold built. rewrite Hrep. reflexivity.
  - replace (day m <=? 30) with true by lia.
    replace (year m + (month m + n - 1) / 12) with Y by lia.
    replace ((month m + n - 1) mod 12 + 1) with Mo by lia.
    rewrite wrap32_id by lia. unfold built. rewrite Hrep. reflexivity.
Qed.

Lemma add_years_in_range : forall md m n, dt_valid m = true -> min_year <= year m + n <= max_year ->
  calculate md (Addition (Moment m) (Years n)) =
  Ok (Moment (if (month m =? 2) && (day m =? 29) && negb (leap (year m + n))
              then mkdt (year m + n) 3 1 (hour m) (minute m) (second m) 0
              else mkdt (year m + n) (month m) (day m) (hour m) (minute m) (second m) 0)).
Proof.
  intros md m n Hm HY. destruct (valid_facts m Hm) as (Vy & Vmo & Vd & Vml & _).
  assert (Hi : in_i64 n = true) by (apply in_i64_iff; unfold min_year, max_year, i64_min, i64_max in *; lia).
  rewrite add_years by (assumption || unfold min_year, max_year, i64_min, i64_max in *; lia).
  rewrite wrap32_id by (unfold min_year, max_year in *; lia). unfold in_year.
  assert (Hrep : forall Mo D, date_exists (year m + n) Mo D = true ->
     built (year m + n) Mo D (sod m) = Ok (Moment (mkdt (year m + n) Mo D (hour m) (minute m) (second m) 0))).
  { intros Mo D Hex. unfold built. replace (representable (year m + n) Mo D) with true.
    - rewrite at_sod by assumption. reflexivity.
    - symmetry. apply representable_iff. auto. }
  destruct ((month m =? 2) && (day m =? 29) && negb (leap (year m + n))) eqn:E; apply Hrep.
  - reflexivity.
  - apply date_exists_iff. split; [assumption|]. split; [lia|].
    destruct (Z.eq_dec (month m) 2) as [E2|E2].
    + rewrite E2 in Vml, E |- *. change (month_length (year m) 2) with (if leap (year m) then 29 else 28) in Vml.
      change (month_length (year m + n) 2) with (if leap (year m + n) then 29 else 28).
      destruct (leap (year m + n)), (leap (year m)); lia.
    + rewrite (month_length_leap (year m + n) (year m)) by auto. assumption.
Qed.

Lemma add_tree_exact : forall md m t, dt_valid m = true -> tt_ok t = true -> amount_only t = true ->
  abs_secs t <= i64_max -> clock_unit (finest t) = true -> 0 <= secs t ->
  inst m + secs t < instant (year m + 1) 1 31 0 0 0 ->
  inst m + secs t < instant (max_year + 1) 1 1 0 0 0 ->
  exists m', calculate md (Addition (Moment m) t) = Ok (Moment m') /\
    dt_valid m' = true /\ nano m' = 0 /\ inst m' = inst m + secs t.
Proof.
  intros md m t Hm Ht Ha Hs Hu H0 H1 H2.
  destruct (add_tree md m t Hm Ht Ha Hs) as (n & En & Hn & _ & -> & _). rewrite <- En in *.
  pose proof (clock_unit_secs _ Hu). apply add_clock_exact; try assumption. nia.
Qed.

Lemma add_out_of_range : forall md m u n, dt_valid m = true -> 0 <= n -> n * unit_secs u <= span32 ->
  match u with
  | UYear => max_year < year m + n
  | UMonth => max_year * 12 + 12 < year m * 12 + month m + n
  | _ => instant (max_year + 1) 1 1 0 0 0 <= inst m + n * unit_secs u
  end -> oob (calculate md (Addition (Moment m) (mk u n))).
Proof.
  intros md m u n Hm Hn Hs H. destruct (valid_facts m Hm) as (Vy & _).
  destruct u; try (apply add_clock_beyond; auto; fail).
  - apply add_months_beyond; assumption.
  - unfold span32, min_year, max_year in *. cbn [unit_secs] in Hs.
    apply add_years_beyond; [assumption|lia|right; unfold max_year; lia].
Qed.

Lemma add_forward_tree : forall md m t m', dt_valid m = true -> tt_ok t = true -> amount_only t = true ->
  abs_secs t <= span32 -> 0 < secs t ->
  calculate md (Addition (Moment m) t) = Ok (Moment m') -> inst m < inst m'.
Proof.
  intros md m t m' Hm Ht Ha Hs H0 E.
  assert (HS : abs_secs t <= i64_max) by (unfold span32, i64_max in *; lia).
  destruct (add_tree md m t Hm Ht Ha HS) as (n & En & Hn & _ & E' & _). rewrite E' in E.
  assert (unit_secs (finest t) > 0) by (destruct (finest t); cbn; lia).
  pose proof (secs_abs t).
  eapply (add_forward md m (finest t) n); [assumption|nia|lia|exact E].
Qed.

Lemma month_index_le : forall a b, dt_valid a = true -> dt_valid b = true -> inst a <= inst b ->
  year a * 12 + month a < year b * 12 + month b \/
  (year a = year b /\ month a = month b /\ day a * 86400 + sod a <= day b * 86400 + sod b).
Proof.
  intros a b Ha Hb H.
  destruct (valid_facts a Ha) as (Ay & Amo & _). destruct (valid_facts b Hb) as (By & Bmo & _).
  destruct (Z.lt_trichotomy (year a * 12 + month a) (year b * 12 + month b)) as [?|[E|G]]; [left; assumption| |exfalso].
  - right. assert (year a = year b) by lia. assert (month a = month b) by lia. split; [assumption|]. split; [assumption|].
    rewrite !inst_sod in H. unfold day_number in H. rewrite H0, H1 in H. lia.
  - rewrite !inst_sod in H. pose proof (sod_range a Ha). pose proof (sod_range b Hb).
    assert (D : day_number (year b) (month b) (day b) < day_number (year a) (month a) (day a)).
    { apply day_number_lt_iff; [apply valid_date; assumption|apply valid_date; assumption|]. lia. }
    lia.
Qed.
Lemma inst_le_lex : forall a b, dt_valid a = true -> dt_valid b = true ->
  year a * 12 + month a < year b * 12 + month b \/
  (year a = year b /\ month a = month b /\ day a * 86400 + sod a <= day b * 86400 + sod b) -> inst a <= inst b.
Proof.
  intros a b Ha Hb H.
  destruct (valid_facts a Ha) as (Ay & Amo & _). destruct (valid_facts b Hb) as (By & Bmo & _).
  rewrite !inst_sod. pose proof (sod_range a Ha). pose proof (sod_range b Hb). destruct H as [H|(E1 & E2 & H)].
  - assert (D : day_number (year a) (month a) (day a) < day_number (year b) (month b) (day b)).
    { apply day_number_lt_iff; [apply valid_date; assumption|apply valid_date; assumption|]. lia. }
    lia.
  - unfold day_number. rewrite E1, E2. lia.
Qed.
Lemma add_order : forall md u n m1 m2 m1' m2', dt_valid m1 = true -> dt_valid m2 = true ->
  0 <= n -> n * unit_secs u <= span32 -> regular u n m1 -> regular u n m2 ->
  calculate md (Addition (Moment m1) (mk u n)) = Ok (Moment m1') ->
  calculate md (Addition (Moment m2) (mk u n)) = Ok (Moment m2') ->
  inst m1 <= inst m2 -> inst m1' <= inst m2'.
Proof.
  intros md u n m1 m2 m1' m2' V1 V2 Hn Hs R1 R2 E1 E2 Hle.
  assert (W1 : dt_valid m1' = true /\ dt_valid m2' = true).
  { assert (G : forall m m', dt_valid m = true -> calculate md (Addition (Moment m) (mk u n)) = Ok (Moment m') -> dt_valid m' = true).
    { intros m m' Hm E. destruct (span_field m u n Hm Hn Hs) as [_ Hi].
      assert (Ht : tt_ok (Addition (Moment m) (mk u n)) = true) by (cbn [tt_ok]; rewrite ok_mk, Hm, Hi; reflexivity).
      pose proof (ShapeProofs.calculate_good md _ Ht) as G. rewrite E in G. apply G. }
    split; [exact (G m1 m1' V1 E1)|exact (G m2 m2' V2 E2)]. }
  destruct W1 as [W1 W2].
  destruct (clock_unit u) eqn:Hu.
  - assert (G : forall m m', dt_valid m = true -> regular u n m ->
      calculate md (Addition (Moment m) (mk u n)) = Ok (Moment m') -> inst m' = inst m + n * unit_secs u).
    { intros m m' Hm R E.
      destruct (Z_lt_le_dec (inst m + n * unit_secs u) (instant (max_year + 1) 1 1 0 0 0)) as [Hr|Hr].
      - destruct (add_clock_exact md m u n Hm Hu Hn ltac:(destruct u; try discriminate Hu; exact R) Hr)
          as (m'' & E'' & _ & _ & Hi). rewrite E in E''. injection E'' as ->. exact Hi.
      - exfalso. pose proof (add_clock_beyond md m u n Hm Hu Hn Hs Hr) as O. exact (oob_err _ O _ E). }
    rewrite (G m1 m1' V1 R1 E1), (G m2 m2' V2 R2 E2). lia.
  - apply inst_le_lex; [assumption|assumption|]. apply month_index_le in Hle; [|assumption|assumption].
    destruct u; try discriminate Hu; cbn [regular mk] in *.
    + assert (G : forall m m', dt_valid m = true -> day m <= 28 ->
        calculate md (Addition (Moment m) (Months n)) = Ok (Moment m') ->
        year m' * 12 + month m' = year m * 12 + month m + n /\ day m' = day m /\ sod m' = sod m /\ 1 <= month m' <= 12).
      { intros m m' Hm Hd E. destruct (valid_facts m Hm) as (Vy & Vmo & _).
        destruct (Z_le_gt_dec (year m * 12 + month m + n) (max_year * 12 + 12)) as [Hr|Hr].
        - pose proof (add_months_same_day md m n ((year m * 12 + month m + n - 1) / 12)
            ((year m * 12 + month m + n - 1) mod 12 + 1) Hm Hd Hn ltac:(lia) ltac:(lia) ltac:(lia)) as E''.
          rewrite E in E''. injection E'' as ->. unfold sod. cbn. lia.
        - exfalso. pose proof (add_months_beyond md m n Hm Hn Hs ltac:(lia)) as O. exact (oob_err _ O _ E). }
      destruct (G m1 m1' V1 R1 E1) as (A1 & A2 & A3 & A4). destruct (G m2 m2' V2 R2 E2) as (B1 & B2 & B3 & B4).
      destruct Hle as [Hle|(H1 & H2 & H3)]; [left; lia|right]. lia.
    + assert (G : forall m m', dt_valid m = true -> ~ (month m = 2 /\ day m = 29) ->
        calculate md (Addition (Moment m) (Years n)) = Ok (Moment m') ->
        year m' = year m + n /\ month m' = month m /\ day m' = day m /\ sod m' = sod m).
      { intros m m' Hm Hd E. destruct (valid_facts m Hm) as (Vy & Vmo & _).
        destruct (Z_le_gt_dec (year m + n) max_year) as [Hr|Hr].
        - rewrite add_years_in_range in E by (assumption || lia).
          replace ((month m =? 2) && (day m =? 29) && negb (leap (year m + n))) with false in E
            by (destruct (Z.eqb_spec (month m) 2), (Z.eqb_spec (day m) 29); try reflexivity; tauto).
          injection E as <-. unfold sod. cbn. lia.
        - exfalso. cbn [unit_secs] in Hs. unfold span32, min_year, max_year in *.
          pose proof (add_years_beyond md m n Hm ltac:(lia) ltac:(right; unfold max_year; lia)) as O.
          exact (oob_err _ O _ E). }
      destruct (G m1 m1' V1 R1 E1) as (A1 & A2 & A3 & A4). destruct (G m2 m2' V2 R2 E2) as (B1 & B2 & B3 & B4).
      destruct Hle as [Hle|(H1 & H2 & H3)]; [left; lia|right]. lia.
Qed.
