(** Adding and then subtracting the same amount. *)
Require Import ZArith Bool List Lia ZifyBool.
From Verif Require Import Prelude Spec Chrono Util TimeType SpecTree SpecMoment PreludeProofs CalendarProofs EvalProofs AmountProofs ShapeProofs CompProofs LoopProofs AddProofs AddProofs2 SubProofs.
Local Open Scope Z_scope.
Ltac Zify.zify_post_hook ::= Z.div_mod_to_equations.

Section Round.
Variable md : mode.

Lemma shape_mk : forall u n, shape_of (mk u n) = SAmount.
Proof. intros [] n; reflexivity. Qed.
Lemma not_diff_mk : forall m u n, is_diff (Addition (Moment m) (mk u n)) = false.
Proof. reflexivity. Qed.

Lemma round_comp : forall m u n m1, dt_valid m = true -> in_i64 n = true ->
  calculate md (Addition (Moment m) (mk u n)) = Ok (Moment m1) ->
  calculate md (Subtraction (Addition (Moment m) (mk u n)) (mk u n)) = calculate md (Subtraction (Moment m1) (mk u n)).
Proof.
  intros m u n m1 Hm Hn E.
  destruct (calc_sub_comp md (Addition (Moment m) (mk u n)) (mk u n)) as (C & _).
  - cbn [tt_ok]. rewrite ok_mk, Hm, Hn. reflexivity.
  - rewrite ok_mk. exact Hn.
  - cbn [shape_of]. rewrite shape_mk. cbn. discriminate.
  - apply (C _ _ E). apply calc_value. destruct u; reflexivity.
Qed.
Lemma ok_valid : forall m u n m1, dt_valid m = true -> in_i64 n = true ->
  calculate md (Addition (Moment m) (mk u n)) = Ok (Moment m1) -> dt_valid m1 = true /\ nano m1 = 0.
Proof.
  intros m u n m1 Hm Hn E.
  assert (Ht : tt_ok (Addition (Moment m) (mk u n)) = true) by (cbn [tt_ok]; rewrite ok_mk, Hm, Hn; reflexivity).
  pose proof (calculate_good md _ Ht) as G. rewrite E in G. split; [apply G|].
  exact (calculate_whole md _ _ E eq_refl).
Qed.

Lemma whole_at : forall m, dt_valid m = true -> at_time (year m) (month m) (day m) (sod m) = whole_second m.
Proof. intros m Hm. rewrite at_sod by assumption. reflexivity. Qed.

Lemma back_day_eq : forall m m1 D, dt_valid m = true -> dt_valid m1 = true ->
  day_number (year m1) (month m1) D = day_number (year m) (month m) (day m) ->
  D <= day m1 ->
  (year m1 = year m /\ month m1 = month m) \/
  (month_length (year m) (month m) = 31 /\ year m1 * 12 + month m1 = year m * 12 + month m + 1) ->
  back_day (year m1) (month m1) D = (year m, month m, day m).
Proof.
  intros m m1 D Hm Hm1 HD Hle H.
  destruct (valid_facts m Hm) as (Vy & Vmo & Vd & Vml & _). destruct (valid_facts m1 Hm1) as (Wy & Wmo & Wd & _).
  unfold back_day. destruct H as [[E1 E2]|[HL HI]].
  - rewrite E1, E2 in *. unfold day_number in HD. assert (D = day m) by lia. subst D.
    replace (1 <=? day m) with true by lia. reflexivity.
  - assert (Hprev : prev_month (year m1) (month m1) = (year m, month m)).
    { unfold prev_month. destruct (Z.eqb_spec (month m1) 1); f_equal; lia. }
    rewrite Hprev.
    assert (Hnum : day_number (year m1) (month m1) D = day_number (year m) (month m) (31 + D)).
    { destruct (Z.eq_dec (month m1) 1) as [E|E].
      - assert (year m1 = year m + 1) by lia. assert (month m = 12) by lia. rewrite E, H, H0 in *.
        pose proof (day_number_next_year (year m)). unfold day_number in *. lia.
      - assert (year m1 = year m) by lia. assert (month m1 = month m + 1) by lia. rewrite H, H0 in *.
        pose proof (day_number_next_month (year m) (month m) Vmo). rewrite HL in *. unfold day_number in *. lia. }
    assert (31 + D = day m) by (unfold day_number in *; lia).
    replace (1 <=? D) with false by lia. congruence.
Qed.

Lemma near_month : forall m m1 k, dt_valid m = true -> dt_valid m1 = true ->
  inst m <= inst m1 -> day_number (year m1) (month m1) (day m1) <= day_number (year m) (month m) (day m) + k -> 0 <= k <= 28 ->
  (year m1 = year m /\ month m1 = month m) \/
  (year m1 * 12 + month m1 = year m * 12 + month m + 1).
Proof.
  intros m m1 k Hm Hm1 H1 H2 Hk. apply month_index_le in H1; [|assumption|assumption].
  destruct (valid_facts m Hm) as (Vy & Vmo & Vd & Vml & _). destruct (valid_facts m1 Hm1) as (Wy & Wmo & Wd & _).
  destruct H1 as [H1|(E1 & E2 & _)]; [right|left; lia].
  destruct (Z.eq_dec (year m1 * 12 + month m1) (year m * 12 + month m + 1)) as [E|E]; [assumption|exfalso].
  set (i := year m * 12 + month m). set (y2 := i / 12). set (mo2 := i mod 12 + 1).
  assert (Hmo2 : 1 <= mo2 <= 12) by (subst mo2; lia).
  assert (Hidx : y2 * 12 + mo2 = i + 1) by (subst mo2 y2; lia).
  pose proof (month_length_bounds y2 mo2 Hmo2) as Hl2.
  assert (Hex : date_exists y2 mo2 28 = true) by (apply date_exists_iff; lia).
  assert (Hlt : day_number y2 mo2 28 < day_number (year m1) (month m1) (day m1)).
  { apply day_number_lt_iff; [assumption|apply valid_date; assumption|]. subst i. lia. }
  assert (Hnum : day_number y2 mo2 28 = day_number (year m) (month m) (month_length (year m) (month m)) + 28).
  { destruct (Z.eq_dec (month m) 12) as [Em|Em].
    - assert (mo2 = 1) by (subst i; lia). assert (y2 = year m + 1) by (subst i; lia).
      rewrite H, H0, Em. change (month_length (year m) 12) with 31.
      pose proof (day_number_next_year (year m)). unfold day_number in *. lia.
    - assert (mo2 = month m + 1) by (subst i; lia). assert (y2 = year m) by (subst i; lia).
      rewrite H, H0. pose proof (day_number_next_month (year m) (month m) Vmo). unfold day_number in *. lia. }
  unfold day_number in *. lia.
Qed.

Lemma round_clock : forall m u n, dt_valid m = true -> clock_unit u = true -> 0 <= n ->
  n <= (match u with UDay => 28 | _ => modulus u - 1 end) ->
  inst m + n * unit_secs u < instant (max_year + 1) 1 1 0 0 0 ->
  month_length (year m) (month m) = 31 \/
  inst m + n * unit_secs u < (day_number (year m) (month m) (month_length (year m) (month m)) + 1) * 86400 ->
  calculate md (Subtraction (Addition (Moment m) (mk u n)) (mk u n)) = Ok (Moment (whole_second m)).
Proof.
  intros m u n Hm Hu Hn Hn2 Hr Hsm.
  destruct (valid_facts m Hm) as (Vy & Vmo & Vd & Vml & Vh & Vmi & Vs).
  pose proof (sod_range m Hm) as Hsod. pose proof (clock_unit_secs u Hu) as Hus.
  assert (HN : 0 <= n * unit_secs u <= 28 * 86400) by (destruct u; try discriminate Hu; cbn in *; lia).
  assert (Hi : in_i64 n = true).
  { apply in_i64_iff. unfold i64_min, i64_max. destruct u; try discriminate Hu; cbn in *; lia. }
  assert (HJ : inst m + n * unit_secs u < instant (year m + 1) 1 31 0 0 0).
  { rewrite inst_sod. unfold instant. rewrite day_number_jan, leap_year_step.
    pose proof (doy_bounds _ _ _ (valid_date m Hm)). unfold day_number. lia. }
  destruct (add_clock_exact md m u n Hm Hu Hn HJ Hr) as (m1 & E1 & V1 & N1 & I1).
  rewrite (round_comp m u n m1 Hm Hi E1).
  destruct (valid_facts m1 V1) as (Wy & Wmo & Wd & Wml & Wh & Wmi & Ws).
  pose proof (sod_range m1 V1) as Wsod.
  set (N := n * unit_secs u) in *.
  rewrite !inst_sod in I1.
  (* same or next month *)
  assert (Hnm : (year m1 = year m /\ month m1 = month m) \/
    (month_length (year m) (month m) = 31 /\ year m1 * 12 + month m1 = year m * 12 + month m + 1)).
  { destruct (near_month m m1 (day_number (year m1) (month m1) (day m1) - day_number (year m) (month m) (day m))) as [H|H];
      try assumption; try (rewrite !inst_sod); try lia.
    destruct Hsm as [HL|HL]; [right; split; assumption|exfalso].
    rewrite inst_sod in HL.
    assert (Hlt : day_number (year m) (month m) (month_length (year m) (month m)) < day_number (year m1) (month m1) (day m1)).
    { apply day_number_lt_iff; [apply date_exists_iff; pose proof (month_length_bounds (year m) (month m) Vmo); lia|apply valid_date; assumption|]. lia. }
    lia. }
  set (T := sod m1 - N).
  assert (HT : T mod 86400 = sod m /\ day_number (year m1) (month m1) (day m1 + T / 86400) = day_number (year m) (month m) (day m)).
  { unfold day_number in *. subst T. clear - I1 Hsod Wsod. lia. }
  destruct HT as [HT1 HT2].
  assert (Hback : back_day (year m1) (month m1) (day m1 + T / 86400) = (year m, month m, day m)).
  { apply back_day_eq; try assumption. subst T. clear - HN Wsod. lia. }
  assert (Hbuilt : built3 (year m, month m, day m) (sod m) = Ok (Moment (whole_second m))).
  { unfold built3, built. rewrite valid_rep by assumption. rewrite whole_at by assumption. reflexivity. }
  assert (Hnr : 0 <= n < 2147483648) by (destruct u; try discriminate Hu; cbn in *; lia).
  assert (Hu' : u = UDay \/ u <> UDay) by (destruct u; auto; right; discriminate).
  destruct Hu' as [-> |Hud].
  - cbn [mk unit_secs] in *. destruct (sub_days md m1 n V1 Hnr) as [A1 _]. cbv zeta in A1. rewrite A1 by lia.
    assert (Q : sod m1 = sod m /\ T / 86400 = - n) by (subst T N; clear - Wsod HT1; lia).
    destruct Q as [Q1 Q2]. rewrite Q2 in Hback. replace (day m1 - n) with (day m1 + - n) by lia.
    rewrite Hback, Q1. exact Hbuilt.
  - destruct (sub_clock md m1 u n V1 Hu Hud Hnr) as (A1 & _). cbv zeta in A1. fold N T in A1.
    rewrite A1; [rewrite Hback, HT1; exact Hbuilt|].
    destruct u; try discriminate Hu; try contradiction; cbn [field modulus] in *; lia.
Qed.

Lemma round_months : forall m n, dt_valid m = true -> day m <= 28 -> 0 <= n -> month m + n <= 24 ->
  year m * 12 + month m + n <= max_year * 12 + 12 ->
  calculate md (Subtraction (Addition (Moment m) (Months n)) (Months n)) = Ok (Moment (whole_second m)).
Proof.
  intros m n Hm Hd Hn Hn2 Hr. destruct (valid_facts m Hm) as (Vy & Vmo & Vd & Vml & Vh & Vmi & Vs).
  assert (Hi : in_i64 n = true) by (apply in_i64_iff; unfold i64_min, i64_max; lia).
  set (Y := (year m * 12 + month m + n - 1) / 12). set (Mo := (year m * 12 + month m + n - 1) mod 12 + 1).
  assert (E1 : calculate md (Addition (Moment m) (mk UMonth n)) =
     Ok (Moment (mkdt Y Mo (day m) (hour m) (minute m) (second m) 0))).
  { apply add_months_same_day; try assumption; subst Y Mo; lia. }
  change (Months n) with (mk UMonth n). rewrite (round_comp m UMonth n _ Hm Hi E1).
  destruct (ok_valid m UMonth n _ Hm Hi E1) as [V1 _].
  destruct (sub_months md _ n V1 ltac:(lia)) as (A1 & A2 & _). cbn [mk year month day] in *.
  replace (sod (mkdt Y Mo (day m) (hour m) (minute m) (second m) 0)) with (sod m) in * by reflexivity.
  assert (Hbuilt : built (year m) (month m) (day m) (sod m) = Ok (Moment (whole_second m))).
  { unfold built. rewrite valid_rep by assumption. rewrite whole_at by assumption. reflexivity. }
  destruct (Z_le_gt_dec (month m + n) 12) as [H|H].
  - assert (Q1 : Y = year m) by (subst Y; lia). assert (Q2 : Mo - n = month m) by (subst Mo; lia).
    rewrite A1 by lia. rewrite Q1, Q2. exact Hbuilt.
  - assert (Q1 : Y - 1 = year m) by (subst Y; lia). assert (Q2 : Mo - n + 12 = month m) by (subst Mo; lia).
    rewrite A2 by lia. rewrite Q1, Q2. exact Hbuilt.
Qed.

Lemma round_years : forall m n, dt_valid m = true -> min_year <= year m + n <= max_year ->
  ~ (month m = 2 /\ day m = 29 /\ leap (year m + n) = false) ->
  calculate md (Subtraction (Addition (Moment m) (Years n)) (Years n)) = Ok (Moment (whole_second m)).
Proof.
  intros m n Hm Hy Hf. destruct (valid_facts m Hm) as (Vy & Vmo & Vd & Vml & Vh & Vmi & Vs).
  assert (Hi : in_i64 n = true) by (apply in_i64_iff; unfold min_year, max_year, i64_min, i64_max in *; lia).
  assert (E1 : calculate md (Addition (Moment m) (mk UYear n)) =
     Ok (Moment (mkdt (year m + n) (month m) (day m) (hour m) (minute m) (second m) 0))).
  { cbn [mk]. rewrite add_years_in_range by assumption.
    replace ((month m =? 2) && (day m =? 29) && negb (leap (year m + n))) with false; [reflexivity|].
    symmetry. destruct (Z.eqb_spec (month m) 2), (Z.eqb_spec (day m) 29), (leap (year m + n)); try reflexivity. tauto. }
  change (Years n) with (mk UYear n). rewrite (round_comp m UYear n _ Hm Hi E1).
  destruct (ok_valid m UYear n _ Hm Hi E1) as [V1 _]. cbn [mk].
  rewrite sub_years; [|assumption|assumption|cbn [year]; unfold min_year, max_year, i64_min, i64_max in *; lia].
  cbn [year month day]. replace (year m + n - n) with (year m) by lia.
  rewrite wrap32_id by (unfold min_year, max_year in *; lia).
  change (built (year m) (month m) (day m) (sod m) = Ok (Moment (whole_second m))).
  unfold built. rewrite valid_rep by assumption. rewrite whole_at by assumption. reflexivity.
Qed.
End Round.

Lemma sub_days_deviation : forall md m n m', dt_valid m = true -> 0 <= n < 2147483648 ->
  calculate md (Subtraction (Moment m) (Days n)) = Ok (Moment m') ->
  inst m' = inst m - n * 86400 +
    (if 1 <=? day m - n then 0
     else 31 - (let '(py, pm) := prev_month (year m) (month m) in month_length py pm)) * 86400.
Proof.
  intros md m n m' Hm Hn E.
  rewrite (sub_error md m UDay n m' Hm eq_refl Hn) by (try contradiction; exact E). cbn [unit_secs].
  pose proof (sod_range m Hm).
  replace (day m + (sod m - n * 86400) / 86400) with (day m - n) by lia. reflexivity.
Qed.
