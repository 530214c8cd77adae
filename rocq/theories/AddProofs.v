(** Moment + amount: closed forms. *)
Require Import ZArith Bool List Lia ZifyBool.
From Verif Require Import Prelude Spec Chrono Util TimeType SpecTree SpecMoment PreludeProofs CalendarProofs EvalProofs AmountProofs ShapeProofs LoopProofs.
Local Open Scope Z_scope.
Ltac Zify.zify_post_hook ::= Z.div_mod_to_equations.

Lemma wrap32_as : forall z, as_i32 z = wrap32 z.
Proof. intro z. unfold as_i32, wrap32. lia. Qed.
Lemma wrap32_id : forall z, -2147483648 <= z < 2147483648 -> wrap32 z = z.
Proof. intros z H. unfold wrap32. lia. Qed.
Lemma wrap32_range : forall z, -2147483648 <= wrap32 z < 2147483648.
Proof. intro z. unfold wrap32. lia. Qed.

Lemma representable_iff : forall y mo d, representable y mo d = true <->
  min_year <= y <= max_year /\ date_exists y mo d = true.
Proof. intros y mo d. unfold representable. rewrite !andb_true_iff, !Z.leb_le. tauto. Qed.

Lemma build_gen : forall y mo d h mi s,
  0 <= mo < 4294967296 -> 0 <= d < 4294967296 -> 0 <= h < 24 -> 0 <= mi < 60 -> 0 <= s < 60 ->
  build_moment (y, mo, d, h, mi, s) =
  if representable (wrap32 y) mo d then Ok (Moment (mkdt (wrap32 y) mo d h mi s 0))
  else Err (OutOfBounds (wrap32 y) mo h h mi s).
Proof.
  intros y mo d h mi s Hmo Hd Hh Hmi Hs. unfold build_moment.
  rewrite !as_u32_id by lia. change (as_i32 y) with (wrap32 y).
  unfold from_ymd_opt, representable.
  destruct ((min_year <=? wrap32 y) && (wrap32 y <=? max_year) && date_exists (wrap32 y) mo d); [|reflexivity].
  unfold and_hms_opt.
  replace ((0 <=? h) && (h <? 24) && (0 <=? mi) && (mi <? 60) && (0 <=? s) && (s <? 60)) with true by lia.
  reflexivity.
Qed.

(** Any Ok or Err of the final step. *)
Lemma build_cases : forall y mo d h mi s, let r := build_moment (y, mo, d, h, mi, s) in
  (representable (wrap32 y) (as_u32 mo) (as_u32 d) = true /\
   0 <= as_u32 h < 24 /\ 0 <= as_u32 mi < 60 /\ 0 <= as_u32 s < 60 /\
   r = Ok (Moment (mkdt (wrap32 y) (as_u32 mo) (as_u32 d) (as_u32 h) (as_u32 mi) (as_u32 s) 0))) \/
  (r = Err (OutOfBounds (wrap32 y) (as_u32 mo) (as_u32 h) (as_u32 h) (as_u32 mi) (as_u32 s)) /\
   (representable (wrap32 y) (as_u32 mo) (as_u32 d) = false \/
    24 <= as_u32 h \/ 60 <= as_u32 mi \/ 60 <= as_u32 s)).
Proof.
  intros y mo d h mi s r. subst r. unfold build_moment. change (as_i32 y) with (wrap32 y).
  unfold from_ymd_opt, representable.
  destruct ((min_year <=? wrap32 y) && (wrap32 y <=? max_year) && date_exists (wrap32 y) (as_u32 mo) (as_u32 d));
    [|right; split; [reflexivity|left; reflexivity]].
  unfold and_hms_opt.
  pose proof (as_u32_range h). pose proof (as_u32_range mi). pose proof (as_u32_range s).
  destruct ((0 <=? as_u32 h) && (as_u32 h <? 24) && (0 <=? as_u32 mi) && (as_u32 mi <? 60) && (0 <=? as_u32 s) && (as_u32 s <? 60)) eqn:E.
  - left. repeat split; lia || reflexivity.
  - right. split; [reflexivity|]. right. lia.
Qed.

Lemma built_gen : forall y mo d r,
  0 <= mo < 4294967296 -> 0 <= d < 4294967296 -> 0 <= r < 86400 ->
  build_moment (y, mo, d, r / 3600, r mod 3600 / 60, r mod 60) = built (wrap32 y) mo d r.
Proof. intros y mo d r Hmo Hd Hr. rewrite build_gen by lia. reflexivity. Qed.

Lemma oob_built : forall y mo d r, representable y mo d = false -> oob (built y mo d r).
Proof. intros y mo d r H. unfold built. rewrite H. repeat eexists. Qed.
Lemma oob_err : forall r, oob r -> forall v, r <> Ok v.
Proof. intros r (y & mo & d & h & mi & s & ->) v. discriminate. Qed.

Lemma calc_add_mk : forall md m u n, dt_valid m = true -> in_i64 n = true ->
  calculate md (Addition (Moment m) (mk u n)) = add_to_moment md (ev md) m (mk u n).
Proof.
  intros md m u n Hm Hn.
  change (calculate md (Addition (Moment m) (mk u n))) with (ev md (CAdd (Moment m) (mk u n))).
  assert (Hk : tt_ok (mk u n) = true) by (rewrite ok_mk; exact Hn).
  rewrite ev_eq by (split; assumption).
  change (ev md (CAddToMoment m (mk u n)) = add_to_moment md (ev md) m (mk u n)).
  rewrite ev_eq by (split; assumption). reflexivity.
Qed.
Lemma calc_sub_mk : forall md m u n, dt_valid m = true -> in_i64 n = true ->
  calculate md (Subtraction (Moment m) (mk u n)) = sub_from_moment md (ev md) m (mk u n).
Proof.
  intros md m u n Hm Hn.
  change (calculate md (Subtraction (Moment m) (mk u n))) with (ev md (CSub (Moment m) (mk u n))).
  assert (Hk : tt_ok (mk u n) = true) by (rewrite ok_mk; exact Hn).
  rewrite ev_eq by (split; assumption).
  change (ev md (CSubFromMoment m (mk u n)) = sub_from_moment md (ev md) m (mk u n)).
  rewrite ev_eq by (split; assumption). reflexivity.
Qed.


(** Clock carries. *)
Lemma clock_split : forall h mi s, 0 <= h -> 0 <= mi -> 0 <= s ->
  let T := h * 3600 + mi * 60 + s in
  let a := mi + s / 60 in let b := h + a / 60 in
  T / 86400 = b / 24 /\ T mod 86400 / 3600 = b mod 24 /\
  T mod 86400 mod 3600 / 60 = a mod 60 /\ (T mod 86400) mod 60 = s mod 60.
Proof.
  intros h mi s Hh Hmi Hs T a b.
  pose proof (Z.div_mod s 60 ltac:(lia)). pose proof (Z.mod_pos_bound s 60 ltac:(lia)).
  pose proof (Z.div_mod a 60 ltac:(lia)). pose proof (Z.mod_pos_bound a 60 ltac:(lia)).
  pose proof (Z.div_mod b 24 ltac:(lia)). pose proof (Z.mod_pos_bound b 24 ltac:(lia)).
  assert (HT : T = 86400 * (b / 24) + (b mod 24 * 3600 + a mod 60 * 60 + s mod 60)) by (subst T a b; lia).
  set (r1 := s mod 60) in *. set (r2 := a mod 60) in *. set (r3 := b mod 24) in *. set (q := b / 24) in *.
  assert (E1 : T / 86400 = q) by (symmetry; eapply Z.div_unique_pos with (r := r3 * 3600 + r2 * 60 + r1); lia).
  assert (E2 : T mod 86400 = r3 * 3600 + r2 * 60 + r1) by (symmetry; eapply Z.mod_unique_pos with (q := q); lia).
  clearbody r1 r2 r3 q T. clear - E1 E2 H0 H2 H4.
  rewrite E2. repeat split; [assumption|lia|lia|lia].
Qed.

Lemma valid_facts : forall m, dt_valid m = true ->
  min_year <= year m <= max_year /\ 1 <= month m <= 12 /\ 1 <= day m <= 31 /\
  day m <= month_length (year m) (month m) /\
  0 <= hour m < 24 /\ 0 <= minute m < 60 /\ 0 <= second m < 60.
Proof.
  intros m H. apply dt_valid_iff in H. destruct H as (H1 & H2 & H3 & H4 & H5 & H6).
  apply date_exists_iff in H2. pose proof (month_length_bounds (year m) (month m)). lia.
Qed.

Section Add.
Variable md : mode.

(** Everything that only shifts clock fields forward. *)
Lemma adjust_add_clock : forall y mo d h mi s,
  min_year <= y <= max_year -> 1 <= mo <= 12 -> 1 <= d -> 0 <= h -> 0 <= mi -> 0 <= s ->
  s <= i64_max -> mi + s / 60 <= i64_max -> h + (mi + s / 60) / 60 <= i64_max ->
  d + (h * 3600 + mi * 60 + s) / 86400 <= i64_max ->
  let T := h * 3600 + mi * 60 + s in
  let K := days_before y mo + d + T / 86400 in
  let r := T mod 86400 in
  (K <= year_length y -> exists mo' d', date_exists y mo' d' = true /\ days_before y mo' + d' = K /\
     @adjust_times_add kek md y mo d h mi s = Ok (y, mo', d', r / 3600, r mod 3600 / 60, r mod 60)) /\
  (year_length y < K -> let e := K - year_length y - 1 in
     @adjust_times_add kek md y mo d h mi s =
     Ok (y + 1 + e / 360, e mod 360 / 30 + 1, e mod 30 + 1, r / 3600, r mod 3600 / 60, r mod 60)).
Proof.
  intros y mo d h mi s Hy Hmo Hd Hh Hmi Hs B1 B2 B3 B4 T K r.
  destruct (clock_split h mi s Hh Hmi Hs) as (E1 & E2 & E3 & E4).
  fold T in E1, E2, E3, E4, B4. fold r in E2, E3, E4.
  assert (N1 : 0 <= s / 60) by (apply Z.div_pos; lia).
  assert (N2 : 0 <= (mi + s / 60) / 60) by (apply Z.div_pos; lia).
  assert (N3 : 0 <= (h + (mi + s / 60) / 60) / 24) by (apply Z.div_pos; lia).
  assert (Hadj : @adjust_times_add kek md y mo d h mi s =
    do (d', mo') <- month_loop md y (d + T / 86400) mo;
    do (y', mo'') <- year_loop md y mo';
    Ok (y', mo'', d', r / 3600, r mod 3600 / 60, r mod 60)).
  { unfold adjust_times_add.
    rewrite fix_carry_nn by (unfold i64_min, i64_max in *; lia). cbn [bind].
    rewrite fix_carry_nn by (unfold i64_min, i64_max in *; lia). cbn [bind].
    rewrite fix_carry_nn by (unfold i64_min, i64_max in *; lia). cbn [bind].
    rewrite E1, E2, E3, E4. reflexivity. }
  assert (Y32 : -2147483648 <= y < 2147483648) by (unfold min_year, max_year in *; lia).
  assert (HD : 1 <= d + T / 86400 <= i64_max) by (rewrite E1 in *; lia).
  destruct (@month_loop_in kek md y (d + T / 86400) mo Y32 Hmo HD) as [M1 M2].
  replace (days_before y mo + (d + T / 86400)) with K in M1, M2 by (subst K; lia).
  split; intro HK.
  - destruct (M1 HK) as (mo' & d' & Hml & Hex & Hsum). exists mo', d'. split; [assumption|]. split; [assumption|].
    rewrite Hadj, Hml. cbn [bind]. apply date_exists_iff in Hex. rewrite year_loop_small by lia. reflexivity.
  - intro e. specialize (M2 HK). fold e in M2. cbn zeta in M2.
    rewrite Hadj, M2. cbn [bind].
    assert (He : 0 <= e) by (subst e; lia).
    assert (HeB : e <= i64_max + 366).
    { subst e K. pose proof (days_before_mono y mo 13). rewrite days_before_13 in H.
      pose proof (year_length_bounds y). lia. }
    clear - He HeB Hy.
    rewrite year_loop_eq by (unfold min_year, max_year, i64_max, i64_min in *; lia). cbn [bind].
    replace (y + (13 + e / 30 - 1) / 12) with (y + 1 + e / 360) by lia.
    replace ((13 + e / 30 - 1) mod 12 + 1) with (e mod 360 / 30 + 1) by lia.
    reflexivity.
Qed.

(** The complete behaviour of moment + n seconds/minutes/hours/days, n >= 0. *)
Lemma add_clock : forall m u n, dt_valid m = true -> clock_unit u = true -> 0 <= n ->
  field u m + n <= i64_max ->
  let T := sod m + n * unit_secs u in
  let K := days_before (year m) (month m) + day m + T / 86400 in
  let r := T mod 86400 in
  (K <= year_length (year m) -> exists mo' d', date_exists (year m) mo' d' = true /\
     days_before (year m) mo' + d' = K /\
     calculate md (Addition (Moment m) (mk u n)) = Ok (Moment (at_time (year m) mo' d' r))) /\
  (year_length (year m) < K -> let e := K - year_length (year m) - 1 in
     calculate md (Addition (Moment m) (mk u n)) =
     built (wrap32 (year m + 1 + e / 360)) (e mod 360 / 30 + 1) (e mod 30 + 1) r).
Proof.
  intros m u n Hm Hu Hn Hb T K r.
  destruct (valid_facts m Hm) as (Vy & Vmo & Vd & Vml & Vh & Vmi & Vs).
  assert (Hi : in_i64 n = true).
  { apply in_i64_iff. destruct u; cbn in Hb; try discriminate Hu; unfold i64_min, i64_max in *; lia. }
  assert (Hr : 0 <= r < 86400) by (apply Z.mod_pos_bound; lia).
  rewrite calc_add_mk by assumption.
  assert (Hfin : forall d h mi s, 1 <= d -> 0 <= h -> 0 <= mi -> 0 <= s ->
      s <= i64_max -> mi + s / 60 <= i64_max -> h + (mi + s / 60) / 60 <= i64_max ->
      d + (h * 3600 + mi * 60 + s) / 86400 <= i64_max ->
      d * 86400 + h * 3600 + mi * 60 + s = day m * 86400 + T ->
      (K <= year_length (year m) -> exists mo' d', date_exists (year m) mo' d' = true /\
         days_before (year m) mo' + d' = K /\
         (do f <- adjust_times_add md (year m) (month m) d h mi s; build_moment f)
         = Ok (Moment (at_time (year m) mo' d' r))) /\
      (year_length (year m) < K -> let e := K - year_length (year m) - 1 in
         (do f <- adjust_times_add md (year m) (month m) d h mi s; build_moment f) =
         built (wrap32 (year m + 1 + e / 360)) (e mod 360 / 30 + 1) (e mod 30 + 1) r)).
  { intros d h mi s Hd Hh Hmi Hs B1 B2 B3 B4 HT.
    pose proof (adjust_add_clock (year m) (month m) d h mi s Vy Vmo Hd Hh Hmi Hs B1 B2 B3 B4) as [A1 A2].
    cbv zeta in A1, A2.
    assert (Q1 : d + (h * 3600 + mi * 60 + s) / 86400 = day m + T / 86400).
    { clear - HT. assert (X : h * 3600 + mi * 60 + s = T + (day m - d) * 86400) by lia.
      rewrite X, Z.div_add by lia. lia. }
    assert (Q2 : (h * 3600 + mi * 60 + s) mod 86400 = r).
    { clear - HT. subst r. assert (X : h * 3600 + mi * 60 + s = T + (day m - d) * 86400) by lia.
      rewrite X, Z.mod_add by lia. reflexivity. }
    rewrite Q2 in A1, A2.
    replace (days_before (year m) (month m) + d + (h * 3600 + mi * 60 + s) / 86400) with K in A1, A2 by (subst K; lia).
    split; intro HK.
    - destruct (A1 HK) as (mo' & d' & Hex & Hsum & ->). exists mo', d'. split; [assumption|]. split; [assumption|].
      cbn [bind]. apply date_exists_iff in Hex as Hx. pose proof (month_length_bounds (year m) mo').
      rewrite built_gen by lia. rewrite wrap32_id by (unfold min_year, max_year in *; lia).
      unfold built. replace (representable (year m) mo' d') with true; [reflexivity|].
      symmetry. apply representable_iff. auto.
    - intro e. rewrite (A2 HK). cbn [bind]. fold e.
      assert (He : 0 <= e) by (subst e; lia). clear - He Hr.
      rewrite built_gen by lia. reflexivity. }
  assert (HT : T = hour m * 3600 + minute m * 60 + second m + n * unit_secs u) by reflexivity.
  clearbody T K r.
  destruct u; try discriminate Hu; cbn [mk add_to_moment unit_secs field] in *;
    unfold addc; cbn [bind]; (rewrite arith_ok by (unfold i64_min, i64_max in *; lia)); cbn [bind];
    apply Hfin; clear Hfin; try lia; unfold i64_min, i64_max in *; lia.
Qed.

Lemma inst_sod : forall m, inst m = day_number (year m) (month m) (day m) * 86400 + sod m.
Proof. intro m. unfold inst, instant, sod. lia. Qed.
Lemma inst_at : forall y mo d r, 0 <= r < 86400 -> inst (at_time y mo d r) = day_number y mo d * 86400 + r.
Proof. intros y mo d r Hr. unfold inst, at_time, instant. cbn. lia. Qed.
Lemma at_valid : forall y mo d r, 0 <= r < 86400 -> representable y mo d = true -> dt_valid (at_time y mo d r) = true.
Proof.
  intros y mo d r Hr H. apply representable_iff in H. apply dt_valid_iff. unfold at_time. cbn.
  destruct H as [H1 H2]. split; [exact H1|]. split; [exact H2|]. lia.
Qed.
Lemma sod_range : forall m, dt_valid m = true -> 0 <= sod m < 86400.
Proof. intros m H. apply valid_facts in H. unfold sod. lia. Qed.
Lemma valid_rep : forall m, dt_valid m = true -> representable (year m) (month m) (day m) = true.
Proof. intros m H. apply dt_valid_iff in H. apply representable_iff. tauto. Qed.
Lemma at_sod : forall y mo d m, dt_valid m = true ->
  at_time y mo d (sod m) = mkdt y mo d (hour m) (minute m) (second m) 0.
Proof.
  intros y mo d m H. destruct (valid_facts m H) as (_ & _ & _ & _ & V1 & V2 & V3). unfold at_time, sod.
  f_equal; lia.
Qed.
Lemma valid_date : forall m, dt_valid m = true -> date_exists (year m) (month m) (day m) = true.
Proof. intros m H. apply dt_valid_iff in H. tauto. Qed.

Lemma inst_inj : forall a b, dt_valid a = true -> dt_valid b = true -> inst a = inst b ->
  whole_second a = whole_second b.
Proof.
  intros a b Ha Hb E. rewrite !inst_sod in E.
  pose proof (sod_range a Ha). pose proof (sod_range b Hb).
  assert (D : day_number (year a) (month a) (day a) = day_number (year b) (month b) (day b)) by lia.
  apply day_number_inj in D; [|apply valid_date; assumption|apply valid_date; assumption].
  destruct D as (D1 & D2 & D3).
  assert (S : sod a = sod b) by lia.
  apply valid_facts in Ha, Hb. unfold whole_second, sod in *. f_equal; lia.
Qed.

(** A later calendar year is a later instant. *)
Lemma inst_year_lt : forall a b, dt_valid a = true -> dt_valid b = true -> year a < year b -> inst a < inst b.
Proof.
  intros a b Ha Hb H. rewrite !inst_sod. pose proof (sod_range a Ha). pose proof (sod_range b Hb).
  pose proof (day_number_lt_year (year a) (month a) (day a) (year b) (month b) (day b)
    (valid_date a Ha) (valid_date b Hb) H). lia.
Qed.
Lemma day_number_jan : forall y d, day_number y 1 d = days_before_year y + d.
Proof. intros. unfold day_number. rewrite days_before_1. lia. Qed.

Lemma field_bnd : forall m u, dt_valid m = true -> min_year <= field u m <= max_year.
Proof. intros m u H. apply valid_facts in H. unfold min_year, max_year in *. destruct u; cbn; lia. Qed.
Lemma clock_unit_secs : forall u, clock_unit u = true -> 1 <= unit_secs u <= 86400.
Proof. intros u H. destruct u; try discriminate H; cbn; lia. Qed.

(** C10 *)
Lemma add_clock_exact : forall m u n, dt_valid m = true -> clock_unit u = true -> 0 <= n ->
  inst m + n * unit_secs u < instant (year m + 1) 1 31 0 0 0 ->
  inst m + n * unit_secs u < instant (max_year + 1) 1 1 0 0 0 ->
  exists m', calculate md (Addition (Moment m) (mk u n)) = Ok (Moment m') /\
    dt_valid m' = true /\ nano m' = 0 /\ inst m' = inst m + n * unit_secs u.
Proof.
  intros m u n Hm Hu Hn H1 H2.
  destruct (valid_facts m Hm) as (Vy & Vmo & Vd & Vml & Vh & Vmi & Vs).
  pose proof (sod_range m Hm) as Hsod. pose proof (clock_unit_secs u Hu) as Hus.
  rewrite inst_sod in *. unfold instant in H1, H2. rewrite day_number_jan in H1, H2.
  pose proof (leap_year_step (year m)) as Hstep.
  pose proof (doy_bounds _ _ _ (valid_date m Hm)) as Hdoy.
  unfold day_number in *.
  set (N := n * unit_secs u) in *.
  assert (HnN : n <= N) by (subst N; nia).
  assert (Hb : field u m + n <= i64_max).
  { pose proof (field_bnd m u Hm). pose proof (year_length_bounds (year m)).
    unfold min_year, max_year, i64_max in *. lia. }
  pose proof (add_clock m u n Hm Hu Hn Hb) as [A1 A2]. cbv zeta in A1, A2. fold N in A1, A2.
  set (T := sod m + N) in *. set (K := days_before (year m) (month m) + day m + T / 86400) in *.
  assert (Hr : 0 <= T mod 86400 < 86400) by (apply Z.mod_pos_bound; lia).
  pose proof (Z.div_mod T 86400 ltac:(lia)) as HT.
  destruct (Z_le_gt_dec K (year_length (year m))) as [Hle|Hgt].
  - destruct (A1 Hle) as (mo' & d' & Hex & Hsum & E). eexists. split; [exact E|].
    assert (Hrep : representable (year m) mo' d' = true) by (apply representable_iff; auto).
    split; [apply at_valid; assumption|]. split; [reflexivity|].
    rewrite inst_at by assumption. unfold day_number. lia.
  - assert (Hgt' : year_length (year m) < K) by lia. specialize (A2 Hgt').
    set (e := K - year_length (year m) - 1) in *.
    assert (He : 0 <= e < 30) by (subst e K; lia).
    replace (e / 360) with 0 in A2 by lia. replace (e mod 360 / 30) with 0 in A2 by lia.
    replace (e mod 30) with e in A2 by lia. rewrite Z.add_0_r in A2. cbn [Z.add] in A2.
    assert (Hy1 : year m + 1 <= max_year).
    { destruct (Z_le_gt_dec (year m + 1) max_year); [assumption|exfalso].
      assert (year m = max_year) by lia. rewrite <- H in *. subst e K. lia. }
    rewrite wrap32_id in A2 by (unfold min_year, max_year in *; lia).
    assert (Hrep : representable (year m + 1) 1 (e + 1) = true).
    { apply representable_iff. split; [lia|]. apply date_exists_iff.
      change (month_length (year m + 1) 1) with 31. lia. }
    unfold built in A2. rewrite Hrep in A2. eexists. split; [exact A2|].
    split; [apply at_valid; assumption|]. split; [reflexivity|].
    rewrite inst_at by assumption. rewrite day_number_jan. subst e K. lia.
Qed.

(** Months. *)
Lemma gndm_wrap : forall y mo, 1 <= mo <= 12 -> get_num_of_days_in_month y mo = month_length (wrap32 y) mo.
Proof.
  intros y mo H. rewrite <- gndm_val by (apply wrap32_range || assumption).
  unfold get_num_of_days_in_month. change (as_i32 y) with (wrap32 y).
  replace (as_i32 (wrap32 y)) with (wrap32 y); [reflexivity|]. symmetry. apply as_i32_id, wrap32_range.
Qed.

Lemma fix_carry_small : forall b k n, 0 <= b < k -> k <= 60 -> i64_min <= n <= i64_max ->
  @fix_carry kek md b k n = Ok (n, b).
Proof.
  intros b k n Hb Hk Hn. rewrite fix_carry_nn; [|unfold i64_max; lia|lia|rewrite Z.div_small by lia; lia].
  rewrite Z.div_small, Z.mod_small by lia. repeat f_equal. lia.
Qed.
Lemma adjust_add_date : forall y mo d h mi s, 0 <= h < 24 -> 0 <= mi < 60 -> 0 <= s < 60 -> 1 <= d <= 31 ->
  @adjust_times_add kek md y mo d h mi s =
  do (d', mo') <- month_loop md y d mo;
  do (y', mo'') <- year_loop md y mo';
  Ok (y', mo'', d', h, mi, s).
Proof.
  intros y mo d h mi s Hh Hmi Hs Hd. unfold adjust_times_add.
  rewrite fix_carry_small by (unfold i64_min, i64_max; lia). cbn [bind].
  rewrite fix_carry_small by (unfold i64_min, i64_max; lia). cbn [bind].
  rewrite fix_carry_small by (unfold i64_min, i64_max; lia). cbn [bind]. reflexivity.
Qed.
Lemma build_sod : forall m y mo d, dt_valid m = true -> 0 <= mo < 4294967296 -> 0 <= d < 4294967296 ->
  build_moment (y, mo, d, hour m, minute m, second m) = built (wrap32 y) mo d (sod m).
Proof.
  intros m y mo d Hm Hmo Hd. destruct (valid_facts m Hm) as (_ & _ & _ & _ & V1 & V2 & V3).
  rewrite <- built_gen by (lia || apply sod_range; assumption).
  replace (sod m / 3600) with (hour m) by (unfold sod; lia).
  replace (sod m mod 3600 / 60) with (minute m) by (unfold sod; lia).
  replace (sod m mod 60) with (second m) by (unfold sod; lia). reflexivity.
Qed.

Lemma add_months : forall m n, dt_valid m = true -> 0 <= n -> month m + n < i64_max ->
  calculate md (Addition (Moment m) (Months n)) =
  let '(Y, Mo, D) := plus_months (year m) (month m) (day m) n in built (wrap32 Y) Mo D (sod m).
Proof.
  intros m n Hm Hn Hb. destruct (valid_facts m Hm) as (Vy & Vmo & Vd & Vml & Vh & Vmi & Vs).
  change (Months n) with (mk UMonth n).
  rewrite calc_add_mk by (assumption || apply in_i64_iff; unfold i64_min, i64_max in *; lia).
  cbn [mk add_to_moment]. unfold addc. cbn [bind].
  rewrite arith_ok by (unfold i64_min, i64_max in *; lia). cbn [bind].
  rewrite adjust_add_date by lia. unfold plus_months.
  set (M := month m + n) in *. rewrite !bind_bind.
  assert (Yi : wrap32 (year m) = year m) by (apply wrap32_id; unfold min_year, max_year in *; lia).
  destruct (Z.leb_spec M 12) as [HM|HM].
  - assert (HM' : 1 <= M <= 12) by lia. pose proof (gndm_wrap (year m) M HM') as G. rewrite Yi in G.
    pose proof (month_length_bounds (year m) M HM').
    destruct (Z.leb_spec (day m) (month_length (year m) M)) as [Hd|Hd].
    + rewrite month_loop_stop by lia. cbn [bind]. rewrite year_loop_small by lia. cbn [bind].
      rewrite build_sod by lia || assumption. reflexivity.
    + rewrite month_loop_once by (unfold i64_min, i64_max; lia). cbn [bind].
      assert (HM2 : M + 1 <= 12).
      { destruct (Z.eq_dec M 12) as [E|E]; [|lia]. rewrite E in *. change (month_length (year m) 12) with 31 in *. lia. }
      rewrite year_loop_small by lia. cbn [bind]. rewrite G. rewrite build_sod by lia || assumption. reflexivity.
  - assert (G : get_num_of_days_in_month (year m) M = 30) by (apply gndm_else; lia).
    destruct (Z.leb_spec (day m) 30) as [Hd|Hd].
    + rewrite month_loop_stop by lia. cbn [bind].
      rewrite year_loop_eq by (unfold min_year, max_year, i64_min, i64_max in *; lia). cbn [bind].
      rewrite build_sod by lia || assumption. reflexivity.
    + rewrite month_loop_once by (unfold i64_min, i64_max in *; lia). cbn [bind]. rewrite G.
      rewrite year_loop_eq by (unfold min_year, max_year, i64_min, i64_max in *; lia). cbn [bind].
      rewrite build_sod by lia || assumption.
      replace (M + 1 - 1) with M by lia. replace (day m - 30) with 1 by lia. reflexivity.
Qed.

(** Years. *)
Lemma month_length_leap : forall y y' mo, 1 <= mo <= 12 -> mo <> 2 \/ leap y = leap y' -> month_length y mo = month_length y' mo.
Proof. intros y y' mo H D. rewrite !month_length_val by assumption. destruct (Z.eqb_spec mo 2); [|reflexivity]. destruct D as [D| ->]; [lia|reflexivity]. Qed.

Lemma add_years : forall m n, dt_valid m = true -> i64_min <= year m + n <= i64_max -> in_i64 n = true ->
  calculate md (Addition (Moment m) (Years n)) =
  let '(Y, Mo, D) := in_year (wrap32 (year m + n)) (month m) (day m) in built Y Mo D (sod m).
Proof.
  intros m n Hm Hb Hn. destruct (valid_facts m Hm) as (Vy & Vmo & Vd & Vml & Vh & Vmi & Vs).
  change (Years n) with (mk UYear n). rewrite calc_add_mk by assumption.
  cbn [mk add_to_moment]. unfold addc. cbn [bind]. rewrite arith_ok by assumption. cbn [bind].
  rewrite adjust_add_date by lia. rewrite !bind_bind. unfold in_year.
  pose proof (gndm_wrap (year m + n) (month m) Vmo) as G.
  set (Y := wrap32 (year m + n)) in *.
  destruct ((month m =? 2) && (day m =? 29) && negb (leap Y)) eqn:E.
  - apply andb_true_iff in E. destruct E as [E L]. apply negb_true_iff in L.
    assert (month m = 2) by lia. assert (day m = 29) by lia.
    assert (G' : get_num_of_days_in_month (year m + n) (month m) = 28).
    { rewrite G, H. cbn. rewrite L. reflexivity. }
    rewrite month_loop_once by (unfold i64_min, i64_max; lia). cbn [bind]. rewrite G', H, H0.
    rewrite year_loop_small by lia. cbn [bind]. rewrite build_sod by lia || assumption. reflexivity.
  - assert (Hd : day m <= month_length Y (month m)).
    { destruct (Z.eq_dec (month m) 2) as [E2|E2].
      - rewrite E2 in Vml, E |- *. change (month_length (year m) 2) with (if leap (year m) then 29 else 28) in Vml.
        change (month_length Y 2) with (if leap Y then 29 else 28).
        destruct (leap Y), (leap (year m)); lia.
      - rewrite (month_length_leap Y (year m)) by auto. assumption. }
    rewrite month_loop_stop by lia. cbn [bind]. rewrite year_loop_small by lia. cbn [bind].
    rewrite build_sod by lia || assumption. reflexivity.
Qed.
End Add.
