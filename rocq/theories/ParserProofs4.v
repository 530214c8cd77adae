(** Values of parsed dates, and iterator expressions end to end. *)
Require Import ZArith Bool List String Ascii Lia ZifyBool.
From Verif Require Import Prelude Spec Chrono TimeType Nom ParserTimetype ParserIterator ParserMod Iter
  SpecTree SpecMoment SpecIter SpecAdapt SpecText NomProofs PreludeProofs EvalProofs AmountProofs ShapeProofs CompProofs CalendarProofs
  AddProofs AddProofs2 SubProofs EndProofs ErrProofs IterProofs IterProofs2 AdapterProofs AdapterProofs2 AdapterProofs3
  OrdProofs ParserProofs ParserProofs2 LowerProofs ParserProofs3.
Import ListNotations.
Local Open Scope Z_scope.

(** ** Chains of additions *)
Fixpoint chain (b : timetype) (l : list (tunit * Z)) : timetype :=
  match l with nil => b | (u, n) :: l' => chain (Addition b (mk u n)) l' end.
Fixpoint chain_secs (l : list (tunit * Z)) : Z := match l with nil => 0 | (u, n) :: l' => n * unit_secs u + chain_secs l' end.
Definition clock_adds (l : list (tunit * Z)) : Prop := forall u n, In (u, n) l -> clock_unit u = true /\ 0 <= n.

Lemma chain_secs_nonneg : forall l, clock_adds l -> 0 <= chain_secs l.
Proof.
  induction l as [|[u n] l IH]; intro H; [cbn; lia|]. cbn [chain_secs].
  assert (0 <= chain_secs l) by (apply IH; intros u' n' Hin; apply H; right; exact Hin).
  destruct (H u n (or_introl eq_refl)). pose proof (unit_secs_pos u). nia.
Qed.
Lemma inst_year_le : forall a b, dt_valid a = true -> dt_valid b = true -> inst a <= inst b -> year a <= year b.
Proof. intros a b Ha Hb H. destruct (Z_le_gt_dec (year a) (year b)); [assumption|]. pose proof (inst_year_lt b a Hb Ha ltac:(lia)). lia. Qed.
Lemma jan31_mono : forall y y', y <= y' -> instant (y + 1) 1 31 0 0 0 <= instant (y' + 1) 1 31 0 0 0.
Proof. intros y y' H. unfold instant. rewrite !day_number_jan. pose proof (days_before_year_mono (y + 1) (y' + 1) ltac:(lia)). lia. Qed.

Lemma chain_exact : forall md l b m, clock_adds l -> dt_valid m = true -> tt_ok b = true -> shape_of b = SMoment ->
  is_diff b = false -> is_end b = false -> calculate md b = Ok (Moment m) ->
  inst m + chain_secs l < instant (year m + 1) 1 31 0 0 0 -> inst m + chain_secs l < instant (max_year + 1) 1 1 0 0 0 ->
  exists m', calculate md (chain b l) = Ok (Moment m') /\ dt_valid m' = true /\ inst m' = inst m + chain_secs l /\ (l <> nil -> nano m' = 0).
Proof.
  intros md. induction l as [|[u n] l IH]; intros b m Hl Hm Hb Sb Db Eb Cb H1 H2.
  - exists m. cbn. repeat split; [exact Cb|exact Hm|lia|congruence].
  - cbn [chain chain_secs] in *. destruct (Hl u n (or_introl eq_refl)) as [Hu Hn].
    assert (Hl' : clock_adds l) by (intros u' n' Hin; apply Hl; right; exact Hin).
    pose proof (chain_secs_nonneg l Hl') as Cn. pose proof (unit_secs_pos u) as Up.
    assert (In64 : in_i64 n = true).
    { apply in_i64_iff. destruct (valid_facts m Hm) as (Vy & Vmo & Vd & Vml & Vh & Vmi & Vs).
      pose proof (doy_bounds _ _ _ (valid_date m Hm)) as Db'. pose proof (sod_range m Hm) as Sr.
      rewrite inst_sod in H1. unfold instant, day_number in H1. rewrite days_before_1 in H1.
      pose proof (days_before_year_mono (year m) (year m + 1) ltac:(lia)).
      assert (n * unit_secs u <= 400 * 86400) by lia. unfold i64_min, i64_max. nia. }
    assert (Ob : tt_ok (mk u n) = true) by (rewrite ok_mk; exact In64).
    destruct (add_clock_exact md m u n Hm Hu Hn) as (m1 & C1 & V1 & N1 & I1); [lia|lia|].
    assert (Sa : shape_of (Addition b (mk u n)) = SMoment).
    { cbn [shape_of]. rewrite Sb, Db, Eb. destruct u; reflexivity. }
    assert (Ca : calculate md (Addition b (mk u n)) = Ok (Moment m1)).
    { destruct (calc_add_comp md b (mk u n) Hb Ob ltac:(congruence)) as (K & _ & _).
      rewrite (K (Moment m) (mk u n) Cb); [exact C1|]. destruct u; reflexivity. }
    assert (Ob2 : tt_ok (Addition b (mk u n)) = true) by (cbn [tt_ok]; rewrite Hb; exact Ob).
    assert (Iy : year m <= year m1) by (apply inst_year_le; [exact Hm|exact V1|nia]).
    pose proof (jan31_mono _ _ Iy).
    destruct (IH (Addition b (mk u n)) m1 Hl' V1 Ob2 Sa eq_refl eq_refl Ca) as (m' & C' & V' & I' & N'); [lia|lia|].
    exists m'. repeat split; [exact C'|exact V'|lia|].
    intros _. destruct l; [|apply N'; discriminate]. cbn [chain] in C'. rewrite Ca in C'. injection C' as <-. exact N1.
Qed.

(** ** Today, tomorrow, yesterday *)
Lemma day_after : forall md now, dt_valid now = true -> inst now + 86400 < instant (max_year + 1) 1 1 0 0 0 ->
  exists m, calculate md (Addition (Moment now) (Days 1)) = Ok (Moment m) /\ dt_valid m = true /\ nano m = 0 /\ inst m = inst now + 86400.
Proof.
  intros md now Hn HR. pose proof (inst_year_end now Hn) as E.
  destruct (add_clock_exact md now UDay 1 Hn eq_refl ltac:(lia)) as (m & C & V & N & I); [|cbn [unit_secs]; lia|exists m; cbn [mk unit_secs] in *; repeat split; [exact C|exact V|exact N|lia]].
  unfold instant in *. rewrite day_number_jan in *. cbn [unit_secs]. lia.
Qed.
Lemma day_before : forall md now, dt_valid now = true ->
  let '(py, pm) := prev_month (year now) (month now) in
  let ok := 2 <= day now \/ month_length py pm = 31 /\ min_year <= py in
  (ok -> exists m, calculate md (Subtraction (Moment now) (Days 1)) = Ok (Moment m) /\ dt_valid m = true /\ nano m = 0 /\ inst m = inst now - 86400) /\
  (~ ok -> oob (calculate md (Subtraction (Moment now) (Days 1)))).
Proof.
  intros md now Hn. destruct (prev_month (year now) (month now)) as [py pm] eqn:P.
  destruct (valid_facts now Hn) as (Vy & Vmo & Vd & Vml & Vh & Vmi & Vs). pose proof (sod_range now Hn) as Sr.
  destruct (sub_days md now 1 Hn ltac:(lia)) as [A _]. cbv zeta in A. specialize (A ltac:(lia)).
  unfold built3, back_day in A. rewrite P in A.
  assert (Pv : 1 <= pm <= 12) by (unfold prev_month in P; destruct (Z.eqb_spec (month now) 1); injection P as <- <-; lia).
  destruct (Z.leb_spec 1 (day now - 1)) as [L|G].
  - split; [intros _|lia]. exists (at_time (year now) (month now) (day now - 1) (sod now)).
    assert (R : representable (year now) (month now) (day now - 1) = true).
    { apply representable_iff. split; [exact Vy|]. apply date_exists_iff. lia. }
    rewrite A. unfold built. rewrite R. repeat split; [apply at_valid; assumption|].
    rewrite inst_at by assumption. rewrite inst_sod. unfold day_number. lia.
  - assert (D1 : day now = 1) by lia. replace (31 + (day now - 1)) with 31 in A by lia. split.
    + intros [H|[H Hy]]; [lia|].
      assert (R : representable py pm 31 = true).
      { apply representable_iff. split; [|apply date_exists_iff; lia]. unfold prev_month in P. destruct (Z.eqb_spec (month now) 1); injection P as <- <-; lia. }
      exists (at_time py pm 31 (sod now)). rewrite A. unfold built. rewrite R. repeat split; [apply at_valid; assumption|].
      rewrite inst_at by assumption. rewrite inst_sod. rewrite D1.
      assert (Q : day_number (year now) (month now) 1 = day_number py pm 31 + 1); [|lia].
      unfold prev_month in P. destruct (Z.eqb_spec (month now) 1) as [M|M]; injection P as <- <-.
      * rewrite M. replace (year now) with (year now - 1 + 1) at 1 by lia. apply day_number_next_year.
      * unfold day_number. pose proof (days_before_succ (year now) (month now - 1)) as S.
        replace (month now - 1 + 1) with (month now) in S by lia. rewrite S by lia. lia.
    + intros H. rewrite A. unfold built. destruct (representable py pm 31) eqn:R; [|repeat eexists].
      exfalso. apply representable_iff in R. destruct R as [Ry R]. apply date_exists_iff in R. pose proof (month_length_bounds py pm Pv). lia.
Qed.

(** ** Base dates *)
Ltac splits := repeat match goal with H : _ && _ = true |- _ => apply andb_true_iff in H; destruct H end;
  repeat match goal with |- _ && _ = true => apply andb_true_iff; split end; first [assumption|reflexivity].

Lemma plain_into : forall md now x m, plain x = true -> means now x m -> exactdate_into md now x = Ok (Moment m).
Proof.
  intros md now x m P [V M]. destruct x as [| | |d|d t]; try discriminate P; try (destruct d as [y mo d|y ww d|y ddd]; try discriminate P).
  - subst m. reflexivity.
  - subst m. rewrite ymd_into. unfold dt_valid in V. cbn in V. rewrite !andb_true_r in V. unfold representable. rewrite V. reflexivity.
  - subst m. rewrite ymdhms_into. unfold dt_valid in V. cbn [year month day hour minute second nano] in V.
    replace (representable y mo d && time_ok (t_hour t) (t_minute t) (t_second t)) with true; [reflexivity|].
    symmetry. unfold representable, time_ok. splits.
Qed.
Lemma plain_missing : forall md now x, dt_valid now = true -> plain x = true -> (forall m, ~ means now x m) ->
  let '(y, mo, d, (h, mi, s)) := written x in exactdate_into md now x = Err (OutOfBounds y mo d h mi s).
Proof.
  intros md now x Hn P M. destruct x as [| | |d|d t]; try discriminate P; try (destruct d as [y mo d|y ww d|y ddd]; try discriminate P); cbn [written].
  - exfalso. apply (M now). split; [exact Hn|reflexivity].
  - rewrite ymd_into. destruct (representable y mo d) eqn:R; [|reflexivity]. exfalso.
    apply (M (midnight y mo d)). split; [apply midnight_valid; exact R|reflexivity].
  - rewrite ymdhms_into. destruct (representable y mo d && time_ok (t_hour t) (t_minute t) (t_second t)) eqn:R; [|reflexivity]. exfalso.
    apply (M (mkdt y mo d (t_hour t) (t_minute t) (t_second t) 0)). split; [|reflexivity].
    unfold dt_valid. cbn [year month day hour minute second nano]. unfold representable, time_ok in R. splits.
Qed.
Lemma inst_bounds : forall m, dt_valid m = true -> inst m < instant (max_year + 1) 1 1 0 0 0.
Proof.
  intros m V. pose proof (inst_year_end m V) as E. destruct (valid_facts m V) as (Vy & _).
  assert (L : instant (year m + 1) 1 1 0 0 0 <= instant (max_year + 1) 1 1 0 0 0); [|lia].
  unfold instant. rewrite !day_number_jan. pose proof (days_before_year_mono (year m + 1) (max_year + 1) ltac:(lia)). lia.
Qed.
Lemma tomorrow_value : forall md now, dt_valid now = true ->
  (forall m, means now Tomorrow m -> exact_value md now Tomorrow = Ok (Moment m)) /\
  ((forall m, ~ means now Tomorrow m) -> oob (exact_value md now Tomorrow)).
Proof.
  intros md now Hn. unfold exact_value. cbn [exactdate_into bind]. unfold op_add, today, days. split.
  - intros m (V & I & N). destruct (day_after md now Hn) as (m' & C & V' & N' & I'); [pose proof (inst_bounds m V); lia|].
    rewrite C. do 2 f_equal. assert (W : whole_second m' = whole_second m) by (apply inst_inj; try assumption; lia). destruct m', m. cbn in *. subst. exact W.
  - intro M. destruct (Z_lt_ge_dec (inst now + 86400) (instant (max_year + 1) 1 1 0 0 0)) as [L|G].
    + exfalso. destruct (day_after md now Hn L) as (m' & C & V' & N' & I'). apply (M m'). repeat split; assumption.
    + apply (add_clock_beyond md now UDay 1 Hn eq_refl ltac:(lia)); cbn [unit_secs]; [unfold span32; lia|lia].
Qed.
Lemma yesterday_value : forall md now, dt_valid now = true ->
  let '(py, pm) := prev_month (year now) (month now) in
  let ok := 2 <= day now \/ month_length py pm = 31 /\ min_year <= py in
  (ok -> exists m, means now Yesterday m /\ exact_value md now Yesterday = Ok (Moment m)) /\
  (~ ok -> oob (exact_value md now Yesterday)).
Proof.
  intros md now Hn. pose proof (day_before md now Hn) as D. destruct (prev_month (year now) (month now)) as [py pm].
  cbv zeta in *. destruct D as [D1 D2]. unfold exact_value. cbn [exactdate_into bind]. unfold op_sub, today, days. split; [|exact D2].
  intro K. destruct (D1 K) as (m & C & V & N & I). exists m. repeat split; assumption.
Qed.

(** ** Dates with amounts *)
Lemma date_op_into : forall md now x op e, date_into md now (Date x (Some (op, e))) =
  do b <- exactdate_into md now x; do t <- amountexpr_into md e; Ok (date_op op b t).
Proof. intros. destruct op; reflexivity. Qed.
Lemma date_expr : forall md now x m op e, dt_valid now = true -> exact_ok x -> exact_value md now x = Ok (Moment m) ->
  x <> Yesterday \/ op = Minus -> expr_ok e -> total e <= i64_max ->
  exists t v, date_into md now (Date x (Some (op, e))) = Ok t /\ v * unit_secs (expr_unit e) = right_value e /\
    calculate md t = calculate md (date_op op (Moment m) (mk (expr_unit e) v)).
Proof.
  intros md now x m op e Hn Hx Hv Hy He Ht. rewrite date_op_into.
  destruct (expr_calc md e He Ht) as (a & v & A1 & A2 & A3 & A4 & A5).
  pose proof (exact_good md now x Hn Hx) as G. unfold exact_value in Hv.
  assert (Nd : forall b, exactdate_into md now x = Ok b -> x <> Yesterday -> is_diff b = false /\ is_end b = false).
  { intros b Eb Nx. destruct x as [| | |d|d t]; cbn [exactdate_into] in Eb; try congruence; try (injection Eb as <-; split; reflexivity).
    - destruct d as [y mo d|y ww d|y ddd].
      + change (exactdate_into md now (Iso8601Date (YMD y mo d)) = Ok b) in Eb. rewrite ymd_into in Eb. destruct (representable y mo d); [|discriminate]. injection Eb as <-. split; reflexivity.
      + destruct (first_of_year y); try discriminate. cbn [bind] in Eb. destruct (weeks md ww); try discriminate. injection Eb as <-. split; reflexivity.
      + destruct (first_of_year y); try discriminate. injection Eb as <-. split; reflexivity.
    - destruct d as [y mo d|y ww d|y ddd].
      + change (exactdate_into md now (Iso8601DateTime (YMD y mo d) t) = Ok b) in Eb. rewrite ymdhms_into in Eb. destruct (representable y mo d && _); [|discriminate]. injection Eb as <-. split; reflexivity.
      + destruct (first_of_year y); try discriminate. cbn [bind] in Eb. destruct (weeks md ww); try discriminate. injection Eb as <-. split; reflexivity.
      + destruct (first_of_year y); try discriminate. injection Eb as <-. split; reflexivity. }
  assert (Ne : forall b, exactdate_into md now x = Ok b -> is_end b = false).
  { intros b Eb. destruct x as [| | |d|d t]; try (apply Nd; [exact Eb|discriminate]). cbn in Eb. injection Eb as <-. reflexivity. }
  destruct (exactdate_into md now x) as [b| | |]; try discriminate Hv. cbn [bind] in *. rewrite A1. cbn [bind].
  exists (date_op op b a), v. split; [reflexivity|]. split; [exact A5|].
  destruct G as [G1 G2]. apply shape_amount in A3. destruct op; cbn [date_op].
  - destruct Hy as [Hy|Hy]; [|discriminate]. destruct (Nd b eq_refl Hy) as [D E].
    apply (calc_add_comp md b a); [exact G1|exact A2| |exact Hv|exact A4]. cbn [shape_of]. rewrite G2, A3, D, E. discriminate.
  - apply (calc_sub_comp md b a); [exact G1|exact A2| |exact Hv|exact A4]. cbn [shape_of]. rewrite G2, A3, (Ne b eq_refl). discriminate.
Qed.
(** Nothing can be added to yesterday. *)
Lemma yesterday_plus : forall md now e t v, date_into md now (Date Yesterday (Some (Plus, e))) = Ok t -> expr_ok e -> calculate md t <> Ok v.
Proof.
  intros md now e t v H He C. cbn [date_into exactdate_into bind] in H. pose proof (expr_good md e He) as G.
  destruct (amountexpr_into md e) as [a| | |]; try discriminate H. cbn in G. destruct G as [G1 G2]. cbn [bind] in H. injection H as <-.
  pose proof (calculate_shape md (op_add (op_sub (today now) (days 1)) a)) as K. rewrite C in K.
  unfold op_add, op_sub, today, days in K. cbn [shape_of is_diff is_end orb] in K. apply shape_amount in G2. rewrite G2 in K. exact K.
Qed.

(** ** ISO week and ordinal dates *)
Lemma jan_chain : forall md y l, min_year <= y < max_year -> clock_adds l -> chain_secs l < 395 * 86400 ->
  exists m, calculate md (chain (Moment (midnight y 1 1)) l) = Ok (Moment m) /\ dt_valid m = true /\
    inst m = 86400 * day_number y 1 1 + chain_secs l /\ nano m = 0.
Proof.
  intros md y l Hy Hl Hs.
  assert (V : dt_valid (midnight y 1 1) = true) by (apply midnight_valid; rewrite jan1; lia).
  assert (I0 : inst (midnight y 1 1) = 86400 * day_number y 1 1) by (unfold inst, instant, midnight; cbn [year month day hour minute second]; lia).
  assert (Y1 : day_number (y + 1) 1 1 >= day_number y 1 1 + 365) by (rewrite !day_number_jan; rewrite leap_year_step; unfold year_length; destruct (leap y); lia).
  assert (Y2 : instant (y + 1) 1 1 0 0 0 <= instant (max_year + 1) 1 1 0 0 0 - 365 * 86400).
  { unfold instant. rewrite !day_number_jan. pose proof (days_before_year_mono (y + 1) max_year ltac:(lia)) as M.
    rewrite (leap_year_step max_year). assert (year_length max_year >= 365) by (vm_compute; discriminate). lia. }
  destruct (chain_exact md l (Moment (midnight y 1 1)) (midnight y 1 1) Hl V V eq_refl eq_refl eq_refl eq_refl) as (m & C & Vm & I & N).
  - rewrite I0. change (year (midnight y 1 1)) with y. unfold instant in *. replace (day_number (y + 1) 1 31) with (day_number (y + 1) 1 1 + 30) by (unfold day_number; lia). lia.
  - rewrite I0. unfold instant in *. lia.
  - exists m. rewrite I0 in I. repeat split; [exact C|exact Vm|exact I|].
    destruct l; [|apply N; discriminate]. injection C as <-. reflexivity.
Qed.
Lemma counted_late : forall md now x, counted x -> exists m, exact_value md now x = Ok (Moment m) /\ dt_valid m = true /\ nano m = 0 /\
  inst m = meant_secs x + late_secs x.
Proof.
  intros md now x H.
  assert (F : forall y, min_year <= y < max_year -> first_of_year y = Ok (Moment (midnight y 1 1))).
  { intros y Hy. rewrite first_into. replace ((min_year <=? y) && (y <=? max_year)) with true by lia. reflexivity. }
  assert (W : forall ww, 1 <= ww <= 53 -> weeks md ww = Ok (Days (ww * 7))).
  { intros ww Hw. unfold weeks. rewrite mul7 by (apply in_i64_iff; unfold i64_min, i64_max; lia). reflexivity. }
  assert (J4 : forall y, day_number y 1 4 = day_number y 1 1 + 3) by (intro; unfold day_number; lia).
  unfold exact_value. destruct x as [| | |[y mo d|y ww d|y ddd]|[y mo d|y ww d|y ddd] t]; cbn [counted dayno_ok] in H; try contradiction; try (destruct H; contradiction);
    cbn [exactdate_into meant_secs late_secs]; unfold op_add, days, hours, minutes, seconds, iso_week_day, ordinal_day, clock_secs.
  - destruct H as (Hy & Hw & Hd). rewrite F by exact Hy. cbn [bind]. rewrite W by exact Hw. cbn [bind].
    destruct (jan_chain md y [(UDay, ww * 7); (UDay, d)] Hy) as (m & C & V & I & N).
    { intros u n [[= <- <-]|[[= <- <-]|[]]]; split; try reflexivity; lia. }
    { cbn [chain_secs unit_secs]. lia. }
    exists m. repeat split; [exact C|exact V|exact N|]. cbn [chain_secs unit_secs] in I. rewrite I. pose proof (J4 y). lia.
  - destruct H as (Hy & Hd). rewrite F by exact Hy. cbn [bind].
    destruct (jan_chain md y [(UDay, ddd)] Hy) as (m & C & V & I & N).
    { intros u n [[= <- <-]|[]]; split; try reflexivity; lia. }
    { cbn [chain_secs unit_secs]. lia. }
    exists m. repeat split; [exact C|exact V|exact N|]. cbn [chain_secs unit_secs] in I. lia.
  - destruct H as ((Hy & Hw & Hd) & Hh & Hmi & Hs). rewrite F by exact Hy. cbn [bind]. rewrite W by exact Hw. cbn [bind].
    destruct (jan_chain md y [(UDay, ww * 7); (UDay, d); (UHour, t_hour t); (UMin, t_minute t); (USec, t_second t)] Hy) as (m & C & V & I & N).
    { intros u n [[= <- <-]|[[= <- <-]|[[= <- <-]|[[= <- <-]|[[= <- <-]|[]]]]]]; split; try reflexivity; lia. }
    { cbn [chain_secs unit_secs]. lia. }
    exists m. repeat split; [exact C|exact V|exact N|]. cbn [chain_secs unit_secs] in I. rewrite I. pose proof (J4 y). lia.
  - destruct H as ((Hy & Hd) & Hh & Hmi & Hs). rewrite F by exact Hy. cbn [bind].
    destruct (jan_chain md y [(UDay, ddd); (UHour, t_hour t); (UMin, t_minute t); (USec, t_second t)] Hy) as (m & C & V & I & N).
    { intros u n [[= <- <-]|[[= <- <-]|[[= <- <-]|[[= <- <-]|[]]]]]; split; try reflexivity; lia. }
    { cbn [chain_secs unit_secs]. lia. }
    exists m. repeat split; [exact C|exact V|exact N|]. cbn [chain_secs unit_secs] in I. lia.
Qed.
Lemma counted_wrong : forall md now x m, counted x -> means now x m -> exact_value md now x <> Ok (Moment m).
Proof.
  intros md now x m Hc Hm E. destruct (counted_late md now x Hc) as (m' & E' & V & N & I). rewrite E in E'. injection E' as <-.
  assert (0 < late_secs x).
  { destruct x as [| | |[y mo d|y ww d|y ddd]|[y mo d|y ww d|y ddd] t]; cbn [counted dayno_ok late_secs] in Hc |- *; try contradiction; try (destruct Hc; contradiction);
      try pose proof (weekday_range y 1 4); lia. }
  destruct Hm as [_ Hm]. destruct x as [| | |[y mo d|y ww d|y ddd]|[y mo d|y ww d|y ddd] t]; cbn in Hc; try contradiction; try (destruct Hc; contradiction);
    cbn [meant_secs] in I; destruct Hm as [Hm _]; lia.
Qed.
Lemma offset_ignored : forall md now d t t', t_hour t = t_hour t' -> t_minute t = t_minute t' -> t_second t = t_second t' ->
  exactdate_into md now (Iso8601DateTime d t) = exactdate_into md now (Iso8601DateTime d t').
Proof. intros md now d t t' H1 H2 H3. destruct d; cbn [exactdate_into]; rewrite H1, H2, H3; reflexivity. Qed.
