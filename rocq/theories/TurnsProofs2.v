(** Loop turns of additions to moments: whole evaluations, bounds, texts. *)
Require Import ZArith Bool List String Lia ZifyBool.
From Verif Require Import Prelude Spec Chrono Util TimeType SpecMoment SpecTree SpecCalls SpecTurns Nom ParserTimetype ParserMod SpecText
  PreludeProofs CalendarProofs LoopProofs EvalProofs AddProofs NomProofs TurnsProofs ParserProofs2.
Import ListNotations.
Local Open Scope Z_scope.
Ltac Zify.zify_post_hook ::= Z.div_mod_to_equations.

Section Turns.
Variable md : mode.

Lemma add_calls : forall f m u n, all_calls md (3 + f) (CCalc (Addition (Moment m) (mk u n))) =
  [CCalc (Addition (Moment m) (mk u n)); CAdd (Moment m) (mk u n); CAddToMoment m (mk u n)].
Proof.
  intros f m u n. change (3 + f)%nat with (Datatypes.S (Datatypes.S (Datatypes.S f))). cbn [all_calls subcalls flat_map app].
  destruct u; reflexivity.
Qed.
Lemma sub_calls : forall f m u n, all_calls md (3 + f) (CCalc (Subtraction (Moment m) (mk u n))) =
  [CCalc (Subtraction (Moment m) (mk u n)); CSub (Moment m) (mk u n); CSubFromMoment m (mk u n)].
Proof.
  intros f m u n. change (3 + f)%nat with (Datatypes.S (Datatypes.S (Datatypes.S f))). cbn [all_calls subcalls flat_map app].
  destruct u; reflexivity.
Qed.
Lemma add_total : forall f m u n k, call_turns md (CAddToMoment m (mk u n)) k -> total_turns md (3 + f) (CCalc (Addition (Moment m) (mk u n))) k.
Proof.
  intros f m u n k H. exists [0%nat; 0%nat; k]. rewrite add_calls. split; [|cbn; lia].
  repeat constructor. exact H.
Qed.
Lemma add_turns : forall f m u n, dt_valid m = true -> 0 <= n <= i64_max - max_year ->
  exists k, total_turns md (3 + f) (CCalc (Addition (Moment m) (mk u n))) k /\ turns_expected m u n (Z.of_nat k).
Proof.
  intros f m u n Hm Hn. destruct (one_turns md m u n Hm Hn) as (k & H & X). exists k. split; [apply add_total; exact H|exact X].
Qed.
Lemma sub_turns : forall f m u n, total_turns md (3 + f) (CCalc (Subtraction (Moment m) (mk u n))) 0.
Proof. intros f m u n. exists [0%nat; 0%nat; 0%nat]. rewrite sub_calls. split; [repeat constructor|reflexivity]. Qed.

(** Months have at most 31 days. *)
Lemma expected_low : forall m u n k, dt_valid m = true -> clock_unit u = true -> 0 <= n -> 0 <= k -> turns_expected m u n k ->
  n * unit_secs u / 86400 <= 31 * k + 30.
Proof.
  intros m u n k Hm Hu Hn Hk H. destruct (valid_facts m Hm) as (Vy & Vmo & Vd & Vml & _). pose proof (sod_range m Hm) as Sr.
  set (K := days_before (year m) (month m) + day m + (sod m + n * unit_secs u) / 86400) in *.
  assert (X : n * unit_secs u / 86400 <= (sod m + n * unit_secs u) / 86400) by (apply Z.div_le_mono; lia).
  assert (G : (K <= year_length (year m) -> 0 <= k <= 12 - month m /\ days_before (year m) (month m + k) < K <= days_before (year m) (month m + k + 1)) /\
      (year_length (year m) < K -> let e := K - year_length (year m) - 1 in k = 13 - month m + e / 30 + (1 + e / 360))).
  { destruct u; try discriminate Hu; exact H. }
  clear H. set (q := (sod m + n * unit_secs u) / 86400) in *. set (p := n * unit_secs u / 86400) in *. clearbody p q.
  destruct G as [G1 G2]. destruct (Z_le_gt_dec K (year_length (year m))) as [L|L].
  - destruct (G1 L) as [R [_ R2]]. pose proof (days_before_mono (year m) (month m) (month m + k + 1) ltac:(lia) ltac:(lia) ltac:(lia)) as D. subst K. lia.
  - specialize (G2 ltac:(lia)). cbv zeta in G2. pose proof (days_before_mono (year m) (month m) 13 ltac:(lia) ltac:(lia) ltac:(lia)) as D. rewrite days_before_13 in D.
    subst K. set (e := _ - 1) in G2. assert (E : e >= 0) by (subst e; lia). assert (e >= q - 31 * (13 - month m)) by (subst e; lia). clearbody e. lia.
Qed.

(** Additions that succeed. *)
Lemma built_ok : forall y mo d r v, built y mo d r = Ok v -> min_year <= y <= max_year.
Proof.
  intros y mo d r v H. unfold built in H. destruct (representable y mo d) eqn:R; [|discriminate H]. apply representable_iff in R. tauto.
Qed.
Lemma wrap32_small : forall z, -2147483648 <= z < 2147483648 -> wrap32 z = z.
Proof. intros. apply wrap32_id. assumption. Qed.
Lemma expected_high : forall m u n v k, dt_valid m = true -> 0 <= n -> n * unit_secs u <= span32 -> calculate md (Addition (Moment m) (mk u n)) = Ok v ->
  turns_expected m u n k -> k <= 13 * 524288 + 13.
Proof.
  intros m u n v k Hm Hn Hs Hv Hk. destruct (valid_facts m Hm) as (Vy & Vmo & Vd & Vml & _). pose proof (sod_range m Hm) as Sr.
  destruct (clock_unit u) eqn:Hu.
  - destruct (add_clock md m u n Hm Hu Hn) as [A1 A2].
    { assert (field u m <= 60) by (destruct (valid_facts m Hm) as (_ & _ & _ & _ & V1 & V2 & V3); destruct u; try discriminate Hu; cbn; lia).
      destruct u; try discriminate Hu; cbn [unit_secs] in Hs; unfold span32, i64_max in *; lia. }
    cbv zeta in A1, A2. set (K := days_before (year m) (month m) + day m + (sod m + n * unit_secs u) / 86400) in *.
    assert (G : (K <= year_length (year m) -> 0 <= k <= 12 - month m /\ days_before (year m) (month m + k) < K <= days_before (year m) (month m + k + 1)) /\
      (year_length (year m) < K -> let e := K - year_length (year m) - 1 in k = 13 - month m + e / 30 + (1 + e / 360))).
    { destruct u; try discriminate Hu; exact Hk. }
    destruct G as [G1 G2]. destruct (Z_le_gt_dec K (year_length (year m))) as [L|L]; [destruct (G1 L); lia|].
    specialize (G2 ltac:(lia)). specialize (A2 ltac:(lia)). cbv zeta in G2.
    set (e := K - year_length (year m) - 1) in *. rewrite A2 in Hv. apply built_ok in Hv.
    assert (E : 0 <= e <= span32 / 86400 + 32).
    { subst e. split; [lia|]. assert (Q : (sod m + n * unit_secs u) / 86400 <= (86399 + span32) / 86400) by (apply Z.div_le_mono; lia).
      assert (days_before (year m) (month m) <= year_length (year m)) by (pose proof (days_before_mono (year m) (month m) 13) as D; rewrite days_before_13 in D; lia).
      assert (Z86 : (86399 + span32) / 86400 = span32 / 86400) by reflexivity. subst K. lia. }
    clearbody e. assert (W : wrap32 (year m + 1 + e / 360) = year m + 1 + e / 360).
    { apply wrap32_small. assert (S : span32 / 86400 = 772920000000) by reflexivity. rewrite S in E. unfold min_year, max_year in *. lia. }
    rewrite W in Hv. unfold min_year, max_year in *. lia.
  - destruct u; try discriminate Hu; cbn [turns_expected mk] in *.
    + rewrite add_months in Hv by (cbn [unit_secs] in Hs; unfold span32, i64_max in *; assumption || lia). unfold plus_months in Hv.
      set (M := month m + n) in *. cbn [unit_secs] in Hs. cbv zeta in Hk.
      assert (HM : M <= 25764000012) by (unfold span32 in Hs; lia). assert (HM1 : 1 <= M) by lia. clearbody M.
      destruct (Z.leb_spec M 12) as [L|L].
      * destruct (month_length (year m) M <? day m); lia.
      * assert (Y : (M - 1) / 12 <= 600000).
        { destruct (Z.leb_spec (day m) 30); apply built_ok in Hv; rewrite wrap32_small in Hv by (unfold min_year, max_year in *; lia); unfold min_year, max_year in *; lia. }
        destruct (30 <? day m); lia.
    + destruct ((month m =? 2) && (day m =? 29) && negb (leap (wrap32 (year m + n)))); lia.
Qed.
Lemma add_work : forall f m u n k, dt_valid m = true -> clock_unit u = true -> 0 <= n <= i64_max - max_year ->
  total_turns md (3 + f) (CCalc (Addition (Moment m) (mk u n))) k -> n * unit_secs u / 86400 <= 31 * Z.of_nat k + 30.
Proof.
  intros f m u n k Hm Hu Hn Hk. destruct (add_turns f m u n Hm Hn) as (k' & K & X).
  rewrite (total_unique md _ _ _ _ Hk K). apply (expected_low m); try assumption; lia.
Qed.
Lemma add_success : forall f m u n v k, dt_valid m = true -> 0 <= n -> n * unit_secs u <= span32 ->
  calculate md (Addition (Moment m) (mk u n)) = Ok v -> total_turns md (3 + f) (CCalc (Addition (Moment m) (mk u n))) k ->
  Z.of_nat k <= 6815757.
Proof.
  intros f m u n v k Hm Hn Hs Hv Hk. destruct (add_turns f m u n Hm) as (k' & K & X).
  { destruct u; cbn [unit_secs] in Hs; unfold span32, i64_max, max_year in *; lia. }
  rewrite (total_unique md _ _ _ _ Hk K). exact (expected_high m u n v _ Hm Hn Hs Hv X).
Qed.
End Turns.

(** Sums written after "today". *)
Lemma today_parse : forall cfg pd pdt md now1 now2 ds, digits ds -> decimal ds <= i64_max ->
  parse md cfg pd pdt now1 now2 ("today + " ++ ds ++ " days")%string = Ok (PTimeType (Addition (Moment now1) (Days (decimal ds)))).
Proof.
  intros cfg pd pdt md now1 now2 ds Hd Hm.
  rewrite (parse_date cfg pd pdt md now1 now2 (Date Today (Some (Plus, AELast (Amount (decimal ds) PDay)))) _ "").
  - reflexivity.
  - apply (DR_op pd pdt Today _ " " Plus " " _ (ds ++ " days") "").
    + replace ("today + " ++ ds ++ " days")%string with ("today" ++ " " ++ op_text Plus ++ " " ++ (ds ++ " days") ++ "")%string; [apply ER_today|].
      cbn [append op_text]. rewrite NomProofs.app_nil. reflexivity.
    + reflexivity.
    + reflexivity.
    + apply ET_last. apply (AT_number "" ds " " "days" PDay); try assumption; try (vm_compute; tauto).
    + split; reflexivity.
  - reflexivity.
  - reflexivity.
Qed.
Lemma digits_nonneg : forall ds, digits ds -> 0 <= decimal ds.
Proof. intros ds [H _]. apply (decimal_range ds H). Qed.
Lemma today_turns : forall cfg pd pdt md now1 now2 ds, dt_valid now1 = true -> digits ds -> decimal ds <= i64_max - max_year ->
  exists t, parse md cfg pd pdt now1 now2 ("today + " ++ ds ++ " days")%string = Ok (PTimeType t) /\
  forall f, exists k, total_turns md (3 + f) (CCalc t) k /\ decimal ds <= 31 * Z.of_nat k + 30.
Proof.
  intros cfg pd pdt md now1 now2 ds Hn Hd Hm. exists (Addition (Moment now1) (Days (decimal ds))).
  split; [apply today_parse; [assumption|unfold max_year, i64_max in *; lia]|]. intro f.
  pose proof (digits_nonneg ds Hd) as Nn.
  destruct (add_turns md f now1 UDay (decimal ds) Hn (conj Nn Hm)) as (k & K & X). exists k. split; [exact K|].
  apply expected_low in X; try assumption; try lia; try reflexivity. cbn [unit_secs] in X. rewrite Z.div_mul in X by lia. exact X.
Qed.

(** A sum whose year is cut to 32 bits. *)
Lemma cut_case : let m := mkdt 2016 2 29 12 0 0 0 in
  calculate Checked (Addition (Moment m) (Days 1546188226560)) = Ok (Moment (mkdt 2016 2 24 12 0 0 0)) /\ turns_expected m UDay 1546188226560 55834574848.
Proof.
  intro m. split.
  - destruct (add_clock Checked m UDay 1546188226560) as [_ A]; [reflexivity|reflexivity|discriminate|discriminate|].
    cbn [mk] in A. rewrite (A eq_refl). vm_compute. reflexivity.
  - split; [intro H; exfalso; vm_compute in H; exact (H eq_refl)|intros _; vm_compute; reflexivity].
Qed.
Lemma add_success_cut : exists m n v k, dt_valid m = true /\ 0 <= n <= i64_max - max_year /\
  calculate Checked (Addition (Moment m) (Days n)) = Ok v /\ total_turns Checked 3 (CCalc (Addition (Moment m) (Days n))) k /\ 6815757 < Z.of_nat k.
Proof.
  destruct cut_case as [C _]. set (m := mkdt 2016 2 29 12 0 0 0) in C. set (n := 1546188226560) in C.
  assert (N : 0 <= n <= i64_max - max_year) by (unfold n, i64_max, max_year; lia).
  destruct (add_turns Checked 0 m UDay n eq_refl N) as (k & K & X).
  pose proof (expected_low m UDay n (Z.of_nat k) eq_refl eq_refl (proj1 N) ltac:(lia) X) as L. cbn [unit_secs] in L. rewrite Z.div_mul in L by lia.
  exists m, n, (Moment (mkdt 2016 2 24 12 0 0 0)), k. split; [reflexivity|]. split; [exact N|]. split; [exact C|]. split; [exact K|]. unfold n in L. lia.
Qed.
