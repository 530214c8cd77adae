(** Evaluation agrees with the reference evaluator. *)
Require Import ZArith Bool List Lia ZifyBool.
From Verif Require Import Prelude Spec Chrono Util TimeType SpecTree SpecMoment SpecIter SpecSeq SpecMode SpecOver SpecWide SpecValue PreludeProofs CalendarProofs EvalProofs AmountProofs
  ShapeProofs CompProofs LoopProofs AddProofs AddProofs2 SubProofs SubProofs2 EndProofs OverProofs ModeProofs WideProofs WideProofs2.
Local Open Scope Z_scope.
Ltac Zify.zify_post_hook ::= Z.div_mod_to_equations.

Lemma built_worth : forall y mo d r, worth_result (date_at (y, mo, d) r) (built y mo d r).
Proof. intros. unfold date_at, built. destruct (representable y mo d); cbn [worth_result]; [reflexivity|repeat eexists]. Qed.
Lemma built3_worth : forall ymd r, worth_result (date_at ymd r) (built3 ymd r).
Proof. intros [[y mo] d] r. apply built_worth. Qed.

(** ** Day of the year *)
Lemma month_day_at : forall k y i mo d, 1 <= i -> i <= mo <= 12 -> mo - i <= Z.of_nat k -> 1 <= d <= month_length y mo ->
  month_day k y i (days_before y mo - days_before y i + d) = (mo, d).
Proof.
  induction k; intros y i mo d Hi Hmo Hk Hd; cbn [month_day].
  - assert (i = mo) by lia. subst i. f_equal. lia.
  - destruct (Z.eq_dec i mo) as [->|N].
    + replace (days_before y mo - days_before y mo + d) with d by lia. replace (d <=? month_length y mo) with true by lia. reflexivity.
    + pose proof (days_before_succ y i ltac:(lia)) as E. pose proof (days_before_mono y (i + 1) mo ltac:(lia) ltac:(lia) ltac:(lia)) as Mo.
      destruct (Z.leb_spec (days_before y mo - days_before y i + d) (month_length y i)); [lia|].
      replace (days_before y mo - days_before y i + d - month_length y i) with (days_before y mo - days_before y (i + 1) + d) by lia.
      apply IHk; lia.
Qed.

Definition calm (w : worth) : bool := match w with Time _ | Outside => true | _ => false end.
Section Modes.
Variable md : mode.

Lemma add_months_full : forall m n, dt_valid m = true -> in_i64 n = true -> 1 <= month m + n <= i64_max -> (month m + n = i64_max -> day m <= 30) ->
  calculate md (Addition (Moment m) (Months n)) =
  let '(Y, Mo, D) := plus_months (year m) (month m) (day m) n in built (wrap32 Y) Mo D (sod m).
Proof.
  intros m n Hm Hn Hb Hl. destruct (valid_facts m Hm) as (Vy & Vmo & Vd & Vml & Vh & Vmi & Vs).
  change (Months n) with (mk UMonth n). rewrite calc_add_mk by assumption.
  cbn [mk add_to_moment]. unfold addc. cbn [bind].
  rewrite arith_ok by (unfold i64_min, i64_max in *; lia). cbn [bind].
  rewrite adjust_add_date by lia. unfold plus_months.
  set (M := month m + n) in *. rewrite !bind_bind.
  assert (Yi : wrap32 (year m) = year m) by (apply wrap32_id; unfold min_year, max_year in *; lia).
  destruct (Z.leb_spec M 12) as [HM|HM].
  - assert (HM' : 1 <= M <= 12) by lia. pose proof (gndm_wrap (year m) M HM') as G. rewrite Yi in G.
    pose proof (month_length_bounds (year m) M HM').
    destruct (Z.leb_spec (day m) (month_length (year m) M)) as [Hd|Hd].
    + rewrite month_loop_stop by lia. cbn [bind]. rewrite year_loop_small by lia. cbn [bind].
      rewrite build_sod by lia || assumption. reflexivity.
    + rewrite month_loop_once by (unfold i64_min, i64_max; lia). cbn [bind].
      assert (HM2 : M + 1 <= 12).
      { destruct (Z.eq_dec M 12) as [E|E]; [|lia]. rewrite E in *. change (month_length (year m) 12) with 31 in *. lia. }
      rewrite year_loop_small by lia. cbn [bind]. rewrite G. rewrite build_sod by lia || assumption. reflexivity.
  - assert (G : get_num_of_days_in_month (year m) M = 30) by (apply gndm_else; lia).
    destruct (Z.leb_spec (day m) 30) as [Hd|Hd].
    + rewrite month_loop_stop by lia. cbn [bind].
      rewrite year_loop_eq by (unfold min_year, max_year, i64_min, i64_max in *; lia). cbn [bind].
      rewrite build_sod by lia || assumption. reflexivity.
    + rewrite month_loop_once by (unfold i64_min, i64_max in *; lia). cbn [bind]. rewrite G.
      rewrite year_loop_eq by (unfold min_year, max_year, i64_min, i64_max in *; lia). cbn [bind].
      rewrite build_sod by lia || assumption.
      replace (M + 1 - 1) with M by lia. replace (day m - 30) with 1 by lia. reflexivity.
Qed.

Lemma add_clock_full : forall m u n, dt_valid m = true -> clock_unit u = true -> 0 <= n -> field u m + n <= i64_max ->
  let T := sod m + n * unit_secs u in
  worth_result (date_at (day_of_year (year m) (days_before (year m) (month m) + day m + T / 86400)) (T mod 86400)) (calculate md (Addition (Moment m) (mk u n))).
Proof.
  intros m u n Hm Hu Hn Hf T. destruct (add_clock md m u n Hm Hu Hn Hf) as [A1 A2]. fold T in A1, A2.
  destruct (valid_facts m Hm) as (Vy & Vmo & Vd & Vml & Vh & Vmi & Vs).
  set (K := days_before (year m) (month m) + day m + T / 86400) in *. unfold day_of_year.
  destruct (Z.leb_spec K (year_length (year m))) as [L|L].
  - destruct (A1 L) as (mo & d & E & Ed & ->). apply date_exists_iff in E as F.
    replace K with (days_before (year m) mo - days_before (year m) 1 + d) by (rewrite days_before_1; lia).
    rewrite month_day_at by lia. unfold date_at. replace (representable (year m) mo d) with true; [reflexivity|].
    symmetry. apply representable_iff. auto.
  - rewrite (A2 L). apply built_worth.
Qed.

Lemma plus_correct : forall m u n, dt_valid m = true -> in_i64 n = true -> add_fits u m n = true ->
  worth_result (plus m u n) (calculate md (Addition (Moment m) (mk u n))).
Proof.
  intros m u n Hm Hn Hf. unfold plus. rewrite Hf. cbn [negb]. unfold add_fits in Hf. apply andb_true_iff in Hf as [Hf Hl].
  apply in_i64_iff in Hf. apply in_i64_iff in Hn as Hn'.
  assert (Clock : clock_unit u = true -> let T := sod m + n * unit_secs u in
    worth_result (if 0 <=? n then date_at (day_of_year (year m) (days_before (year m) (month m) + day m + T / 86400)) (T mod 86400)
      else if no_borrow u m T then date_at (year m, month m, low32 (day m + T / 86400)) (T mod 86400) else Outside)
    (calculate md (Addition (Moment m) (mk u n)))).
  { intros Hu T. destruct (Z.leb_spec 0 n) as [L|L]; [apply add_clock_full; lia || assumption|].
    destruct (add_negative_wide md m u n Hm Hu ltac:(lia)) as [A1 A2]. fold T in A1, A2.
    destruct (no_borrow u m T); [rewrite (A1 eq_refl); apply built_worth|exact (A2 eq_refl)]. }
  destruct u; try exact (Clock eq_refl); clear Clock; cbn [field] in *; cbn [mk].
  - cbv zeta. destruct (Z.leb_spec 1 (month m + n)) as [L|L].
    + rewrite add_months_full; [|assumption|assumption|lia|].
      * destruct (plus_months (year m) (month m) (day m) n) as [[Y Mo] D]. apply built_worth.
      * intro E. destruct (valid_facts m Hm) as (Vy & Vmo & Vd & _). cbn [andb] in Hl. lia.
    + rewrite add_months_wide by (assumption || lia). destruct (day m <=? 30); apply built_worth.
  - rewrite add_years by assumption. destruct (in_year (wrap32 (year m + n)) (month m) (day m)) as [[Y Mo] D]. apply built_worth.
Qed.

Lemma back_correct : forall m u n, dt_valid m = true -> in_i64 n = true -> sub_fits u m n = true -> (u = UYear \/ n < period u) ->
  worth_result (back m u n) (calculate md (Subtraction (Moment m) (mk u n))).
Proof.
  intros m u n Hm Hn Hf Hr. unfold back. unfold sub_fits in Hf.
  apply in_i64_iff in Hf. apply in_i64_iff in Hn as Hn'. cbv zeta.
  assert (Neg : u <> UYear -> n < 0 -> _) by (intros Hu L; exact (sub_negative_wide md m u n Hm Hu ltac:(lia) ltac:(lia))). cbv zeta in Neg.
  assert (Clock : clock_unit u = true -> u <> UDay -> let x := field u m - n in
    (n < 0 -> (low32 x < modulus u -> calculate md (Subtraction (Moment m) (mk u n)) = built (year m) (month m) (day m) (sod m + (low32 x - field u m) * unit_secs u)) /\
              (modulus u <= low32 x -> oob (calculate md (Subtraction (Moment m) (mk u n))))) ->
    worth_result (if n <? 0 then if low32 x <? modulus u then date_at (year m, month m, day m) (sod m + (low32 x - field u m) * unit_secs u) else Outside
      else if x <? - modulus u then Outside
      else let T := sod m - n * unit_secs u - (if x =? - modulus u then modulus u * unit_secs u else 0) in
           date_at (back_day (year m) (month m) (day m + T / 86400)) (T mod 86400))
    (calculate md (Subtraction (Moment m) (mk u n)))).
  { clear Neg. intros Hu Hd x Neg. destruct (Z.ltb_spec n 0) as [L|L].
    - destruct (Neg L) as [N1 N2]. destruct (Z.ltb_spec (low32 x) (modulus u)) as [C|C]; [rewrite (N1 C); apply built_worth|exact (N2 C)].
    - assert (R : n < period u) by (destruct Hr as [->|R]; [discriminate Hu|exact R]).
      destruct (sub_far md m u n Hm Hu Hd ltac:(lia)) as (F1 & F2 & F3). fold x in F1, F2, F3.
      destruct (Z.ltb_spec x (- modulus u)) as [C|C]; [exact (F3 C)|].
      destruct (Z.eqb_spec x (- modulus u)) as [E|E].
      + cbv zeta. rewrite (F2 E). apply built3_worth.
      + cbv zeta. rewrite Z.sub_0_r. rewrite F1 by lia. apply built3_worth. }
  destruct u.
  - apply Clock; [reflexivity|discriminate|exact (Neg ltac:(discriminate))].
  - apply Clock; [reflexivity|discriminate|exact (Neg ltac:(discriminate))].
  - apply Clock; [reflexivity|discriminate|exact (Neg ltac:(discriminate))].
  - clear Clock. cbn [field] in *. destruct (Z.ltb_spec n 0) as [L|L].
    + rewrite (Neg ltac:(discriminate) L). apply built_worth.
    + destruct Hr as [C|R]; [discriminate C|]. destruct (sub_far_days md m n Hm ltac:(lia)) as [F1 F2]. cbn [mk].
      destruct (Z.leb_spec (-30) (day m - n)) as [C|C]; [rewrite (F1 C); apply built3_worth|exact (F2 C)].
  - clear Clock. cbn [field] in *. destruct (Z.ltb_spec n 0) as [L|L].
    + rewrite (Neg ltac:(discriminate) L). apply built_worth.
    + destruct Hr as [C|R]; [discriminate C|]. destruct (sub_far_months md m n Hm ltac:(lia)) as (F1 & F2 & F3). cbn [mk].
      destruct (Z.leb_spec 1 (month m - n)) as [C|C]; [rewrite (F1 C); apply built_worth|].
      destruct (Z.leb_spec (-11) (month m - n)) as [C2|C2]; [rewrite F2 by lia; apply built_worth|exact (F3 C2)].
  - cbn [mk field] in *. rewrite sub_years by assumption. apply built_worth.
Qed.
Lemma back_calm : forall m u n, calm (back m u n) = true.
Proof.
  assert (D : forall ymd r, calm (date_at ymd r) = true).
  { intros [[y mo] d] r. unfold date_at. destruct (representable y mo d); reflexivity. }
  intros m u n. unfold back. cbv zeta. destruct u; repeat first [apply D|reflexivity|match goal with |- context [if ?b then _ else _] => destruct b end].
Qed.
Lemma minus_correct : forall m u n, dt_valid m = true -> in_i64 n = true -> sub_fits u m n = true ->
  worth_result (minus m u n) (calculate md (Subtraction (Moment m) (mk u n))).
Proof.
  intros m u n Hm Hn Hf. unfold minus. rewrite Hf. cbn [negb].
  assert (R : u <> UYear -> worth_result (if n <? period u then back m u n else match back m u (n mod period u) with Time t => if year t =? year m - 1 then Time t else Outside | w => w end)
    (calculate md (Subtraction (Moment m) (mk u n)))).
  { intro Hu. destruct (Z.ltb_spec n (period u)) as [L|L]; [apply back_correct; auto|].
    assert (Pp : 2147483648 <= period u) by (destruct u; cbn [period]; lia).
    pose proof (Z.mod_pos_bound n (period u) ltac:(lia)) as Br. set (r := n mod period u) in *.
    apply in_i64_iff in Hn. unfold i64_min in Hn. assert (Hr : in_i64 r = true) by (apply in_i64_iff; unfold i64_min; lia).
    destruct (valid_facts m Hm) as (Vy & Vmo & Vd & Vml & Vh & Vmi & Vs).
    assert (Fr : sub_fits u m r = true) by (unfold sub_fits; apply in_i64_iff; unfold i64_min; unfold i64_max in *; destruct u; try (elim Hu; reflexivity); cbn [field]; unfold min_year, max_year in *; lia).
    pose proof (back_correct m u r Hm Hr Fr ltac:(right; lia)) as B.
    pose proof (fun t => sub_round md m u n t Hm Hu ltac:(lia)) as Q. fold r in Q.
    assert (O : (forall t, calculate md (Subtraction (Moment m) (mk u n)) <> Ok (Moment t)) -> oob (calculate md (Subtraction (Moment m) (mk u n)))).
    { intro N. destruct (sub_round_oob md m u n Hm Hu ltac:(lia)) as [O|[t E]]; [exact O|elim (N t E)]. }
    pose proof (back_calm m u r) as Cb. destruct (back m u r) as [u' n'|t| | |a b]; cbn [worth_result] in B; try discriminate Cb.
    - destruct (Z.eqb_spec (year t) (year m - 1)) as [Y|Y]; cbn [worth_result].
      + apply Q. split; assumption.
      + apply O. intros t' E. apply Q in E. destruct E as [E Y']. rewrite B in E. injection E as ->. contradiction.
    - apply O. intros t' E. apply Q in E. destruct E as [E _]. destruct B as (y & mo & d & h & mi & s & B). congruence. }
  destruct u; try (apply R; discriminate). apply back_correct; auto.
Qed.
End Modes.

(** ** Expressions *)
Lemma not_panic_add : forall a b, tt_ok a = true -> tt_ok b = true -> shape_of (Addition a b) = SMoment ->
  (exists e, calculate Checked a = Err e) -> calculate Checked (Addition a b) <> Panic PArith.
Proof.
  intros a b Ha Hb Sh [e E] P.
  assert (Sa : shape_of a <> SBad) by (cbn [shape_of] in Sh; destruct (shape_of a); discriminate).
  apply over_exact in P; [|cbn [tt_ok]; rewrite Ha, Hb; reflexivity|congruence].
  inversion P; subst; unfold value_checked in *; try congruence; try (destruct k; discriminate).
  - apply shape_amount in H. congruence.
  - apply (over_exact a Ha Sa) in H0. congruence.
Qed.
Lemma not_panic_sub : forall a b, tt_ok a = true -> tt_ok b = true -> shape_of (Subtraction a b) = SMoment ->
  (exists e, calculate Checked a = Err e) -> (right_first a b = true -> calculate Checked b <> Panic PArith) -> calculate Checked (Subtraction a b) <> Panic PArith.
Proof.
  intros a b Ha Hb Sh [e E] R P.
  assert (Sa : shape_of a <> SBad) by (cbn [shape_of] in Sh; destruct (shape_of a); discriminate).
  assert (Sb : shape_of b <> SBad) by (cbn [shape_of] in Sh; destruct (shape_of a), (shape_of b); discriminate).
  apply over_exact in P; [|cbn [tt_ok]; rewrite Ha, Hb; reflexivity|congruence].
  inversion P; subst; unfold value_checked in *; try congruence; try (destruct k; discriminate).
  - apply shape_amount in H. congruence.
  - apply (over_exact a Ha Sa) in H0. congruence.
  - apply (R eq_refl). apply (over_exact _ Hb Sb). assumption.
Qed.
Lemma moment_other : forall t, tt_ok t = true -> shape_of t = SMoment -> isok (calculate Checked t) = false -> calculate Checked t <> Panic PArith -> oob (calculate Checked t).
Proof.
  intros t Ht Sh No Np. pose proof (calculate_good Checked t Ht) as G. pose proof (calculate_shape Checked t) as K. rewrite Sh in K.
  destruct (calculate Checked t) as [v|e|p|]; cbn in *; try discriminate; try contradiction.
  - destruct e; try discriminate K. repeat eexists.
  - destruct G as [-> _]. congruence.
Qed.

Lemma value_amount : forall t, tt_ok t = true -> amount_only t = true ->
  match value t with
  | Amounts u n => u = finest t /\ n = secs t / unit_secs u /\ in_i64 n = true /\ calculate Checked t = Ok (mk u n)
  | Overflow => calculate Checked t = Panic PArith
  | _ => False
  end.
Proof.
  intros t Ht Ha. assert (E : value t = if fits t then Amounts (finest t) (secs t / unit_secs (finest t)) else Overflow).
  { destruct t; cbn [value amount_only] in *; try discriminate Ha; rewrite ?Ha; reflexivity. }
  rewrite E. pose proof (amount_overflow t Ht Ha) as O. destruct (fits t).
  - destruct (amount_checked t Ht Ha) as [(v & C & Ev)|C]; [|apply O in C; discriminate C].
    assert (U : unit_secs (finest t) > 0) by (destruct (finest t); reflexivity).
    rewrite <- Ev. rewrite Z.div_mul by lia. split; [reflexivity|]. split; [reflexivity|]. split; [|exact C].
    pose proof (calc_tt_ok _ _ _ Ht C) as K. destruct (finest t); exact K.
  - apply O. reflexivity.
Qed.

Lemma value_correct : forall t, tt_ok t = true -> shape_of t <> SBad -> worth_result (value t) (calculate Checked t).
Proof.
  assert (Am : forall t, tt_ok t = true -> amount_only t = true -> worth_result (value t) (calculate Checked t)).
  { intros t Ht Ha. pose proof (value_amount t Ht Ha) as V. destruct (value t); cbn [worth_result]; tauto. }
  assert (En : forall k e, tt_ok e = true -> worth_result (value e) (calculate Checked e) -> shape_of e = SMoment ->
    worth_result (match value e with Time m => Time (end_at k m) | x => x end) (calculate Checked (end_of k e))).
  { intros k e He V Sh. rewrite end_complete by assumption. destruct (value e) as [u n|m| | |l r]; cbn [worth_result] in *.
    - pose proof (calculate_shape Checked e) as K. rewrite Sh, V in K. destruct u; discriminate K.
    - rewrite V. reflexivity.
    - destruct V as (y & mo & d & h & mi & s & ->). repeat eexists.
    - rewrite V. reflexivity.
    - pose proof (calculate_shape Checked e) as K. rewrite Sh, V in K. discriminate K. }
  assert (Sm : forall t, shape_of t = SMoment -> amount_only t = false).
  { intros t E. destruct (amount_only t) eqn:A; [|reflexivity]. apply shape_amount in A. congruence. }
  induction t; intros Ht Sh; cbn [tt_ok] in Ht; try (apply Am; [exact Ht|reflexivity]); try reflexivity;
    try (assert (Se : shape_of t = SMoment) by (cbn [shape_of] in Sh; destruct (shape_of t); congruence)).
  - apply andb_true_iff in Ht as Ht'. destruct Ht' as [Ha Hb].
    destruct (shape_of (Addition t1 t2)) eqn:Sh2; [apply Am; [exact Ht|apply shape_amount; exact Sh2]| |congruence].
    assert (Sh1 : shape_of t1 = SMoment /\ shape_of t2 = SAmount).
    { cbn [shape_of] in Sh2. destruct (shape_of t1), (shape_of t2); try discriminate Sh2; auto. }
    destruct Sh1 as [S1 S2]. apply shape_amount in S2 as A2.
    assert (V : value (Addition t1 t2) = on_worth plus (value t1) (value t2)).
    { cbn [value]. rewrite (Sm _ Sh2). reflexivity. }
    rewrite V. specialize (IHt1 Ha ltac:(congruence)). pose proof (value_amount t2 Hb A2) as V2.
    destruct (calc_add_comp Checked t1 t2 Ha Hb ltac:(congruence)) as (C1 & C2 & C3).
    assert (Ht' : tt_ok (Addition t1 t2) = true) by exact Ht.
    destruct (value t1) as [u n|m| | |l r]; cbn [worth_result on_worth] in *.
    + pose proof (calculate_shape Checked t1) as K. rewrite S1, IHt1 in K. destruct u; discriminate K.
    + destruct (value t2) as [u n|m'| | |l r]; try contradiction.
      * destruct V2 as (-> & E & Hn & V2). rewrite (C1 _ _ IHt1 V2).
        pose proof (calc_tt_ok _ _ _ Ha IHt1) as Hm. cbn [tt_ok] in Hm.
        destruct (add_fits (finest t2) m n) eqn:F; [apply plus_correct; assumption|].
        unfold plus. rewrite F. cbn [negb worth_result]. apply add_over; assumption.
      * cbn [worth_result]. apply over_exact; [exact Ht'|congruence|]. eapply OV_add_r; [exact IHt1|apply over_exact; [exact Hb|congruence|exact V2]].
    + destruct IHt1 as (y & mo & d & h & mi & s & E). apply moment_other; [exact Ht'|exact Sh2|apply C2; rewrite E; reflexivity|].
      apply not_panic_add; [exact Ha|exact Hb|exact Sh2|eexists; exact E].
    + apply over_exact; [exact Ht'|congruence|]. apply OV_add_l. apply over_exact; [exact Ha|congruence|exact IHt1].
    + pose proof (calculate_shape Checked t1) as K. rewrite S1, IHt1 in K. discriminate K.
  - apply andb_true_iff in Ht as Ht'. destruct Ht' as [Ha Hb].
    destruct (shape_of (Subtraction t1 t2)) eqn:Sh2; [apply Am; [exact Ht|apply shape_amount; exact Sh2]| |congruence].
    assert (Sh1 : shape_of t1 = SMoment /\ shape_of t2 = SAmount).
    { cbn [shape_of] in Sh2. destruct (shape_of t1), (shape_of t2); try discriminate Sh2; auto. }
    destruct Sh1 as [S1 S2]. apply shape_amount in S2 as A2.
    assert (V : value (Subtraction t1 t2) = match right_first t1 t2, value t2 with true, Overflow => Overflow | _, _ => on_worth minus (value t1) (value t2) end).
    { cbn [value]. rewrite (Sm _ Sh2). reflexivity. }
    rewrite V. specialize (IHt1 Ha ltac:(congruence)). pose proof (value_amount t2 Hb A2) as V2.
    destruct (calc_sub_comp Checked t1 t2 Ha Hb ltac:(congruence)) as (C1 & C2 & C3).
    assert (Ht' : tt_ok (Subtraction t1 t2) = true) by exact Ht.
    assert (Main : (right_first t1 t2 = true -> value t2 <> Overflow) -> worth_result (on_worth minus (value t1) (value t2)) (calculate Checked (Subtraction t1 t2))).
    { clear V. intro RF. destruct (value t1) as [u n|m| | |l r]; cbn [worth_result on_worth] in *.
      + pose proof (calculate_shape Checked t1) as K. rewrite S1, IHt1 in K. destruct u; discriminate K.
      + destruct (value t2) as [u n|m'| | |l r]; try contradiction.
        * destruct V2 as (-> & E & Hn & V2). rewrite (C1 _ _ IHt1 V2).
          pose proof (calc_tt_ok _ _ _ Ha IHt1) as Hm. cbn [tt_ok] in Hm.
          destruct (sub_fits (finest t2) m n) eqn:F.
          -- apply minus_correct; assumption.
          -- unfold minus. rewrite F. cbn [negb worth_result]. apply sub_over; assumption.
        * cbn [worth_result]. apply over_exact; [exact Ht'|congruence|]. eapply OV_sub_r; [exact IHt1|apply over_exact; [exact Hb|congruence|exact V2]].
      + destruct IHt1 as (y & mo & d & h & mi & s & E). apply moment_other; [exact Ht'|exact Sh2|apply C2; rewrite E; reflexivity|].
        apply not_panic_sub; [exact Ha|exact Hb|exact Sh2|eexists; exact E|]. intros R P. specialize (RF R).
        destruct (value t2) as [u n|m'| | |l r]; try contradiction; try congruence. destruct V2 as (_ & _ & _ & V2). congruence.
      + apply over_exact; [exact Ht'|congruence|]. apply OV_sub_l. apply over_exact; [exact Ha|congruence|exact IHt1].
      + pose proof (calculate_shape Checked t1) as K. rewrite S1, IHt1 in K. discriminate K. }
    destruct (right_first t1 t2) eqn:RF; [|destruct (value t2); apply Main; discriminate].
    destruct (value t2) as [u n|m'| | |l r] eqn:E2; try (apply Main; intros _; discriminate).
    cbn [worth_result]. destruct t1; try discriminate RF. destruct t2; try discriminate RF.
    apply over_exact; [exact Ht'|congruence|]. apply OV_sub_first. apply over_exact; [exact Hb|congruence|exact V2].
  - exact (En PYear t Ht (IHt Ht ltac:(congruence)) Se).
  - exact (En PMonth t Ht (IHt Ht ltac:(congruence)) Se).
  - exact (En PDay t Ht (IHt Ht ltac:(congruence)) Se).
  - exact (En PHour t Ht (IHt Ht ltac:(congruence)) Se).
  - exact (En PMinute t Ht (IHt Ht ltac:(congruence)) Se).
Qed.

Lemma value_release : forall t, tt_ok t = true -> shape_of t <> SBad -> value t <> Overflow -> worth_result (value t) (calculate Wrapping t).
Proof.
  intros t Ht Sh No. pose proof (value_correct t Ht Sh) as V. destruct (ag_calculate t) as [P|E]; [|rewrite E; exact V].
  rewrite P in V. destruct (value t); cbn [worth_result] in V; try discriminate V; [|elim No; reflexivity].
  destruct V as (y & mo & d & h & mi & s & C). discriminate C.
Qed.
