(** Larger amounts lead further (C113). *)
Require Import ZArith Bool List Lia ZifyBool.
From Verif Require Import Prelude Spec Chrono Util TimeType SpecTree SpecMoment SpecExact SpecWide SpecOrder PreludeProofs CalendarProofs EvalProofs AmountProofs AddProofs AddProofs2 SubProofs WideProofs WideProofs2 SameProofs OrderProofs NegProofs SeqProofs FarProofs OrdProofs.
Local Open Scope Z_scope.
Ltac Zify.zify_post_hook ::= Z.div_mod_to_equations.

Section Dh.
Variable md : mode.

(** Dates in order. *)
Lemma at_lt : forall y mo d r y' mo' d' r', representable y mo d = true -> representable y' mo' d' = true -> 0 <= r < 86400 -> 0 <= r' < 86400 ->
  12 * y + mo < 12 * y' + mo' \/ (12 * y + mo = 12 * y' + mo' /\ (d < d' \/ (d = d' /\ r < r'))) -> inst (at_time y mo d r) < inst (at_time y' mo' d' r').
Proof.
  intros y mo d r y' mo' d' r' H H' R R' L. apply representable_iff in H as [_ H]. apply representable_iff in H' as [_ H']. rewrite !inst_at by assumption.
  destruct L as [L|[E L]].
  - pose proof (dn_lt _ _ _ _ _ _ H H' L). lia.
  - apply date_exists_iff in H. apply date_exists_iff in H'. assert (y = y') by lia. assert (mo = mo') by lia. subst y' mo'. unfold day_number. lia.
Qed.
Lemma not_oob : forall r v, oob r -> r = Ok v -> False.
Proof. intros r v (a & b & c & d & e & f & O) Q. rewrite O in Q. discriminate Q. Qed.

(** ** Sums *)
Lemma year_near : forall m n, dt_valid m = true -> -2147483648 <= n <= 2147483648 -> min_year <= wrap32 (year m + n) <= max_year -> wrap32 (year m + n) = year m + n.
Proof. intros m n Hm Hn W. destruct (valid_facts m Hm) as (Vy & _). unfold wrap32, min_year, max_year in *. lia. Qed.

Lemma clock_key : forall m u n m', dt_valid m = true -> clock_unit u = true -> 0 <= n -> n * unit_secs u <= span32 ->
  calculate md (Addition (Moment m) (mk u n)) = Ok (Moment m') ->
  let T := sod m + n * unit_secs u in let e := days_before (year m) (month m) + day m + T / 86400 - year_length (year m) - 1 in
  (e < 0 -> year m' = year m /\ inst m' = inst m + n * unit_secs u) /\
  (0 <= e -> exists y mo d, m' = at_time y mo d (T mod 86400) /\ representable y mo d = true /\ 12 * y + mo = 12 * (year m + 1) + e / 30 + 1 /\ d = e mod 30 + 1 /\ year m < y).
Proof.
  intros m u n m' Hm Hu Hn Hs E T e.
  destruct (valid_facts m Hm) as (Vy & Vmo & Vd & Vml & Vh & Vmi & Vs).
  assert (Us : 1 <= unit_secs u) by (destruct u; try discriminate Hu; cbn; lia).
  pose proof (ahead_inst md m u n m' Hm Hu Hn Hs E) as I. pose proof (inst_sod m) as Is. pose proof (sod_range m Hm) as R.
  destruct (add_clock md m u n Hm Hu Hn ltac:(unfold span32, i64_max in *; destruct u; try discriminate Hu; cbn [field unit_secs] in *; lia)) as [A B]. cbv zeta in A, B. fold T in A, B.
  assert (Ep : days_past u n m = e).
  { unfold days_past. rewrite Is. assert (Y : day_number (year m + 1) 1 1 = day_number (year m) (month m) (day m) - days_before (year m) (month m) - day m + year_length (year m) + 1).
    { rewrite <- (day_number_month13 (year m) 1). unfold day_number. rewrite days_before_13. lia. }
    rewrite Y. subst e T. lia. }
  split; intro L.
  - unfold ahead in I. rewrite Ep in I. replace (e <? 0) with true in I by lia. destruct (A ltac:(subst e; lia)) as (mo' & d' & _ & _ & Q). rewrite Q in E. injection E as <-.
    split; [reflexivity|lia].
  - rewrite (B ltac:(subst e; lia)) in E. fold e in E. apply built_ok in E as [P Q]. injection Q as ->.
    assert (W : wrap32 (year m + 1 + e / 360) = year m + 1 + e / 360).
    { apply wrap32_id. pose proof (year_length_bounds (year m)).
      assert (days_before (year m) (month m) + day m <= 366) by (pose proof (doy_bounds _ _ _ (valid_date m Hm)); lia).
      unfold span32, min_year, max_year in *. subst e T. lia. }
    rewrite W in *. exists (year m + 1 + e / 360), (e mod 360 / 30 + 1), (e mod 30 + 1). split; [reflexivity|]. split; [exact P|]. clear - L. clearbody e. lia.
Qed.

Lemma clock_further : forall m u a b ma mb, dt_valid m = true -> clock_unit u = true -> 0 <= a < b -> b * unit_secs u <= span32 ->
  calculate md (Addition (Moment m) (mk u a)) = Ok (Moment ma) -> calculate md (Addition (Moment m) (mk u b)) = Ok (Moment mb) -> inst ma < inst mb.
Proof.
  intros m u a b ma mb Hm Hu Hab Hs E1 E2.
  assert (Us : 1 <= unit_secs u) by (destruct u; try discriminate Hu; cbn; lia).
  assert (Va : dt_valid ma = true). { eapply FarProofs.moment_valid; [|exact E1]. apply FarProofs.plus_ok; [exact Hm|]. apply in_i64_iff. unfold span32, i64_min, i64_max in *. nia. }
  assert (Vb : dt_valid mb = true). { eapply FarProofs.moment_valid; [|exact E2]. apply FarProofs.plus_ok; [exact Hm|]. apply in_i64_iff. unfold span32, i64_min, i64_max in *. nia. }
  assert (Sl : a * unit_secs u < b * unit_secs u) by nia.
  destruct (clock_key m u a ma Hm Hu ltac:(lia) ltac:(nia) E1) as [A1 A2]. destruct (clock_key m u b mb Hm Hu ltac:(lia) Hs E2) as [B1 B2]. cbv zeta in *.
  set (Ta := sod m + a * unit_secs u) in *. set (Tb := sod m + b * unit_secs u) in *. assert (TT : Ta < Tb) by (subst Ta Tb; lia). clearbody Ta Tb.
  set (c := days_before (year m) (month m) + day m) in *. set (l := year_length (year m)) in *.
  destruct (Z_lt_le_dec (c + Ta / 86400 - l - 1) 0) as [La|La], (Z_lt_le_dec (c + Tb / 86400 - l - 1) 0) as [Lb|Lb].
  - destruct (A1 La) as [_ ->]. destruct (B1 Lb) as [_ ->]. lia.
  - destruct (A1 La) as [Ya _]. destruct (B2 Lb) as (y & mo & d & -> & P & _ & _ & Yb). apply OrdProofs.inst_lt_date; [exact Va|exact Vb|]. left. cbn [year at_time]. lia.
  - exfalso. lia.
  - destruct (A2 La) as (y & mo & d & -> & P & K & Dd & _). destruct (B2 Lb) as (y' & mo' & d' & -> & P' & K' & Dd' & _).
    apply at_lt; try assumption; [lia|lia|]. clear - K K' Dd Dd' TT. lia.
Qed.

Lemma clock_further_all : forall m u a b ma mb, dt_valid m = true -> clock_unit u = true -> -2147483648 <= a < b -> b * unit_secs u <= span32 ->
  calculate md (Addition (Moment m) (mk u a)) = Ok (Moment ma) -> calculate md (Addition (Moment m) (mk u b)) = Ok (Moment mb) -> inst ma < inst mb.
Proof.
  intros m u a b ma mb Hm Hu Hab Hs E1 E2. assert (Us : 1 <= unit_secs u) by (destruct u; try discriminate Hu; cbn; lia).
  destruct (Z_le_gt_dec 0 a) as [L|L]; [eapply (clock_further m u a b); try eassumption; lia|].
  assert (N : forall n m', -2147483648 <= n < 0 -> calculate md (Addition (Moment m) (mk u n)) = Ok (Moment m') -> inst m' = inst m + n * unit_secs u).
  { intros n m' Hn E. destruct (add_negative md m u n Hm Hu Hn) as [O|(w & W & _ & _ & I)]; [exfalso; exact (not_oob _ _ O E)|]. rewrite W in E. injection E as <-. exact I. }
  rewrite (N a ma) by (assumption || lia). destruct (Z_lt_le_dec b 0) as [Q|Q].
  - rewrite (N b mb) by (assumption || lia). nia.
  - assert (M : inst m <= inst mb).
    { destruct (Z.eq_dec b 0) as [->|Z0].
      - pose proof (ahead_inst md m u 0 mb Hm Hu ltac:(lia) Hs E2) as I. destruct (clock_key m u 0 mb Hm Hu ltac:(lia) Hs E2) as [K _]. cbv zeta in K.
        destruct K as [_ K]; [|lia]. pose proof (doy_bounds _ _ _ (valid_date m Hm)). pose proof (sod_range m Hm). lia.
      - pose proof (add_forward md m u b mb Hm ltac:(lia) Hs E2). lia. }
    nia.
Qed.

(** A month on, or at the beginning of the month after that. *)
Lemma months_key : forall m n m', dt_valid m = true -> -2147483648 <= n -> n * unit_secs UMonth <= span32 ->
  calculate md (Addition (Moment m) (Months n)) = Ok (Moment m') ->
  exists y mo d s, m' = at_time y mo d (sod m) /\ representable y mo d = true /\ 12 * y + mo = 12 * year m + month m + n + s /\
    ((s = 0 /\ d = day m) \/ (s = 1 /\ d < day m)).
Proof.
  intros m n m' Hm Hn Hs E. destruct (valid_facts m Hm) as (Vy & Vmo & Vd & Vml & Vh & Vmi & Vs). cbn [unit_secs] in Hs.
  assert (Key : forall y mo d, built y mo d (sod m) = Ok (Moment m') -> m' = at_time y mo d (sod m) /\ representable y mo d = true).
  { intros y mo d Q. apply built_ok in Q as [P Q]. injection Q as ->. auto. }
  assert (Pos : 1 <= month m + n -> (exists y mo d, plus_months (year m) (month m) (day m) n = (y, mo, d) /\ built y mo d (sod m) = Ok (Moment m')) ->
    exists y mo d s, m' = at_time y mo d (sod m) /\ representable y mo d = true /\ 12 * y + mo = 12 * year m + month m + n + s /\ ((s = 0 /\ d = day m) \/ (s = 1 /\ d < day m))).
  { intros HM (y & mo & d & Q & F). destruct (Key _ _ _ F) as [K P]. unfold plus_months in Q. cbv zeta in Q.
    destruct (month m + n <=? 12) eqn:L1.
    - pose proof (month_length_bounds (year m) (month m + n) ltac:(lia)) as Bd.
      destruct (day m <=? month_length (year m) (month m + n)) eqn:L2; apply triple_eq in Q as (Q1 & Q2 & Q3).
      + exists y, mo, d, 0. repeat split; try assumption; lia.
      + exists y, mo, d, 1. repeat split; try assumption; lia.
    - destruct (day m <=? 30) eqn:L2; apply triple_eq in Q as (Q1 & Q2 & Q3).
      + exists y, mo, d, 0. repeat split; try assumption; lia.
      + exists y, mo, d, 1. repeat split; try assumption; lia. }
  destruct (Z_le_gt_dec 1 (month m + n)) as [HM|HM].
  - apply (Pos HM). destruct (Z_le_gt_dec 0 n) as [N|N].
    + rewrite add_months in E by (try assumption; unfold span32, i64_max in *; lia).
      destruct (plus_months (year m) (month m) (day m) n) as [[Y Mo] D] eqn:Q. exists Y, Mo, D. split; [reflexivity|].
      assert (W : wrap32 Y = Y).
      { apply wrap32_id. unfold plus_months in Q. cbv zeta in Q. unfold span32, min_year, max_year in *.
        destruct (month m + n <=? 12), (day m <=? _); apply triple_eq in Q as (Q1 & Q2 & Q3); lia. }
      rewrite W in E. exact E.
    + destruct (NegProofs.add_months_negative md m n Hm ltac:(lia)) as (X1 & X2 & _). cbv zeta in X1, X2. unfold plus_months. cbv zeta. replace (month m + n <=? 12) with true by lia.
      pose proof (sod_range m Hm) as R.
      assert (B : forall Mo D, 1 <= Mo <= 12 -> 1 <= D <= month_length (year m) Mo -> built (year m) Mo D (sod m) = Ok (Moment (mkdt (year m) Mo D (hour m) (minute m) (second m) 0))).
      { intros Mo D H1 H2. unfold built. replace (representable (year m) Mo D) with true by (symmetry; apply representable_iff; split; [assumption|apply date_exists_iff; lia]).
        unfold at_time. unfold sod. do 2 f_equal. f_equal; lia. }
      destruct (day m <=? month_length (year m) (month m + n)) eqn:L.
      * exists (year m), (month m + n), (day m). split; [reflexivity|]. rewrite <- E, X1 by lia. apply B; lia.
      * exists (year m), (month m + n + 1), (day m - month_length (year m) (month m + n)). split; [reflexivity|]. rewrite <- E, X2 by lia.
        pose proof (month_length_bounds (year m) (month m + n) ltac:(lia)). assert (month m + n <> 12) by (intro Q; rewrite Q in *; change (month_length (year m) 12) with 31 in *; lia).
        pose proof (month_length_bounds (year m) (month m + n + 1) ltac:(lia)). apply B; lia.
  - rewrite add_months_wide in E by (try assumption; unfold i64_min; lia). cbv zeta in E. unfold low32 in E.
    destruct (day m <=? 30) eqn:L; destruct (Key _ _ _ E) as [K P]; pose proof P as P'; apply representable_iff in P' as [_ P']; apply date_exists_iff in P'.
    + exfalso. lia.
    + exists (year m), ((month m + n + 1) mod 4294967296), 1, 1. repeat split; try assumption; try lia.
Qed.

Lemma years_key : forall m n m', dt_valid m = true -> -2147483648 <= n -> n * unit_secs UYear <= span32 ->
  calculate md (Addition (Moment m) (Years n)) = Ok (Moment m') -> year m' = year m + n.
Proof.
  intros m n m' Hm Hn Hs E. destruct (valid_facts m Hm) as (Vy & _). cbn [unit_secs] in Hs. unfold span32 in Hs.
  rewrite add_years in E by first [assumption | apply in_i64_iff; unfold i64_min, i64_max; lia | unfold i64_min, i64_max, min_year, max_year in *; lia].
  destruct (in_year (wrap32 (year m + n)) (month m) (day m)) as [[Y Mo] D] eqn:Q. apply built_ok in E as [P F]. injection F as ->. cbn [year at_time].
  assert (Y = wrap32 (year m + n)) as -> by (unfold in_year in Q; destruct (_ && _ && _); apply triple_eq in Q as (Q1 & _); lia).
  apply representable_iff in P as [P _]. apply year_near; [exact Hm|lia|exact P].
Qed.

Lemma add_further : forall m u a b ma mb, dt_valid m = true -> -2147483648 <= a < b -> b * unit_secs u <= span32 ->
  calculate md (Addition (Moment m) (mk u a)) = Ok (Moment ma) -> calculate md (Addition (Moment m) (mk u b)) = Ok (Moment mb) -> inst ma < inst mb.
Proof.
  intros m u a b ma mb Hm Hab Hs E1 E2. destruct (clock_unit u) eqn:Hu; [eapply clock_further_all; eassumption|].
  pose proof (sod_range m Hm) as R.
  destruct u; try discriminate Hu; cbn [mk] in E1, E2.
  - destruct (months_key m a ma Hm ltac:(lia) ltac:(cbn [unit_secs] in *; lia) E1) as (y & mo & d & s & -> & P & K & Q).
    destruct (months_key m b mb Hm ltac:(lia) Hs E2) as (y' & mo' & d' & s' & -> & P' & K' & Q'). apply at_lt; try assumption. lia.
  - pose proof (years_key m a ma Hm ltac:(lia) ltac:(cbn [unit_secs] in *; lia) E1) as Ya. pose proof (years_key m b mb Hm ltac:(lia) Hs E2) as Yb.
    cbn [unit_secs] in Hs. unfold span32 in Hs.
    apply OrdProofs.inst_lt_date; [| |left; lia].
    + apply (FarProofs.moment_valid md (Addition (Moment m) (mk UYear a))); [|exact E1]. apply FarProofs.plus_ok; [exact Hm|]. apply in_i64_iff. unfold i64_min, i64_max. lia.
    + apply (FarProofs.moment_valid md (Addition (Moment m) (mk UYear b))); [|exact E2]. apply FarProofs.plus_ok; [exact Hm|]. apply in_i64_iff. unfold i64_min, i64_max. lia.
Qed.

(** Amounts in any clock units. *)
Lemma trees_further : forall m s t ms mt, dt_valid m = true -> tt_ok s = true -> tt_ok t = true -> amount_only s = true -> amount_only t = true ->
  abs_secs s <= span32 -> abs_secs t <= span32 -> clock_unit (finest s) = true -> clock_unit (finest t) = true -> 0 <= secs s < secs t ->
  calculate md (Addition (Moment m) s) = Ok (Moment ms) -> calculate md (Addition (Moment m) t) = Ok (Moment mt) -> inst ms < inst mt.
Proof.
  intros m s t ms mt Hm Os Ot As At Bs Bt Us Ut L Es Et.
  destruct (valid_facts m Hm) as (Vy & Vmo & Vd & Vml & Vh & Vmi & Vs).
  assert (X : forall t mt, tt_ok t = true -> amount_only t = true -> abs_secs t <= span32 -> clock_unit (finest t) = true -> 0 <= secs t ->
    calculate md (Addition (Moment m) t) = Ok (Moment mt) -> secs t <= span32 /\ calculate md (Addition (Moment m) (mk USec (secs t))) = Ok (Moment mt)).
  { clear - Hm Vd Vh Vmi Vs. intros t mt Ot At Bt Ut L E. destruct (add_tree md m t Hm Ot At ltac:(unfold span32, i64_max in *; lia)) as (n & En & Hn & _ & E' & _).
    rewrite E' in E. pose proof (secs_abs t) as Sa. split; [lia|]. rewrite <- E.
    assert (Uf : 1 <= unit_secs (finest t) <= 86400) by (destruct (finest t); try discriminate Ut; cbn; lia).
    apply same_add; try assumption; try reflexivity.
    - nia.
    - cbn [unit_secs]. lia.
    - cbn [field]. unfold span32, i64_max in *. lia.
    - assert (n <= span32) by nia. unfold span32, i64_max in *. destruct (finest t); try discriminate Ut; cbn [field]; lia. }
  destruct (X s ms Os As Bs Us ltac:(lia) Es) as [X1 X2]. destruct (X t mt Ot At Bt Ut ltac:(lia) Et) as [X3 X4].
  apply (clock_further m USec (secs s) (secs t)); try assumption; [reflexivity|cbn [unit_secs]; lia].
Qed.

(** ** Differences *)
Lemma sub_further : forall m u a b ma mb, dt_valid m = true -> -2147483648 <= a < b -> b < 2147483648 ->
  calculate md (Subtraction (Moment m) (mk u a)) = Ok (Moment ma) -> calculate md (Subtraction (Moment m) (mk u b)) = Ok (Moment mb) -> inst mb < inst ma.
Proof.
  intros m u a b ma mb Hm Ha Hb E1 E2. destruct (valid_facts m Hm) as (Vy & Vmo & Vd & Vml & Vh & Vmi & Vs). pose proof (sod_range m Hm) as R.
  assert (Per : u <> UYear -> 2147483648 < period u) by (destruct u; cbn [period]; lia || (intros []; reflexivity)).
  destruct (clock_unit u) eqn:Hu.
  - assert (Nu : u <> UYear) by (intros ->; discriminate Hu). specialize (Per Nu).
    assert (Us : 1 <= unit_secs u) by (destruct u; try discriminate Hu; cbn; lia).
    assert (Dn : u = UDay \/ 0 < modulus u /\ u <> UDay) by (destruct u; try discriminate Hu; cbn [modulus]; try (right; split; [lia|discriminate]); left; reflexivity).
    assert (N : forall n m', -2147483648 <= n < 0 -> calculate md (Subtraction (Moment m) (mk u n)) = Ok (Moment m') -> inst m' = inst m - n * unit_secs u).
    { intros n m' Hn E. destruct (sub_negative md m u n Hm Hu Hn) as [O|(w & W & _ & _ & I)]; [exfalso; exact (not_oob _ _ O E)|]. rewrite W in E. injection E as <-. exact I. }
    assert (Tk : forall n, 0 <= n -> n <= taken u n m).
    { intros n Hn. unfold taken, skip_count. assert (0 <= modulus u) by (destruct u; cbn; lia). destruct (_ && _); nia. }
    (* against the moment itself *)
    assert (Self : built3 (back_day (year m) (month m) (day m)) (sod m) = Ok (Moment (at_time (year m) (month m) (day m) (sod m)))).
    { unfold back_day. replace (1 <=? day m) with true by lia. cbn [built3]. unfold built.
      replace (representable (year m) (month m) (day m)) with true; [reflexivity|]. symmetry. apply representable_iff. split; [lia|apply valid_date; exact Hm]. }
    assert (Down : forall n m', 0 <= n < 2147483648 -> calculate md (Subtraction (Moment m) (mk u n)) = Ok (Moment m') -> inst m' <= inst m).
    { intros n m' Hn E. destruct (Z.eq_dec n 0) as [->|Z0].
      - apply clock_back in E; [|exact Hm|exact Hu|lia].
        assert (T0 : taken u 0 m = 0).
        { unfold taken, skip_count, sub_skips. destruct u; try discriminate Hu; cbn [clock_unit andb field modulus]; try (replace (_ =? _) with false by lia); reflexivity. }
        rewrite T0 in E. apply back_exact in E; [|lia|lia]. replace (sod m - 0) with (sod m) in E by lia. rewrite Z.div_small in E by lia.
        replace (1 <=? day m + 0) with true in E by lia. rewrite Z.mod_small in E by lia. rewrite E, inst_sod. unfold day_number. lia.
      - apply clock_back in E; [|exact Hm|exact Hu|lia]. specialize (Tk n ltac:(lia)).
        assert (Q : inst m' < inst (at_time (year m) (month m) (day m) (sod m))).
        { eapply back_order; [| | | | | |exact E|exact Self]; try lia. unfold day_number. lia. }
        rewrite inst_at in Q by exact R. rewrite (inst_sod m). lia. }
    destruct (Z_lt_le_dec a 0) as [La|La].
    + rewrite (N a ma) by (assumption || lia). destruct (Z_lt_le_dec b 0) as [Lb|Lb].
      * rewrite (N b mb) by (assumption || lia). nia.
      * pose proof (Down b mb ltac:(lia) E2). nia.
    + assert (Sk : skip_count u a m = 0).
      { unfold skip_count. rewrite Hu. cbn [andb]. destruct (sub_skips u a m) eqn:S; [exfalso|reflexivity].
        destruct Dn as [-> | [Mp Du]]; [discriminate S|]. assert (X : field u m - a = - modulus u) by (destruct u; try discriminate Hu; cbn [sub_skips] in S; lia || (exfalso; apply Du; reflexivity)).
        destruct (sub_far md m u b Hm Hu Du ltac:(lia)) as (_ & _ & O). cbv zeta in O. exact (not_oob _ _ (O ltac:(lia)) E2). }
      assert (Tt : taken u a m < taken u b m).
      { unfold taken. rewrite Sk. assert (0 <= skip_count u b m * modulus u) by (unfold skip_count; destruct (_ && _); destruct u; cbn; lia). nia. }
      apply clock_back in E1; [|exact Hm|exact Hu|lia]. apply clock_back in E2; [|exact Hm|exact Hu|lia].
      eapply back_order; [| | | | | |exact E2|exact E1]; try lia. unfold day_number. lia.
  - destruct u; try discriminate Hu; cbn [mk] in E1, E2.
    + assert (Key : forall n m', -2147483648 <= n < 2147483648 -> calculate md (Subtraction (Moment m) (Months n)) = Ok (Moment m') ->
        exists y mo, m' = at_time y mo (day m) (sod m) /\ representable y mo (day m) = true /\ 12 * y + mo = 12 * year m + month m - n).
      { intros n m' Hn E.
        assert (K : forall y mo, built y mo (day m) (sod m) = Ok (Moment m') -> m' = at_time y mo (day m) (sod m) /\ representable y mo (day m) = true).
        { intros y mo Q. apply built_ok in Q as [P Q]. injection Q as ->. auto. }
        destruct (Z_lt_le_dec n 0) as [L|L].
        - pose proof (sub_negative_wide md m UMonth n Hm ltac:(discriminate) ltac:(unfold i64_min; lia) ltac:(cbn [field]; unfold i64_max; lia)) as X. cbv zeta in X. cbn [mk field] in X.
          rewrite X in E. unfold low32 in E. rewrite Z.mod_small in E by lia. destruct (K _ _ E) as [K1 K2]. exists (year m), (month m - n). repeat split; try assumption. lia.
        - destruct (sub_months md m n Hm ltac:(lia)) as (X & Y & Z). cbv zeta in X, Y, Z.
          destruct (Z_lt_le_dec (month m - n) (-11)) as [Q|Q]; [exfalso; exact (not_oob _ _ (Z Q) E)|].
          destruct (Z_le_gt_dec 1 (month m - n)) as [Q'|Q'].
          + rewrite (X Q') in E. destruct (K _ _ E) as [K1 K2]. exists (year m), (month m - n). repeat split; try assumption. lia.
          + rewrite (Y ltac:(lia)) in E. destruct (K _ _ E) as [K1 K2]. exists (year m - 1), (month m - n + 12). repeat split; try assumption. lia. }
      destruct (Key a ma ltac:(lia) E1) as (y & mo & -> & P & Q). destruct (Key b mb ltac:(lia) E2) as (y' & mo' & -> & P' & Q'). apply at_lt; try assumption. lia.
    + assert (Key : forall n m', -2147483648 <= n < 2147483648 -> calculate md (Subtraction (Moment m) (Years n)) = Ok (Moment m') ->
        exists y, m' = at_time y (month m) (day m) (sod m) /\ representable y (month m) (day m) = true /\ y = year m - n).
      { intros n m' Hn E. rewrite sub_years in E by first [assumption | apply in_i64_iff; unfold i64_min, i64_max; lia | unfold i64_min, i64_max, min_year, max_year in *; lia].
        apply built_ok in E as [P Q]. injection Q as ->. exists (wrap32 (year m - n)). split; [reflexivity|]. split; [exact P|]. apply representable_iff in P as [P _].
        replace (year m - n) with (year m + - n) in * by lia. apply year_near; [exact Hm|lia|exact P]. }
      destruct (Key a ma ltac:(lia) E1) as (y & -> & P & Q). destruct (Key b mb ltac:(lia) E2) as (y' & -> & P' & Q'). apply at_lt; try assumption. lia.
Qed.
End Dh.
