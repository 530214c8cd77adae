(** Proofs about the order of sums and differences (C18, C112). *)
Require Import ZArith Bool List Lia ZifyBool.
From Verif Require Import Prelude Spec Chrono Util TimeType SpecTree SpecMoment SpecExact SpecWide SpecOrder PreludeProofs CalendarProofs EvalProofs AmountProofs AddProofs AddProofs2 SubProofs WideProofs2.
Local Open Scope Z_scope.
Ltac Zify.zify_post_hook ::= Z.div_mod_to_equations.

Lemma dn_lt : forall y mo d y' mo' d', date_exists y mo d = true -> date_exists y' mo' d' = true ->
  12 * y + mo < 12 * y' + mo' -> day_number y mo d < day_number y' mo' d'.
Proof.
  intros y mo d y' mo' d' H H' L. apply day_number_lt_iff; [assumption|assumption|].
  apply date_exists_iff in H. apply date_exists_iff in H'. lia.
Qed.

Lemma prev_index : forall y mo py pm, 1 <= mo <= 12 -> prev_month y mo = (py, pm) -> 12 * py + pm = 12 * y + mo - 1 /\ 1 <= pm <= 12.
Proof. intros y mo py pm H E. unfold prev_month in E. destruct (mo =? 1) eqn:Q; injection E as <- <-; lia. Qed.
Lemma ml_31 : forall y mo, 1 <= mo <= 12 -> month_length y mo <= 31.
Proof. intros y mo H. pose proof (month_length_bounds y mo H). lia. Qed.

(** Going back keeps the order of the true days. *)
Lemma back_order : forall y1 mo1 D1 r1 y2 mo2 D2 r2 m1' m2', 1 <= mo1 <= 12 -> 1 <= mo2 <= 12 -> 12 * y1 + mo1 <= 12 * y2 + mo2 ->
  0 <= r1 < 86400 -> 0 <= r2 < 86400 -> day_number y1 mo1 D1 * 86400 + r1 < day_number y2 mo2 D2 * 86400 + r2 ->
  built3 (back_day y1 mo1 D1) r1 = Ok (Moment m1') -> built3 (back_day y2 mo2 D2) r2 = Ok (Moment m2') -> inst m1' < inst m2'.
Proof.
  intros y1 mo1 D1 r1 y2 mo2 D2 r2 m1' m2' M1 M2 L R1 R2 T E1 E2.
  pose proof (back_exact _ _ _ _ _ M1 R1 E1) as X1. pose proof (back_exact _ _ _ _ _ M2 R2 E2) as X2.
  apply built3_ok in E1 as (a & b & c & B1 & P1 & Q1). apply built3_ok in E2 as (a' & b' & c' & B2 & P2 & Q2).
  injection Q1 as Q1. injection Q2 as Q2. apply representable_iff in P1 as [_ P1]. apply representable_iff in P2 as [_ P2].
  assert (I1 : inst m1' = day_number a b c * 86400 + r1) by (rewrite Q1; apply inst_at; exact R1).
  assert (I2 : inst m2' = day_number a' b' c' * 86400 + r2) by (rewrite Q2; apply inst_at; exact R2).
  unfold back_day in B1, B2. destruct (prev_month y1 mo1) as [py1 pm1] eqn:V1. destruct (prev_month y2 mo2) as [py2 pm2] eqn:V2.
  destruct (prev_index _ _ _ _ M1 V1) as [J1 K1]. destruct (prev_index _ _ _ _ M2 V2) as [J2 K2].
  pose proof (ml_31 py1 pm1 K1). pose proof (ml_31 py2 pm2 K2).
  assert (Same : 12 * y1 + mo1 = 12 * y2 + mo2 -> y1 = y2 /\ mo1 = mo2) by lia.
  destruct (1 <=? D1) eqn:G1, (1 <=? D2) eqn:G2; apply triple_eq in B1 as (A1 & A2 & A3); apply triple_eq in B2 as (A1' & A2' & A3').
  - lia.
  - lia.
  - assert (day_number a b c < day_number a' b' c') by (apply dn_lt; [assumption|assumption|lia]). lia.
  - destruct (Z.eq_dec (12 * y1 + mo1) (12 * y2 + mo2)) as [Q|Q].
    + destruct (Same Q) as [S1 S2]. rewrite <- S1, <- S2 in V2. rewrite V1 in V2. injection V2 as V2 V3. rewrite <- V2, <- V3 in X2. lia.
    + assert (day_number a b c < day_number a' b' c') by (apply dn_lt; [assumption|assumption|lia]). lia.
Qed.

Section Dh.
Variable md : mode.

(** ** Differences *)
Lemma sub_reduce : forall m u n m', dt_valid m = true -> u <> UYear -> 0 <= n <= i64_max ->
  calculate md (Subtraction (Moment m) (mk u n)) = Ok (Moment m') -> calculate md (Subtraction (Moment m) (mk u (n mod period u))) = Ok (Moment m').
Proof.
  intros m u n m' Hm Hu Hn E. destruct (Z_lt_le_dec n 2147483648) as [L|L].
  - rewrite Z.mod_small by (destruct u; cbn [period]; lia). exact E.
  - apply (sub_round md m u n m' Hm Hu ltac:(lia)) in E. apply E.
Qed.

Lemma clock_back : forall m u n m', dt_valid m = true -> clock_unit u = true -> 0 <= n < period u ->
  calculate md (Subtraction (Moment m) (mk u n)) = Ok (Moment m') ->
  built3 (back_day (year m) (month m) (day m + (sod m - taken u n m) / 86400)) ((sod m - taken u n m) mod 86400) = Ok (Moment m').
Proof.
  intros m u n m' Hm Hu Hn E. pose proof (sod_range m Hm) as R.
  assert (NO : forall r, oob r -> r = Ok (Moment m') -> False).
  { intros r (a & b & c & d & e & f & O) Q. rewrite O in Q. discriminate Q. }
  destruct (match u with UDay => true | _ => false end) eqn:Du.
  - destruct u; try discriminate Du. destruct (sub_far_days md m n Hm Hn) as [X Y]. cbv zeta in X, Y. cbn [mk] in E.
    unfold taken, skip_count, sub_skips. cbn [clock_unit andb modulus unit_secs].
    destruct (Z_lt_le_dec (day m - n) (-30)) as [L|L]; [exfalso; exact (NO _ (Y L) E)|].
    replace ((sod m - (n + 0 * 0) * 86400) / 86400) with (- n) by lia. replace ((sod m - (n + 0 * 0) * 86400) mod 86400) with (sod m) by lia.
    replace (day m + - n) with (day m - n) by lia. rewrite <- (X L). exact E.
  - assert (Dn : u <> UDay) by (intros ->; discriminate Du).
    destruct (sub_far md m u n Hm Hu Dn Hn) as (X & Y & Z). cbv zeta in X, Y, Z.
    assert (SK : sub_skips u n m = (field u m - n =? - modulus u)) by (destruct u; try discriminate Hu; try discriminate Du; reflexivity).
    unfold taken, skip_count. rewrite Hu, SK. cbn [andb].
    destruct (field u m - n =? - modulus u) eqn:Q.
    + replace (sod m - (n + 1 * modulus u) * unit_secs u) with (sod m - n * unit_secs u - modulus u * unit_secs u) by lia. rewrite <- Y by lia. exact E.
    + replace (sod m - (n + 0 * modulus u) * unit_secs u) with (sod m - n * unit_secs u) by lia.
      destruct (Z_lt_le_dec (field u m - n) (- modulus u)) as [L|L]; [exfalso; exact (NO _ (Z L) E)|]. rewrite <- X by lia. exact E.
Qed.

Lemma clock_back_inst : forall m u n m', dt_valid m = true -> clock_unit u = true -> 0 <= n < period u ->
  calculate md (Subtraction (Moment m) (mk u n)) = Ok (Moment m') -> inst m' = inst m - taken u n m + given_back u n m.
Proof.
  intros m u n m' Hm Hu Hn E. destruct (valid_facts m Hm) as (Vy & Vmo & _).
  apply clock_back in E; try assumption. apply back_exact in E; [|lia|apply Z.mod_pos_bound; lia]. rewrite E, inst_sod. unfold given_back.
  destruct (1 <=? _); [|destruct (prev_month (year m) (month m)) as [py pm]]; unfold day_number; lia.
Qed.

Lemma index_le : forall a b, dt_valid a = true -> dt_valid b = true -> inst a <= inst b -> 12 * year a + month a <= 12 * year b + month b.
Proof. intros a b Ha Hb H. destruct (month_index_le a b Ha Hb H) as [L|(L & L' & _)]; lia. Qed.

Lemma clock_order : forall u n m1 m2 m1' m2', clock_unit u = true -> 0 <= n < period u -> dt_valid m1 = true -> dt_valid m2 = true -> inst m1 < inst m2 ->
  calculate md (Subtraction (Moment m1) (mk u n)) = Ok (Moment m1') -> calculate md (Subtraction (Moment m2) (mk u n)) = Ok (Moment m2') ->
  inst m1 - taken u n m1 < inst m2 - taken u n m2 -> inst m1' < inst m2'.
Proof.
  intros u n m1 m2 m1' m2' Hu Hn H1 H2 L E1 E2 T.
  destruct (valid_facts m1 H1) as (Vy & Vmo & _). destruct (valid_facts m2 H2) as (Wy & Wmo & _).
  pose proof (index_le m1 m2 H1 H2 ltac:(lia)) as I. rewrite !inst_sod in T.
  apply clock_back in E1; try assumption. apply clock_back in E2; try assumption.
  eapply back_order; [| |exact I| | | |exact E1|exact E2]; try lia.
  unfold day_number in *. lia.
Qed.

(** Seconds, minutes and hours: unless the second of the moments, but not the first, loses one more of the next unit. *)
Lemma order_clock : forall u n m1 m2 m1' m2', clock_unit u = true -> 0 <= n <= i64_max -> dt_valid m1 = true -> dt_valid m2 = true -> inst m1 < inst m2 ->
  calculate md (Subtraction (Moment m1) (mk u n)) = Ok (Moment m1') -> calculate md (Subtraction (Moment m2) (mk u n)) = Ok (Moment m2') ->
  (sub_skips u (n mod period u) m2 = true -> sub_skips u (n mod period u) m1 = true) -> inst m1' < inst m2'.
Proof.
  intros u n m1 m2 m1' m2' Hu Hn H1 H2 L E1 E2 S.
  assert (U : u <> UYear) by (intros ->; discriminate Hu).
  assert (Pp : 0 < period u) by (destruct u; cbn [period]; lia). pose proof (Z.mod_pos_bound n (period u) Pp) as B.
  eapply clock_order; [exact Hu|exact B|exact H1|exact H2|exact L|apply sub_reduce; try assumption|apply sub_reduce; try assumption|].
  unfold taken, skip_count. rewrite Hu. cbn [andb].
  assert (0 <= modulus u * unit_secs u) by (destruct u; cbn; lia).
  destruct (sub_skips u (n mod period u) m1) eqn:A, (sub_skips u (n mod period u) m2) eqn:A'; try lia.
Qed.

Lemma order_clock_exactly : forall u n m1 m2 m1' m2', clock_unit u = true -> 0 <= n <= i64_max -> dt_valid m1 = true -> dt_valid m2 = true ->
  calculate md (Subtraction (Moment m1) (mk u n)) = Ok (Moment m1') -> calculate md (Subtraction (Moment m2) (mk u n)) = Ok (Moment m2') ->
  let k := n mod period u in
  inst m2' - inst m1' = (inst m2 - inst m1) - (taken u k m2 - taken u k m1) + (given_back u k m2 - given_back u k m1).
Proof.
  intros u n m1 m2 m1' m2' Hu Hn H1 H2 E1 E2 k.
  assert (U : u <> UYear) by (intros ->; discriminate Hu).
  assert (Pp : 0 < period u) by (destruct u; cbn [period]; lia). pose proof (Z.mod_pos_bound n (period u) Pp) as B.
  apply sub_reduce in E1; try assumption. apply sub_reduce in E2; try assumption.
  rewrite (clock_back_inst _ _ _ _ H1 Hu B E1), (clock_back_inst _ _ _ _ H2 Hu B E2). subst k. lia.
Qed.

(** Days, months and years: always. *)
Lemma wrap_same : forall a b, min_year <= wrap32 a <= max_year -> min_year <= wrap32 b <= max_year -> -600000 <= b - a <= 600000 -> wrap32 b - wrap32 a = b - a.
Proof. intros a b A B C. unfold wrap32, min_year, max_year in *. lia. Qed.

Lemma order_dates : forall u n m1 m2 m1' m2', u = UDay \/ u = UMonth \/ u = UYear -> 0 <= n < 2 ^ 62 -> dt_valid m1 = true -> dt_valid m2 = true -> inst m1 < inst m2 ->
  calculate md (Subtraction (Moment m1) (mk u n)) = Ok (Moment m1') -> calculate md (Subtraction (Moment m2) (mk u n)) = Ok (Moment m2') ->
  inst m1' < inst m2'.
Proof.
  intros u n m1 m2 m1' m2' Hu Hn H1 H2 L E1 E2.
  assert (Hi : 0 <= n <= i64_max) by (unfold i64_max; lia).
  pose proof (sod_range m1 H1) as R1. pose proof (sod_range m2 H2) as R2.
  destruct (valid_facts m1 H1) as (Vy & Vmo & _). destruct (valid_facts m2 H2) as (Wy & Wmo & _).
  assert (Lex : forall y1 mo1 y2 mo2, 1 <= mo1 <= 12 -> 1 <= mo2 <= 12 -> (12 * y2 + mo2) - (12 * y1 + mo1) = (12 * year m2 + month m2) - (12 * year m1 + month m1) ->
    built y1 mo1 (day m1) (sod m1) = Ok (Moment m1') -> built y2 mo2 (day m2) (sod m2) = Ok (Moment m2') -> inst m1' < inst m2').
  { intros y1 mo1 y2 mo2 B1 B2 I F1 F2. apply built_ok in F1 as [P1 Q1]. apply built_ok in F2 as [P2 Q2]. injection Q1 as ->. injection Q2 as ->.
    rewrite !inst_at by assumption. apply representable_iff in P1 as [_ P1]. apply representable_iff in P2 as [_ P2].
    pose proof (index_le m1 m2 H1 H2 ltac:(lia)) as IL.
    destruct (Z.eq_dec (12 * y1 + mo1) (12 * y2 + mo2)) as [Q|Q].
    - assert (y1 = y2) by lia. assert (mo1 = mo2) by lia. assert (year m1 = year m2) by lia. assert (month m1 = month m2) by lia. subst y2 mo2.
      rewrite !inst_sod in L. replace (year m2) with (year m1) in L by lia. replace (month m2) with (month m1) in L by lia. unfold day_number in *. lia.
    - assert (day_number y1 mo1 (day m1) < day_number y2 mo2 (day m2)) by (apply dn_lt; [assumption|assumption|lia]). lia. }
  destruct Hu as [-> | [-> | ->]].
  - apply (order_clock UDay n m1 m2); try assumption; [reflexivity|]. intro Q. discriminate Q.
  - assert (Pp : 0 < period UMonth) by (cbn [period]; lia). pose proof (Z.mod_pos_bound n (period UMonth) Pp) as B.
    apply sub_reduce in E1; try assumption; try discriminate. apply sub_reduce in E2; try assumption; try discriminate.
    revert B E1 E2. generalize (n mod period UMonth). intros k B E1 E2.
    assert (NO : forall r v, oob r -> r = Ok (Moment v) -> False).
    { intros r v (a & b & c & d & e & f & O) Q. rewrite O in Q. discriminate Q. }
    destruct (sub_far_months md m1 k H1 B) as (X & Y & Z). destruct (sub_far_months md m2 k H2 B) as (X' & Y' & Z'). cbv zeta in *. cbn [mk] in E1, E2.
    assert (C1 : 1 <= month m1 - k \/ -11 <= month m1 - k <= 0).
    { destruct (Z_lt_le_dec (month m1 - k) (-11)) as [Q|Q]; [exfalso; exact (NO _ _ (Z Q) E1)|lia]. }
    assert (C2 : 1 <= month m2 - k \/ -11 <= month m2 - k <= 0).
    { destruct (Z_lt_le_dec (month m2 - k) (-11)) as [Q|Q]; [exfalso; exact (NO _ _ (Z' Q) E2)|lia]. }
    destruct C1 as [C1|C1], C2 as [C2|C2].
    + rewrite (X C1) in E1. rewrite (X' C2) in E2. eapply Lex; [| | |exact E1|exact E2]; lia.
    + rewrite (X C1) in E1. rewrite (Y' C2) in E2. eapply Lex; [| | |exact E1|exact E2]; lia.
    + rewrite (Y C1) in E1. rewrite (X' C2) in E2. eapply Lex; [| | |exact E1|exact E2]; lia.
    + rewrite (Y C1) in E1. rewrite (Y' C2) in E2. eapply Lex; [| | |exact E1|exact E2]; lia.
  - cbn [mk] in E1, E2. unfold min_year, max_year in Vy, Wy.
    rewrite sub_years in E1 by first [assumption | apply in_i64_iff; unfold i64_min, i64_max; lia | unfold i64_min, i64_max; lia].
    rewrite sub_years in E2 by first [assumption | apply in_i64_iff; unfold i64_min, i64_max; lia | unfold i64_min, i64_max; lia].
    eapply Lex; [| | |exact E1|exact E2]; [lia|lia|].
    apply built_ok in E1 as [P1 _]. apply built_ok in E2 as [P2 _]. apply representable_iff in P1 as [P1 _]. apply representable_iff in P2 as [P2 _].
    pose proof (wrap_same _ _ P1 P2 ltac:(lia)). lia.
Qed.

(** Negative amounts keep the distance. *)
Lemma order_negative : forall u n m1 m2 m1' m2', clock_unit u = true -> -2147483648 <= n < 0 -> dt_valid m1 = true -> dt_valid m2 = true ->
  calculate md (Subtraction (Moment m1) (mk u n)) = Ok (Moment m1') -> calculate md (Subtraction (Moment m2) (mk u n)) = Ok (Moment m2') ->
  inst m2' - inst m1' = inst m2 - inst m1.
Proof.
  intros u n m1 m2 m1' m2' Hu Hn H1 H2 E1 E2.
  assert (X : forall m m', dt_valid m = true -> calculate md (Subtraction (Moment m) (mk u n)) = Ok (Moment m') -> inst m' = inst m - n * unit_secs u).
  { intros m m' Hm E. destruct (sub_negative md m u n Hm Hu Hn) as [(a & b & c & d & e & f & O)|(w & W & _ & _ & I)]; [rewrite O in E; discriminate E|].
    rewrite W in E. injection E as <-. exact I. }
  rewrite (X m1 m1'), (X m2 m2') by assumption. lia.
Qed.

(** ** Sums *)
Lemma ahead_inst : forall m u n m', dt_valid m = true -> clock_unit u = true -> 0 <= n -> n * unit_secs u <= span32 ->
  calculate md (Addition (Moment m) (mk u n)) = Ok (Moment m') -> inst m' = inst m + n * unit_secs u + ahead u n m.
Proof.
  intros m u n m' Hm Hu Hn Hs E. destruct (valid_facts m Hm) as (Vy & Vmo & Vd & Vml & Vh & Vmi & Vs).
  assert (Us : 1 <= unit_secs u) by (destruct u; try discriminate Hu; cbn; lia).
  destruct (add_clock md m u n Hm Hu Hn ltac:(unfold span32, i64_max in *; destruct u; try discriminate Hu; cbn [field unit_secs] in *; lia)) as [A B]. cbv zeta in A, B.
  pose proof (sod_range m Hm) as R. pose proof (inst_sod m) as Is.
  set (T := sod m + n * unit_secs u) in *. set (K := days_before (year m) (month m) + day m + T / 86400) in *.
  assert (Y : day_number (year m + 1) 1 1 = day_number (year m) (month m) (day m) - days_before (year m) (month m) - day m + year_length (year m) + 1).
  { rewrite <- (day_number_month13 (year m) 1). unfold day_number. rewrite days_before_13. lia. }
  assert (Ep : days_past u n m = K - year_length (year m) - 1).
  { unfold days_past. rewrite Y, Is. subst K T. lia. }
  unfold ahead. rewrite Ep. destruct (Z_le_gt_dec K (year_length (year m))) as [L|L].
  - destruct (A L) as (mo' & d' & _ & D & Q). rewrite Q in E. injection E as <-. rewrite inst_at by lia.
    replace (K - year_length (year m) - 1 <? 0) with true by lia. unfold day_number in *. lia.
  - rewrite (B ltac:(lia)) in E. apply built_ok in E as [P Q]. injection Q as ->. rewrite inst_at by lia.
    replace (K - year_length (year m) - 1 <? 0) with false by lia.
    assert (W : wrap32 (year m + 1 + (K - year_length (year m) - 1) / 360) = year m + 1 + (K - year_length (year m) - 1) / 360).
    { apply wrap32_id. pose proof (year_length_bounds (year m)).
      assert (days_before (year m) (month m) + day m <= 366) by (pose proof (doy_bounds _ _ _ (valid_date m Hm)); lia).
      unfold span32, min_year, max_year in *. subst K T. lia. }
    rewrite W. set (e := K - year_length (year m) - 1) in *. lia.
Qed.

Lemma add_order_exactly : forall u n m1 m2 m1' m2', dt_valid m1 = true -> dt_valid m2 = true -> clock_unit u = true -> 0 <= n -> n * unit_secs u <= span32 ->
  calculate md (Addition (Moment m1) (mk u n)) = Ok (Moment m1') -> calculate md (Addition (Moment m2) (mk u n)) = Ok (Moment m2') ->
  (inst m2' < inst m1' <-> inst m2 - inst m1 < ahead u n m1 - ahead u n m2).
Proof.
  intros u n m1 m2 m1' m2' H1 H2 Hu Hn Hs E1 E2.
  rewrite (ahead_inst _ _ _ _ H1 Hu Hn Hs E1), (ahead_inst _ _ _ _ H2 Hu Hn Hs E2). lia.
Qed.
End Dh.
