(** How often the bodies of the loops of src/util.rs are executed during an evaluation. *)
Require Import ZArith Bool List Lia ZifyBool.
From Verif Require Import Prelude Spec Chrono Util TimeType SpecMoment SpecTree SpecCalls SpecTurns
  PreludeProofs CalendarProofs LoopProofs EvalProofs AddProofs.
Import ListNotations.
Local Open Scope Z_scope.
Ltac Zify.zify_post_hook ::= Z.div_mod_to_equations.

Lemma runs_while : forall E S (c : S -> bool) (f : S -> outcome E S) s k s', runs c f s k s' -> Z.of_nat k < 18446744073709551616 -> while c f s = Ok s'.
Proof.
  intros E S c f s k s' H K. apply (wrun_while c f s (Ok s') (Datatypes.S k)); [|lia].
  clear K. induction H; [apply wstop; assumption|eapply wstep; eassumption].
Qed.
Lemma wrun_runs : forall E S (c : S -> bool) (f : S -> outcome E S) s r j, wrun c f s r j -> forall s', r = Ok s' -> exists k, j = Datatypes.S k /\ runs c f s k s'.
Proof.
  intros E S c f s r j H. induction H as [s H|s t r n C F W IH|s r C F N]; intros s' R.
  - inversion R; subst. exists 0%nat. split; [reflexivity|]. apply runs_stop. assumption.
  - destruct (IH s' R) as (k & -> & K). exists (Datatypes.S k). split; [reflexivity|]. eapply runs_step; eassumption.
  - exfalso. exact (N s' R).
Qed.
Lemma runs_unique : forall E S (c : S -> bool) (f : S -> outcome E S) s k e, runs c f s k e -> forall k' e', runs c f s k' e' -> k = k' /\ e = e'.
Proof.
  intros E S c f s k e H. induction H as [s H|s s1 k s2 H1 H2 H3 IH]; intros k' e' K; inversion K; subst; try congruence.
  - auto.
  - rewrite H2 in H0. inversion H0; subst. destruct (IH _ _ H4). subst. auto.
Qed.

Section Turns.
Variable md : mode.

Lemma loops_eq : forall y mo d h mi s, @adjust_times_add kek md y mo d h mi s =
  do (d, h, mi, s) <- carried md d h mi s; do (d, mo) <- while (long_month y) (next_month md y) (d, mo);
  do (y, mo) <- while late_month (next_year md) (y, mo); Ok (y, mo, d, h, mi, s).
Proof.
  intros. unfold adjust_times_add, carried.
  destruct (fix_carry md s 60 mi) as [[a1 b1]| | |]; cbn [bind]; try reflexivity.
  destruct (fix_carry md a1 60 h) as [[a2 b2]| | |]; cbn [bind]; try reflexivity.
  destruct (fix_carry md a2 24 d) as [[a3 b3]| | |]; cbn [bind]; reflexivity.
Qed.

Lemma adjust_unique : forall y mo d h mi s k k', adjust_turns md y mo d h mi s k -> adjust_turns md y mo d h mi s k' -> k = k'.
Proof.
  intros y mo d h mi s k k' H K. unfold adjust_turns in *. destruct (carried md d h mi s) as [[[[d0 h0] mi0] s0]| | |]; try congruence.
  destruct H as (k1 & d1 & mo1 & k2 & e1 & A1 & A2 & ->). destruct K as (k3 & d3 & mo3 & k4 & e3 & B1 & B2 & ->).
  destruct (runs_unique _ _ _ _ _ _ _ A1 _ _ B1) as [-> X]. inversion X; subst.
  destruct (runs_unique _ _ _ _ _ _ _ A2 _ _ B2) as [-> _]. reflexivity.
Qed.
Lemma call_unique : forall c k k', call_turns md c k -> call_turns md c k' -> k = k'.
Proof.
  intros c k k' H K. destruct c; cbn [call_turns] in *; try congruence.
  match type of H with context [match ?t with _ => _ end] => destruct t end; try congruence;
  unfold given in *; match type of H with context [match ?t with _ => _ end] => destruct t end; try congruence; eapply adjust_unique; eassumption.
Qed.
Lemma total_unique : forall n c k k', total_turns md n c k -> total_turns md n c k' -> k = k'.
Proof.
  intros n c k k' (ks & H & ->) (ks' & K & ->). f_equal. revert ks' K. induction H as [|c' x l ks X H IH]; intros ks' K; inversion K; subst; [reflexivity|].
  f_equal; [eapply call_unique; eassumption|apply IH; assumption].
Qed.
Lemma all_calls_length : forall n c, length (all_calls md n c) = calls md n c.
Proof.
  induction n as [|n IH]; intro c; [reflexivity|]. cbn [all_calls calls length]. f_equal.
  induction (subcalls (run md n) c) as [|q l IHl]; [reflexivity|]. cbn [flat_map map list_sum fold_right]. rewrite app_length, IH, IHl. reflexivity.
Qed.

Lemma month_count : forall y k d mo d' mo', runs (long_month y) (next_month md y) (d, mo) k (d', mo') -> i64_min <= mo -> mo + Z.of_nat k <= i64_max ->
  mo' = mo + Z.of_nat k.
Proof.
  intros y k. induction k as [|k IH]; intros d mo d' mo' H A B; inversion H; subst; [lia|].
  unfold next_month in H2. destruct (subc md (Ok d) (Ok (get_num_of_days_in_month y mo))) as [x| | |]; cbn [bind] in H2; try discriminate.
  unfold addc in H2. cbn [bind] in H2. rewrite arith_ok in H2 by (unfold i64_min, i64_max in *; lia). cbn [bind] in H2. inversion H2; subst.
  apply IH in H4; lia.
Qed.

(** Seconds, minutes, hours, days. *)
Lemma adjust_clock_turns : forall y mo d h mi s,
  min_year <= y <= max_year -> 1 <= mo <= 12 -> 1 <= d -> 0 <= h -> 0 <= mi -> 0 <= s ->
  s <= i64_max -> mi + s / 60 <= i64_max -> h + (mi + s / 60) / 60 <= i64_max ->
  d + (h * 3600 + mi * 60 + s) / 86400 <= i64_max ->
  let K := days_before y mo + d + (h * 3600 + mi * 60 + s) / 86400 in
  exists k, adjust_turns md y mo d h mi s k /\
  (K <= year_length y -> 0 <= Z.of_nat k <= 12 - mo /\ days_before y (mo + Z.of_nat k) < K <= days_before y (mo + Z.of_nat k + 1)) /\
  (year_length y < K -> let e := K - year_length y - 1 in Z.of_nat k = 13 - mo + e / 30 + (1 + e / 360)).
Proof.
  intros y mo d h mi s Hy Hmo Hd Hh Hmi Hs B1 B2 B3 B4 K.
  destruct (clock_split h mi s Hh Hmi Hs) as (E1 & _ & _ & _).
  set (T := h * 3600 + mi * 60 + s) in *.
  assert (N1 : 0 <= s / 60) by (apply Z.div_pos; lia).
  assert (N2 : 0 <= (mi + s / 60) / 60) by (apply Z.div_pos; lia).
  assert (N3 : 0 <= (h + (mi + s / 60) / 60) / 24) by (apply Z.div_pos; lia).
  assert (Hc : exists a b c, carried md d h mi s = Ok (d + T / 86400, a, b, c)).
  { unfold carried.
    rewrite fix_carry_nn by (unfold i64_min, i64_max in *; lia). cbn [bind].
    rewrite fix_carry_nn by (unfold i64_min, i64_max in *; lia). cbn [bind].
    rewrite fix_carry_nn by (unfold i64_min, i64_max in *; lia). cbn [bind].
    rewrite E1. repeat eexists. }
  destruct Hc as (a & b & c & Hc). unfold adjust_turns. rewrite Hc.
  assert (Y32 : -2147483648 <= y < 2147483648) by (unfold min_year, max_year in *; lia).
  assert (HD : 1 <= d + T / 86400 <= i64_max) by (rewrite E1 in *; lia).
  destruct (@month_run_in kek md y Y32 (Z.to_nat (13 - mo)) (d + T / 86400) mo) as [M1 M2]; [lia|lia|lia|].
  replace (days_before y mo + (d + T / 86400)) with K in M1, M2 by (subst K; lia).
  clearbody T. clear E1 N1 N2 N3 B1 B2 B3 B4 Hc.
  assert (HKu : K <= i64_max + 366).
  { subst K. pose proof (days_before_mono y mo 13). rewrite days_before_13 in H. pose proof (year_length_bounds y). lia. }
  clearbody K. clear HD.
  destruct (Z_le_gt_dec K (year_length y)) as [HK|HK].
  - destruct (M1 HK) as (mo' & d' & j & W & J & X & Sm).
    destruct (wrun_runs _ _ _ _ _ _ _ W _ eq_refl) as (k & -> & R).
    assert (Em : mo' = mo + Z.of_nat k) by (eapply month_count; [exact R|unfold i64_min; lia|unfold i64_max; lia]).
    apply date_exists_iff in X. destruct X as (X1 & X2).
    exists k. split; [exists k, d', mo', 0%nat, (y, mo'); split; [exact R|]; split; [apply runs_stop; cbn; lia|lia]|].
    split; [|lia]. intros _. pose proof (days_before_succ y mo' X1) as Q. rewrite <- Em. lia.
  - assert (Hgt : year_length y < K) by lia. specialize (M2 Hgt). cbv zeta in M2. set (e := K - year_length y - 1) in *.
    assert (He : 0 <= e) by (subst e; lia). assert (He2 : e <= i64_max) by (pose proof (year_length_bounds y); subst e; lia).
    destruct M2 as (j & W & J).
    destruct (wrun_runs _ _ _ _ _ _ _ W _ eq_refl) as (k & -> & R).
    assert (Em : 13 + e / 30 = mo + Z.of_nat k).
    { eapply month_count; [exact R|unfold i64_min; lia|]. clear - He He2 J Hmo. unfold i64_max in *. lia. }
    assert (W2 : runs late_month (next_year md) (y, 13 + e / 30) (Z.to_nat (1 + e / 360)) (y + (1 + e / 360), e mod 360 / 30 + 1)).
    { pose proof (@year_run kek md (Z.to_nat (1 + e / 360)) y (13 + e / 30)) as W2.
      rewrite Z2Nat.id in W2 by (clear - He; lia).
      replace ((13 + e / 30 - 1) mod 12 + 1) with (e mod 360 / 30 + 1) in W2 by (clear - He; lia).
      destruct (wrun_runs _ _ _ _ _ _ _ (W2 ltac:(clear - He He2; unfold i64_max in *; lia) ltac:(clear - He; lia)
        ltac:(unfold i64_min, min_year in *; lia) ltac:(clear - Hy He He2; unfold i64_max, max_year in *; lia)) _ eq_refl) as (k2 & Ek & R2).
      inversion Ek; subst k2. exact R2. }
    exists (k + Z.to_nat (1 + e / 360))%nat. split; [exists k; repeat eexists; eassumption|].
    split; [lia|]. intros _. rewrite Nat2Z.inj_add, Z2Nat.id by (clear - He; lia). clear - Em. lia.
Qed.

Lemma one_clock : forall m u n, dt_valid m = true -> clock_unit u = true -> 0 <= n <= i64_max - 100 ->
  exists k, call_turns md (CAddToMoment m (mk u n)) k /\ turns_expected m u n (Z.of_nat k).
Proof.
  intros m u n Hm Hu Hn. destruct (valid_facts m Hm) as (Vy & Vmo & Vd & Vml & Vh & Vmi & Vs).
  assert (Hfin : forall d h mi s, 1 <= d -> 0 <= h -> 0 <= mi -> 0 <= s ->
      s <= i64_max -> mi + s / 60 <= i64_max -> h + (mi + s / 60) / 60 <= i64_max ->
      d + (h * 3600 + mi * 60 + s) / 86400 <= i64_max ->
      d * 86400 + h * 3600 + mi * 60 + s = day m * 86400 + (sod m + n * unit_secs u) ->
      exists k, adjust_turns md (year m) (month m) d h mi s k /\ turns_expected m u n (Z.of_nat k)).
  { intros d h mi s Hd Hh Hmi Hs B1 B2 B3 B4 HT.
    destruct (adjust_clock_turns (year m) (month m) d h mi s Vy Vmo Hd Hh Hmi Hs B1 B2 B3 B4) as (k & A & A1 & A2).
    assert (Q1 : d + (h * 3600 + mi * 60 + s) / 86400 = day m + (sod m + n * unit_secs u) / 86400).
    { clear - HT. set (T := sod m + n * unit_secs u) in *. assert (X : h * 3600 + mi * 60 + s = T + (day m - d) * 86400) by lia.
      rewrite X, Z.div_add by lia. lia. }
    replace (days_before (year m) (month m) + d + (h * 3600 + mi * 60 + s) / 86400)
      with (days_before (year m) (month m) + day m + (sod m + n * unit_secs u) / 86400) in A1, A2 by lia.
    exists k. split; [exact A|]. destruct u; try discriminate Hu; exact (conj A1 A2). }
  destruct u; try discriminate Hu; cbn [mk call_turns unit_secs] in *; unfold sod in Hfin;
    unfold addc; cbn [bind]; (rewrite arith_ok by (unfold i64_min, i64_max in *; lia)); cbn [given];
    apply Hfin; clear Hfin; try lia; unfold i64_min, i64_max in *; lia.
Qed.

Lemma carried_date : forall d m, dt_valid m = true -> i64_min <= d <= i64_max -> carried md d (hour m) (minute m) (second m) = Ok (d, hour m, minute m, second m).
Proof.
  intros d m Hm Hd. destruct (valid_facts m Hm) as (_ & _ & _ & _ & V1 & V2 & V3). unfold carried.
  rewrite fix_carry_nn by (unfold i64_min, i64_max; lia). cbn [bind].
  rewrite fix_carry_nn by (unfold i64_min, i64_max; lia). cbn [bind].
  rewrite fix_carry_nn by (unfold i64_min, i64_max in *; lia). cbn [bind].
  repeat f_equal; lia.
Qed.
Lemma stops : forall y d mo, d <= get_num_of_days_in_month y mo -> runs (long_month y) (next_month md y) (d, mo) 0 (d, mo).
Proof. intros. apply runs_stop. cbn. lia. Qed.
Lemma once : forall y d mo, get_num_of_days_in_month y mo < d -> d <= i64_max -> i64_min <= mo + 1 <= i64_max ->
  d - get_num_of_days_in_month y mo <= 28 -> runs (long_month y) (next_month md y) (d, mo) 1 (d - get_num_of_days_in_month y mo, mo + 1).
Proof.
  intros y d mo H A B C. eapply runs_step; [cbn; lia|exact (@mstep_ok kek md y d mo H A B)|]. apply stops. pose proof (gndm_bounds y (mo + 1)). lia.
Qed.
Lemma years_run : forall y mo, 1 <= mo <= i64_max -> i64_min <= y -> y + (mo - 1) / 12 <= i64_max ->
  exists e, runs late_month (next_year md) (y, mo) (Z.to_nat ((mo - 1) / 12)) e.
Proof.
  intros y mo H A B. pose proof (@year_run kek md (Z.to_nat ((mo - 1) / 12)) y mo H) as W. rewrite Z2Nat.id in W by lia.
  destruct (wrun_runs _ _ _ _ _ _ _ (W eq_refl A B) _ eq_refl) as (k & Ek & R). inversion Ek; subst k. eexists; exact R.
Qed.
Lemma one_months : forall m n, dt_valid m = true -> 0 <= n <= i64_max - 100 ->
  exists k, call_turns md (CAddToMoment m (Months n)) k /\ turns_expected m UMonth n (Z.of_nat k).
Proof.
  intros m n Hm Hn. destruct (valid_facts m Hm) as (Vy & Vmo & Vd & Vml & Vh & Vmi & Vs).
  cbn [call_turns turns_expected]. unfold addc. cbn [bind]. rewrite arith_ok by (unfold i64_min, i64_max in *; lia). cbn [given].
  unfold adjust_turns. rewrite carried_date by (unfold i64_min, i64_max in *; assumption || lia).
  set (M := month m + n) in *. cbv zeta.
  assert (G : get_num_of_days_in_month (year m) M = if M <=? 12 then month_length (year m) M else 30).
  { destruct (Z.leb_spec M 12); [apply gndm_val; unfold min_year, max_year in *; lia|apply gndm_else; lia]. }
  rewrite <- G. pose proof (gndm_bounds (year m) M) as GB. destruct (Z.ltb_spec (get_num_of_days_in_month (year m) M) (day m)) as [L|L].
  - destruct (years_run (year m) (M + 1)) as (e & R); [unfold i64_max in *; lia|unfold i64_min, min_year in *; lia|unfold max_year, i64_max in *; lia|].
    exists (1 + Z.to_nat ((M + 1 - 1) / 12))%nat. split; [|lia].
    exists 1%nat, (day m - get_num_of_days_in_month (year m) M), (M + 1), (Z.to_nat ((M + 1 - 1) / 12)), e.
    split; [apply once; unfold i64_min, i64_max in *; lia|]. split; [exact R|reflexivity].
  - destruct (years_run (year m) M) as (e & R); [unfold i64_max in *; lia|unfold i64_min, min_year in *; lia|unfold max_year, i64_max in *; lia|].
    exists (Z.to_nat ((M - 1) / 12))%nat. split; [|lia].
    exists 0%nat, (day m), M, (Z.to_nat ((M - 1) / 12)), e. split; [apply stops; lia|]. split; [exact R|reflexivity].
Qed.
Lemma one_years : forall m n, dt_valid m = true -> 0 <= n <= i64_max - max_year ->
  exists k, call_turns md (CAddToMoment m (Years n)) k /\ turns_expected m UYear n (Z.of_nat k).
Proof.
  intros m n Hm Hn. destruct (valid_facts m Hm) as (Vy & Vmo & Vd & Vml & Vh & Vmi & Vs).
  cbn [call_turns turns_expected]. unfold addc. cbn [bind]. rewrite arith_ok by (unfold i64_min, i64_max, min_year, max_year in *; lia). cbn [given].
  unfold adjust_turns. rewrite carried_date by (unfold i64_min, i64_max in *; assumption || lia).
  pose proof (gndm_wrap (year m + n) (month m) Vmo) as G. set (Y := wrap32 (year m + n)) in *.
  pose proof (gndm_bounds (year m + n) (month m)) as GB.
  destruct ((month m =? 2) && (day m =? 29) && negb (leap Y)) eqn:E.
  - apply andb_true_iff in E. destruct E as [E L]. apply negb_true_iff in L.
    assert (E2 : month m = 2) by lia. assert (E3 : day m = 29) by lia.
    assert (G' : get_num_of_days_in_month (year m + n) (month m) = 28).
    { rewrite G, E2. cbn. rewrite L. reflexivity. }
    exists 1%nat. split; [|reflexivity]. exists 1%nat, (day m - get_num_of_days_in_month (year m + n) (month m)), (month m + 1), 0%nat, (year m + n, month m + 1).
    split; [apply once; unfold i64_min, i64_max in *; lia|]. split; [apply runs_stop; cbn; lia|reflexivity].
  - assert (Hd : day m <= month_length Y (month m)).
    { destruct (Z.eq_dec (month m) 2) as [E2|E2].
      - rewrite E2 in Vml, E |- *. change (month_length (year m) 2) with (if leap (year m) then 29 else 28) in Vml.
        change (month_length Y 2) with (if leap Y then 29 else 28).
        destruct (leap Y), (leap (year m)); lia.
      - rewrite (month_length_leap Y (year m)) by auto. assumption. }
    exists 0%nat. split; [|reflexivity]. exists 0%nat, (day m), (month m), 0%nat, (year m + n, month m).
    split; [apply stops; lia|]. split; [apply runs_stop; cbn; lia|reflexivity].
Qed.
Lemma one_turns : forall m u n, dt_valid m = true -> 0 <= n <= i64_max - max_year ->
  exists k, call_turns md (CAddToMoment m (mk u n)) k /\ turns_expected m u n (Z.of_nat k).
Proof.
  intros m u n Hm Hn. assert (H : 0 <= n <= i64_max - 100) by (unfold max_year in Hn; lia).
  destruct u; [exact (one_clock m USec n Hm eq_refl H)|exact (one_clock m UMin n Hm eq_refl H)|exact (one_clock m UHour n Hm eq_refl H)|exact (one_clock m UDay n Hm eq_refl H)|exact (one_months m n Hm H)|exact (one_years m n Hm Hn)].
Qed.
End Turns.
