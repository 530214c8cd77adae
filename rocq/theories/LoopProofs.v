(** Closed forms of the helper functions of src/util.rs. *)
Require Import ZArith Bool List Lia ZifyBool.
From Verif Require Import Prelude Spec Chrono Util PreludeProofs CalendarProofs.
Local Open Scope Z_scope.
Ltac Zify.zify_post_hook ::= Z.div_mod_to_equations.

Section Loops.
Context {E : Type}.
Variable md : mode.

Lemma fix_carry_eq : forall b k n, i64_min <= b <= i64_max -> 0 < k ->
  @fix_carry E md b k n = do n' <- arith md (n + Z.quot b k); Ok (n', Z.rem b k).
Proof.
  intros b k n Hb Hk. unfold fix_carry, addc, subc, divc, remc. cbn [bind].
  assert (Hr : Z.abs (Z.rem b k) <= Z.abs b).
  { rewrite <- Z.rem_abs by lia. apply Z.rem_le; lia. }
  assert (Hs : 0 <= Z.rem b k * b).
  { apply Z.rem_sign_mul. lia. }
  assert (Hx : i64_min <= b - Z.rem b k <= i64_max).
  { unfold i64_min, i64_max in *. destruct (Z_lt_le_dec b 0).
    - assert (Z.rem b k <= 0) by nia. lia.
    - assert (b = 0 \/ 0 <= Z.rem b k) as [->|] by nia; [rewrite Z.rem_0_l by lia; lia|lia]. }
  rewrite arith_ok by exact Hx. cbn [bind].
  replace (Z.quot (b - Z.rem b k) k) with (Z.quot b k); [reflexivity|].
  replace (b - Z.rem b k) with (Z.quot b k * k) by (pose proof (Z.quot_rem' b k); lia).
  rewrite Z.quot_mul by lia. reflexivity.
Qed.

Lemma fix_carry_nn : forall b k n, 0 <= b <= i64_max -> 0 < k ->
  i64_min <= n + b / k <= i64_max ->
  @fix_carry E md b k n = Ok (n + b / k, b mod k).
Proof.
  intros b k n Hb Hk Hn. rewrite fix_carry_eq by (unfold i64_min, i64_max in *; lia).
  rewrite Z.quot_div_nonneg, Z.rem_mod_nonneg by lia. rewrite arith_ok by exact Hn. reflexivity.
Qed.

Definition mcond (y : Z) := fun st : Z * Z => let '(d, mo) := st in get_num_of_days_in_month y mo <? d.
Definition mstep (y : Z) := fun st : Z * Z => let '(d, mo) := st in
           do d' <- @subc E md (Ok d) (Ok (get_num_of_days_in_month y mo));
           do mo' <- addc md (Ok mo) (Ok 1);
           Ok (d', mo').
Lemma month_loop_while : forall y d mo, month_loop md y d mo = while (mcond y) (mstep y) (d, mo).
Proof. reflexivity. Qed.

Lemma mstep_ok : forall y d mo, get_num_of_days_in_month y mo < d -> d <= i64_max ->
  i64_min <= mo + 1 <= i64_max ->
  mstep y (d, mo) = Ok (d - get_num_of_days_in_month y mo, mo + 1).
Proof.
  intros y d mo Hd Hm Hmo. unfold mstep, subc, addc. cbn [bind].
  pose proof (gndm_bounds y mo).
  rewrite arith_ok by (unfold i64_min, i64_max in *; lia). cbn [bind].
  rewrite arith_ok by assumption. reflexivity.
Qed.

(** Months after December all have 30 days. *)
Lemma month_run_else : forall y (n : nat) d mo, 13 <= mo -> 1 <= d <= i64_max -> (d - 1) / 30 = Z.of_nat n ->
  mo + Z.of_nat n <= i64_max ->
  wrun (mcond y) (mstep y) (d, mo) (Ok ((d - 1) mod 30 + 1, mo + Z.of_nat n)) (S n).
Proof.
  intros y n. induction n; intros d mo Hmo Hd Hn Hb.
  - replace ((d - 1) mod 30 + 1) with d by lia. replace (mo + Z.of_nat 0) with mo by lia.
    apply wstop. cbn. rewrite gndm_else by lia. lia.
  - assert (Hg : get_num_of_days_in_month y mo = 30) by (apply gndm_else; lia).
    eapply wstep.
    + cbn. rewrite Hg. lia.
    + apply mstep_ok; [lia|lia|unfold i64_min, i64_max in *; lia].
    + rewrite Hg.
      replace ((d - 1) mod 30 + 1) with ((d - 30 - 1) mod 30 + 1) by lia.
      replace (mo + Z.of_nat (S n)) with (mo + 1 + Z.of_nat n) by lia.
      apply IHn; lia.
Qed.

Lemma month_loop_else : forall y d mo, 13 <= mo -> 1 <= d <= i64_max -> mo + (d - 1) / 30 <= i64_max ->
  @month_loop E md y d mo = Ok ((d - 1) mod 30 + 1, mo + (d - 1) / 30).
Proof.
  intros y d mo Hmo Hd Hb. rewrite month_loop_while.
  pose proof (month_run_else y (Z.to_nat ((d - 1) / 30)) d mo Hmo Hd) as H.
  rewrite Z2Nat.id in H by lia.
  apply (wrun_while _ _ _ _ _ (H eq_refl Hb)). unfold i64_max in *. lia.
Qed.

(** Inside the year, and past its end. *)
Lemma month_run_in : forall y, -2147483648 <= y < 2147483648 -> forall (n : nat) d mo,
  1 <= mo <= 13 -> 13 - mo = Z.of_nat n -> 1 <= d <= i64_max ->
  let K := days_before y mo + d in
  (K <= year_length y -> exists mo' d' j, wrun (mcond y) (mstep y) (d, mo) (Ok (d', mo')) j /\
      (j <= S n)%nat /\ date_exists y mo' d' = true /\ days_before y mo' + d' = K) /\
  (year_length y < K -> let e := K - year_length y - 1 in
      exists j, wrun (mcond y) (mstep y) (d, mo) (Ok (e mod 30 + 1, 13 + e / 30)) j /\
      Z.of_nat j <= Z.of_nat n + 1 + e / 30).
Proof.
  intros y Hy n. induction n; intros d mo Hmo Hn Hd.
  - assert (mo = 13) by lia. subst mo. rewrite days_before_13.
    cbv zeta. split; [lia|]. intros _.
    replace (year_length y + d - year_length y - 1) with (d - 1) by lia.
    exists (S (Z.to_nat ((d - 1) / 30))). split; [|lia].
    pose proof (month_run_else y (Z.to_nat ((d - 1) / 30)) d 13) as H.
    rewrite Z2Nat.id in H by lia. apply H; unfold i64_max in *; lia.
  - assert (Hm : 1 <= mo <= 12) by lia.
    assert (Hg : get_num_of_days_in_month y mo = month_length y mo) by (apply gndm_val; assumption).
    pose proof (month_length_bounds y mo Hm) as Hl.
    pose proof (days_before_succ y mo Hm) as Hs.
    cbv zeta. destruct (Z_le_gt_dec d (month_length y mo)) as [Hle|Hgt].
    + assert (Hex : date_exists y mo d = true) by (apply date_exists_iff; lia).
      pose proof (doy_bounds y mo d Hex). split; [|lia]. intros _.
      exists mo, d, 1%nat. repeat split; [|lia|assumption].
      apply wstop. cbn. rewrite Hg. lia.
    + destruct (IHn (d - month_length y mo) (mo + 1)) as [H1 H2]; [lia|lia|lia|].
      assert (Hst : mstep y (d, mo) = Ok (d - month_length y mo, mo + 1)).
      { rewrite <- Hg. apply mstep_ok; [lia|lia|unfold i64_min, i64_max; lia]. }
      assert (Hc : mcond y (d, mo) = true) by (cbn; rewrite Hg; lia).
      split; intro HK.
      * destruct H1 as (mo' & d' & j & Hw & Hj & Hex & Hsum); [lia|].
        exists mo', d', (S j). repeat split; [|lia|assumption|lia].
        eapply wstep; eassumption.
      * destruct H2 as (j & Hw & Hj); [lia|].
        replace (days_before y (mo + 1) + (d - month_length y mo)) with (days_before y mo + d) in * by lia.
        exists (S j). split; [|lia]. eapply wstep; eassumption.
Qed.

Lemma month_loop_in : forall y d mo, -2147483648 <= y < 2147483648 -> 1 <= mo <= 12 -> 1 <= d <= i64_max ->
  let K := days_before y mo + d in
  (K <= year_length y -> exists mo' d', @month_loop E md y d mo = Ok (d', mo') /\
      date_exists y mo' d' = true /\ days_before y mo' + d' = K) /\
  (year_length y < K -> let e := K - year_length y - 1 in
      @month_loop E md y d mo = Ok (e mod 30 + 1, 13 + e / 30)).
Proof.
  intros y d mo Hy Hmo Hd K. rewrite month_loop_while.
  destruct (month_run_in y Hy (Z.to_nat (13 - mo)) d mo) as [H1 H2]; [lia|lia|lia|].
  fold K in H1, H2. split; intro HK.
  - destruct (H1 HK) as (mo' & d' & j & Hw & Hj & Hex & Hsum). exists mo', d'.
    repeat split; [|assumption|assumption]. apply (wrun_while _ _ _ _ _ Hw). lia.
  - destruct (H2 HK) as (j & Hw & Hj). apply (wrun_while _ _ _ _ _ Hw).
    pose proof (days_before_mono y 1 mo). rewrite days_before_1 in *.
    pose proof (year_length_bounds y). unfold i64_max in *. lia.
Qed.

Definition ycond := fun st : Z * Z => let '(y, mo) := st in 12 <? mo.
Definition ystep := fun st : Z * Z => let '(y, mo) := st in
           do y' <- @addc E md (Ok y) (Ok 1);
           do mo' <- subc md (Ok mo) (Ok 12);
           Ok (y', mo').
Lemma year_run : forall (n : nat) y mo, 1 <= mo <= i64_max -> (mo - 1) / 12 = Z.of_nat n ->
  i64_min <= y -> y + Z.of_nat n <= i64_max ->
  wrun ycond ystep (y, mo) (Ok (y + Z.of_nat n, (mo - 1) mod 12 + 1)) (S n).
Proof.
  induction n; intros y mo Hmo Hn Hy Hb.
  - replace (y + Z.of_nat 0) with y by lia. replace ((mo - 1) mod 12 + 1) with mo by lia.
    apply wstop. cbn. lia.
  - eapply wstep.
    + cbn. lia.
    + unfold ystep, addc, subc. cbn [bind]. rewrite arith_ok by (unfold i64_min, i64_max in *; lia).
      cbn [bind]. rewrite arith_ok by (unfold i64_min, i64_max in *; lia). reflexivity.
    + replace (y + Z.of_nat (S n)) with (y + 1 + Z.of_nat n) by lia.
      replace ((mo - 1) mod 12 + 1) with ((mo - 12 - 1) mod 12 + 1) by lia.
      apply IHn; lia.
Qed.
Lemma year_loop_eq : forall y mo, 1 <= mo <= i64_max -> i64_min <= y -> y + (mo - 1) / 12 <= i64_max ->
  @year_loop E md y mo = Ok (y + (mo - 1) / 12, (mo - 1) mod 12 + 1).
Proof.
  intros y mo Hmo Hy Hb. change (year_loop md y mo) with (while ycond ystep (y, mo)).
  pose proof (year_run (Z.to_nat ((mo - 1) / 12)) y mo Hmo) as H. rewrite Z2Nat.id in H by lia.
  apply (wrun_while _ _ _ _ _ (H eq_refl Hy Hb)). unfold i64_max in *. lia.
Qed.
Lemma year_loop_small : forall y mo, mo <= 12 -> @year_loop E md y mo = Ok (y, mo).
Proof.
  intros y mo H. change (year_loop md y mo) with (while ycond ystep (y, mo)).
  assert (W : wrun ycond ystep (y, mo) (Ok (y, mo)) 1) by (apply wstop; cbn; lia).
  apply (wrun_while _ _ _ _ _ W). lia.
Qed.

Lemma month_loop_stop : forall y d mo, d <= get_num_of_days_in_month y mo ->
  @month_loop E md y d mo = Ok (d, mo).
Proof.
  intros y d mo H. rewrite month_loop_while.
  assert (W : wrun (mcond y) (mstep y) (d, mo) (Ok (d, mo)) 1) by (apply wstop; cbn; lia).
  apply (wrun_while _ _ _ _ _ W). lia.
Qed.
Lemma month_loop_once : forall y d mo, get_num_of_days_in_month y mo < d <= 31 ->
  i64_min <= mo + 1 <= i64_max ->
  @month_loop E md y d mo = Ok (d - get_num_of_days_in_month y mo, mo + 1).
Proof.
  intros y d mo H Hm. rewrite month_loop_while. pose proof (gndm_bounds y mo). pose proof (gndm_bounds y (mo + 1)).
  assert (W : wrun (mcond y) (mstep y) (d, mo) (Ok (d - get_num_of_days_in_month y mo, mo + 1)) 2).
  { eapply wstep; [cbn; lia| |].
    - apply mstep_ok; [lia|unfold i64_max; lia|assumption].
    - apply wstop. cbn. lia. }
  apply (wrun_while _ _ _ _ _ W). lia.
Qed.
Lemma month_loop_once_panic : forall y d mo, get_num_of_days_in_month y mo < d <= 31 ->
  i64_max < mo + 1 -> md = Checked ->
  @month_loop E md y d mo = Panic PArith.
Proof.
  intros y d mo H Hm Hmd. rewrite month_loop_while. pose proof (gndm_bounds y mo).
  assert (W : @wrun E _ (mcond y) (mstep y) (d, mo) (Panic PArith) 1).
  { apply wfail; [cbn; lia| |discriminate]. unfold mstep, subc, addc. cbn [bind].
    rewrite arith_ok by (unfold i64_min, i64_max; lia). cbn [bind].
    unfold arith. rewrite Hmd. replace (in_i64 (mo + 1)) with false; [reflexivity|].
    symmetry. apply in_i64_false. lia. }
  apply (wrun_while _ _ _ _ _ W). lia.
Qed.
End Loops.
