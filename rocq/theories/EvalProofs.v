(** The evaluator never runs out of fuel; fuel-free evaluation [ev] and its equation. *)
Require Import ZArith Bool List Lia ZifyBool.
From Verif Require Import Prelude Spec Chrono Util TimeType PreludeProofs CalendarProofs.
Local Open Scope Z_scope.

(** Measure of a call. *)
Definition meas (c : call) : nat :=
  match c with
  | CCalc t => size t
  | CAdd a b | CSub a b => size a + size b
  | CEndOfYear t | CEndOfMonth t | CEndOfDay t | CEndOfHour t | CEndOfMinute t => S (size t)
  | CAddToSeconds _ t | CAddToMinutes _ t | CAddToHours _ t | CAddToDays _ t | CAddToMonths _ t
  | CAddToYears _ t | CSubFromSeconds _ t | CSubFromMinutes _ t | CSubFromHours _ t
  | CSubFromDays _ t | CSubFromMonths _ t | CSubFromYears _ t => size t
  | CAddToMoment _ t | CSubFromMoment _ t => size t
  end.

Lemma size_pos : forall t, (1 <= size t)%nat.
Proof. destruct t; cbn; lia. Qed.

(** Values: what evaluation may return. *)
Definition is_value (t : timetype) : bool := is_a_amount t || is_moment t.

Lemma value_size : forall t, is_value t = true -> size t = 1%nat.
Proof. destruct t; cbn; intros; try discriminate; reflexivity. Qed.

(** *** Loops terminate *)
Section Loops.
Context {E : Type}.
Variable md : mode.

Lemma arith_not_fuel : forall z, @arith E md z <> OutOfFuel.
Proof. intro z. unfold arith. destruct (in_i64 z); [discriminate|]. destruct md; discriminate. Qed.

Lemma arith_cases : forall z,
  (exists v, @arith E md z = Ok v /\ i64_min <= v <= i64_max) \/
  (md = Checked /\ @arith E md z = Panic PArith).
Proof.
  intro z. unfold arith. destruct (in_i64 z) eqn:H.
  - left. exists z. split; [reflexivity|]. apply in_i64_iff; assumption.
  - destruct md; [right; split; reflexivity|]. left. exists (wrap64 z). split; [reflexivity|apply wrap64_range].
Qed.

Lemma month_loop_total : forall y d mo, d <= i64_max ->
  (exists d' mo', @month_loop E md y d mo = Ok (d', mo') /\ (d' = d \/ 1 <= d' <= d) /\
                 (mo' = mo \/ i64_min <= mo' <= i64_max)) \/
  (md = Checked /\ @month_loop E md y d mo = Panic PArith).
Proof.
  intros y d mo Hd. unfold month_loop.
  set (cond := fun st : Z * Z => let '(d, mo) := st in get_num_of_days_in_month y mo <? d).
  set (step := fun st : Z * Z => _).
  assert (H : forall n : nat, forall d mo, d <= Z.of_nat n -> d <= i64_max ->
     exists r k, wrun cond step (d, mo) r k /\ (k <= S n)%nat /\
       ((exists d' mo', r = Ok (d', mo') /\ (d' = d \/ 1 <= d' <= d) /\
           (mo' = mo \/ i64_min <= mo' <= i64_max)) \/ (md = Checked /\ r = Panic PArith))).
  { clear d mo Hd. induction n; intros d mo Hn Hd.
    - exists (Ok (d, mo)), 1%nat. split; [apply wstop|split; [lia|left; exists d, mo; repeat split; left; reflexivity]].
      cbn. pose proof (gndm_bounds y mo). lia.
    - destruct (cond (d, mo)) eqn:Hc.
      + pose proof (gndm_bounds y mo) as Hb. cbn in Hc.
        assert (Hs : step (d, mo) =
          do mo' <- arith md (mo + 1); Ok (d - get_num_of_days_in_month y mo, mo')).
        { unfold step. unfold addc, subc. cbn [bind]. rewrite arith_ok; [reflexivity|].
          unfold i64_min, i64_max in *. lia. }
        destruct (arith_cases (mo + 1)) as [[v [Hv Hvr]]|[Hc' Hp]].
        * rewrite Hv in Hs. cbn [bind] in Hs.
          destruct (IHn (d - get_num_of_days_in_month y mo) v) as (r & k & Hw & Hk & Hr); [lia|lia|].
          exists r, (S k). split; [|split; [lia|]].
          -- eapply wstep; [cbn; lia|exact Hs|exact Hw].
          -- destruct Hr as [(d' & mo' & -> & Hd' & Hm')|[-> ->]]; [left|right; auto].
             exists d', mo'. split; [reflexivity|]. lia.
        * rewrite Hp in Hs. cbn [bind] in Hs.
          exists (Panic PArith), 1%nat. split; [|split; [lia|right; auto]].
          apply wfail; [cbn; lia|exact Hs|discriminate].
      + exists (Ok (d, mo)), 1%nat. split; [apply wstop; assumption|split; [lia|left; exists d, mo; repeat split; left; reflexivity]]. }
  destruct (H (Z.to_nat d) d mo) as (r & k & Hw & Hk & Hr); [lia|assumption|].
  rewrite (wrun_while _ _ _ _ _ Hw).
  - exact Hr.
  - unfold i64_max in Hd. lia.
Qed.

Lemma year_loop_total : forall y mo, mo <= i64_max ->
  (exists y' mo', @year_loop E md y mo = Ok (y', mo')) \/
  (md = Checked /\ @year_loop E md y mo = Panic PArith).
Proof.
  intros y mo Hmo. unfold year_loop.
  set (cond := fun st : Z * Z => let '(y, mo) := st in 12 <? mo).
  set (step := fun st : Z * Z => _).
  assert (H : forall n : nat, forall y mo, mo <= Z.of_nat n -> mo <= i64_max ->
     exists r k, wrun cond step (y, mo) r k /\ (k <= S n)%nat /\
       ((exists y' mo', r = Ok (y', mo')) \/ (md = Checked /\ r = Panic PArith))).
  { clear y mo Hmo. induction n; intros y mo Hn Hd.
    - exists (Ok (y, mo)), 1%nat. split; [apply wstop; cbn; lia|split; [lia|left; eauto]].
    - destruct (cond (y, mo)) eqn:Hc.
      + cbn in Hc.
        assert (Hs : step (y, mo) = do y' <- arith md (y + 1); Ok (y', mo - 12)).
        { unfold step. unfold addc, subc. cbn [bind]. rewrite (arith_ok md (mo - 12)); [reflexivity|].
          unfold i64_min, i64_max in *. lia. }
        destruct (arith_cases (y + 1)) as [[v [Hv Hvr]]|[Hc' Hp]].
        * rewrite Hv in Hs. cbn [bind] in Hs.
          destruct (IHn v (mo - 12)) as (r & k & Hw & Hk & Hr); [lia|lia|].
          exists r, (S k). split; [|split; [lia|exact Hr]].
          eapply wstep; [cbn; lia|exact Hs|exact Hw].
        * rewrite Hp in Hs. cbn [bind] in Hs.
          exists (Panic PArith), 1%nat. split; [|split; [lia|right; auto]].
          apply wfail; [cbn; lia|exact Hs|discriminate].
      + exists (Ok (y, mo)), 1%nat. split; [apply wstop; assumption|split; [lia|left; eauto]]. }
  destruct (H (Z.to_nat mo) y mo) as (r & k & Hw & Hk & Hr); [lia|assumption|].
  rewrite (wrun_while _ _ _ _ _ Hw).
  - exact Hr.
  - unfold i64_max in Hmo. lia.
Qed.
End Loops.

(** *** Outcome of a call: a value, an error, or an arithmetic panic *)
Definition good (md : mode) (r : result) : Prop :=
  match r with
  | Ok v => is_value v = true /\ tt_ok v = true
  | Err _ => True
  | Panic q => q = PArith /\ md = Checked
  | OutOfFuel => False
  end.

Definition goodz (md : mode) {E A} (r : outcome E A) : Prop :=
  match r with
  | Panic q => q = PArith /\ md = Checked
  | OutOfFuel => False
  | _ => True
  end.

Definition call_ok (c : call) : Prop :=
  match c with
  | CCalc t => tt_ok t = true
  | CAdd a b | CSub a b => tt_ok a = true /\ tt_ok b = true
  | CEndOfYear t | CEndOfMonth t | CEndOfDay t | CEndOfHour t | CEndOfMinute t => tt_ok t = true
  | CAddToSeconds _ t | CAddToMinutes _ t | CAddToHours _ t | CAddToDays _ t | CAddToMonths _ t
  | CAddToYears _ t | CSubFromSeconds _ t | CSubFromMinutes _ t | CSubFromHours _ t
  | CSubFromDays _ t | CSubFromMonths _ t | CSubFromYears _ t => tt_ok t = true
  | CAddToMoment m t | CSubFromMoment m t => dt_valid m = true /\ tt_ok t = true
  end.

Lemma dt_valid_iff : forall m, dt_valid m = true <->
  (min_year <= year m <= max_year /\ date_exists (year m) (month m) (day m) = true /\
   0 <= hour m < 24 /\ 0 <= minute m < 60 /\ 0 <= second m < 60 /\ 0 <= nano m < 2000000000).
Proof.
  intro m. unfold dt_valid. rewrite !andb_true_iff, !Z.leb_le, !Z.ltb_lt. tauto.
Qed.

Lemma from_ymd_some : forall y m d nd, from_ymd_opt y m d = Some nd ->
  nd = mkdate y m d /\ min_year <= y <= max_year /\ date_exists y m d = true.
Proof.
  intros y m d nd. unfold from_ymd_opt. destruct (_ && _) eqn:H; [|discriminate].
  intros [= <-]. split; [reflexivity|]. rewrite !andb_true_iff, !Z.leb_le in H. tauto.
Qed.

Lemma and_hms_some : forall nd h mi s dt, and_hms_opt nd h mi s = Some dt ->
  dt = mkdt (dyear nd) (dmonth nd) (dday nd) h mi s 0 /\
  0 <= h < 24 /\ 0 <= mi < 60 /\ 0 <= s < 60.
Proof.
  intros nd h mi s dt. unfold and_hms_opt. destruct (_ && _) eqn:H; [|discriminate].
  intros [= <-]. split; [reflexivity|]. lia.
Qed.

Lemma ymd_hms_valid : forall y m d h mi s nd dt,
  from_ymd_opt y m d = Some nd -> and_hms_opt nd h mi s = Some dt ->
  dt = mkdt y m d h mi s 0 /\ dt_valid dt = true.
Proof.
  intros y m d h mi s nd dt H1 H2.
  apply from_ymd_some in H1. destruct H1 as (-> & Hy & Hd).
  apply and_hms_some in H2. cbn in H2. destruct H2 as (-> & Hh & Hmi & Hs).
  split; [reflexivity|]. apply dt_valid_iff. cbn. repeat split; lia || assumption.
Qed.

Lemma build_moment_good : forall md f, good md (build_moment f).
Proof.
  intros md [[[[[y mo] d] h] mi] s]. unfold build_moment.
  destruct (from_ymd_opt _ _ _) as [nd|] eqn:H1; [|exact I].
  destruct (and_hms_opt _ _ _ _) as [dt|] eqn:H2; [|exact I].
  destruct (ymd_hms_valid _ _ _ _ _ _ _ _ H1 H2) as [_ Hv]. cbn. auto.
Qed.

Lemma and_hms_good : forall {E} nd h mi s, 0 <= h < 24 -> 0 <= mi < 60 -> 0 <= s < 60 ->
  exists dt, and_hms_opt nd h mi s = Some dt /\ @and_hms E nd h mi s = Ok dt.
Proof.
  intros E nd h mi s H1 H2 H3. unfold and_hms, and_hms_opt.
  destruct (_ && _) eqn:H; [eauto|]. lia.
Qed.

Lemma bind_goodz_good : forall md {A} (x : outcome kek A) (f : A -> result),
  goodz md x -> (forall a, x = Ok a -> good md (f a)) -> good md (bind x f).
Proof. intros md A x f Hx Hf. destruct x; cbn in *; auto. Qed.

Lemma bind_goodz : forall md {E A B} (x : outcome E A) (f : A -> outcome E B),
  goodz md x -> (forall a, x = Ok a -> goodz md (f a)) -> goodz md (bind x f).
Proof. intros md E A B x f Hx Hf. destruct x; cbn in *; auto. Qed.

Lemma bind_good_good : forall md (x : result) (f : timetype -> result),
  good md x -> (forall a, is_value a = true -> tt_ok a = true -> good md (f a)) -> good md (bind x f).
Proof. intros md x f Hx Hf. destruct x; cbn in *; auto. destruct Hx; auto. Qed.

Section GoodArith.
Context {E : Type}.
Variable md : mode.
Lemma arith_goodz : forall z, goodz md (@arith E md z).
Proof. intro z. destruct (@arith_cases E md z) as [[v [-> _]]|[-> ->]]; cbn; auto. Qed.
Lemma addc_goodz : forall x y, goodz md x -> goodz md y -> goodz md (@addc E md x y).
Proof. intros. apply bind_goodz; auto. intros. apply bind_goodz; auto. intros. apply arith_goodz. Qed.
Lemma subc_goodz : forall x y, goodz md x -> goodz md y -> goodz md (@subc E md x y).
Proof. intros. apply bind_goodz; auto. intros. apply bind_goodz; auto. intros. apply arith_goodz. Qed.
Lemma mulc_goodz : forall x k, goodz md x -> goodz md (@mulc E md x k).
Proof. intros. apply bind_goodz; auto. intros. apply arith_goodz. Qed.
Lemma divc_goodz : forall x k, goodz md x -> goodz md (@divc E x k).
Proof. intros. apply bind_goodz; auto. intros. exact I. Qed.
Lemma remc_goodz : forall x k, goodz md x -> goodz md (@remc E x k).
Proof. intros. apply bind_goodz; auto. intros. exact I. Qed.
Lemma absc_goodz : forall x, goodz md x -> goodz md (@absc E md x).
Proof. intros. apply bind_goodz; auto. intros. apply arith_goodz. Qed.

Lemma arith_range : forall z v, @arith E md z = Ok v -> i64_min <= v <= i64_max.
Proof.
  intros z v H. destruct (@arith_cases E md z) as [[w [Hw Hr]]|[_ Hp]]; congruence.
Qed.
Lemma addc_range : forall x y v, @addc E md x y = Ok v -> i64_min <= v <= i64_max.
Proof.
  intros x y v H. apply bind_ok in H. destruct H as (a & _ & H). apply bind_ok in H.
  destruct H as (b & _ & H). eapply arith_range; eassumption.
Qed.
Lemma subc_range : forall x y v, @subc E md x y = Ok v -> i64_min <= v <= i64_max.
Proof.
  intros x y v H. apply bind_ok in H. destruct H as (a & _ & H). apply bind_ok in H.
  destruct H as (b & _ & H). eapply arith_range; eassumption.
Qed.
Lemma mulc_range : forall x k v, @mulc E md x k = Ok v -> i64_min <= v <= i64_max.
Proof.
  intros x k v H. apply bind_ok in H. destruct H as (a & _ & H). eapply arith_range; eassumption.
Qed.

Lemma fix_carry_goodz : forall b k n, goodz md (@fix_carry E md b k n).
Proof.
  intros. unfold fix_carry. apply bind_goodz.
  - apply addc_goodz; [exact I|]. apply divc_goodz. apply subc_goodz; [exact I|]. apply remc_goodz. exact I.
  - intros. apply bind_goodz; [apply remc_goodz; exact I|]. intros. exact I.
Qed.
Lemma fix_carry_range : forall b k n n' b', @fix_carry E md b k n = Ok (n', b') ->
  i64_min <= n' <= i64_max.
Proof.
  intros b k n n' b' H. unfold fix_carry in H. apply bind_ok in H. destruct H as (a & Ha & H).
  apply bind_ok in H. destruct H as (c & _ & H). injection H as <- <-.
  eapply addc_range; eassumption.
Qed.

Lemma adjust_times_add_goodz : forall y mo d h mi s, mo <= i64_max ->
  goodz md (@adjust_times_add E md y mo d h mi s).
Proof.
  intros y mo d h mi s Hmo. unfold adjust_times_add.
  apply bind_goodz; [apply fix_carry_goodz|]. intros [mi1 s1] _.
  apply bind_goodz; [apply fix_carry_goodz|]. intros [h1 mi2] _.
  apply bind_goodz; [apply fix_carry_goodz|]. intros [d1 h2] Hd. apply fix_carry_range in Hd.
  destruct (@month_loop_total E md y d1 mo) as [(d' & mo' & -> & _ & Hm)|[-> ->]]; [lia| |split; reflexivity].
  cbn [bind].
  destruct (@year_loop_total E md y mo') as [(y' & mo'' & ->)|[-> ->]]; [lia|exact I|split; reflexivity].
Qed.

Lemma borrow_goodz : forall l d t n b, goodz md (@borrow E md l d t n b).
Proof.
  intros. unfold borrow. destruct (_ <? _); [|exact I].
  apply bind_goodz.
  - apply subc_goodz; [exact I|]. apply addc_goodz; [|exact I]. apply divc_goodz. apply absc_goodz. exact I.
  - intros. apply bind_goodz.
    + apply subc_goodz; [exact I|]. apply absc_goodz. apply subc_goodz; exact I.
    + intros. exact I.
Qed.
Lemma adjust_times_sub_goodz : forall y mo d h mi s, goodz md (@adjust_times_sub E md y mo d h mi s).
Proof.
  intros. unfold adjust_times_sub.
  repeat (apply bind_goodz; [apply borrow_goodz|]; intros [? ?] _). exact I.
Qed.
End GoodArith.

Section Body.
Variable md : mode.

Ltac gz := repeat first
  [ exact I
  | apply addc_goodz | apply subc_goodz | apply mulc_goodz ].

(** Closes [good] goals whose recursive calls go through [IH]. *)
Ltac okargs :=
  repeat match goal with
  | H : _ && _ = true |- _ => apply andb_true_iff in H; destruct H
  | H : _ /\ _ |- _ => destruct H
  | |- _ && _ = true => apply andb_true_iff
  | |- _ /\ _ => split
  end.
Ltac measure :=
  repeat match goal with
  | H : is_value ?a = true |- _ => apply value_size in H
  end;
  cbn [meas size] in *;
  repeat match goal with
  | a : timetype |- _ => lazymatch goal with
      | _ : (1 <= size a)%nat |- _ => fail
      | _ => pose proof (size_pos a)
      end
  end;
  lia.
Ltac gstep rec IH :=
  lazymatch goal with
  | |- good md (Err _) => exact I
  | |- good md (Ok _) => split; [reflexivity|cbn [tt_ok] in *; try assumption; try (apply in_i64_iff); eauto using addc_range, subc_range, mulc_range]
  | |- good md (build_moment _) => apply build_moment_good
  | |- good md (bind (rec _) _) => apply bind_good_good; [|intros ? ? ?]
  | |- good md (bind (adjust_times_add _ _ _ _ _ _ _) _) =>
      apply bind_goodz_good; [apply adjust_times_add_goodz|intros ? ?]
  | |- good md (bind (adjust_times_sub _ _ _ _ _ _ _) _) =>
      apply bind_goodz_good; [apply adjust_times_sub_goodz|intros ? ?]
  | |- good md (bind _ _) => apply bind_goodz_good; [gz|intros ? ?]
  | |- good md (rec _) => apply IH; [cbn in *; okargs; auto|measure]
  end.

Lemma body_good : forall (rec : call -> result) n,
  (forall c, call_ok c -> (meas c < n)%nat -> good md (rec c)) ->
  forall c, call_ok c -> (meas c < S n)%nat -> good md (body md rec c).
Proof.
  intros rec n IH c Hok Hm. destruct c; cbn [body call_ok meas] in *.
  - destruct t; cbn [do_calculate tt_ok size] in *; okargs;
      try (split; [reflexivity|assumption]); gstep rec IH.
  - destruct Hok as [Ha Hb]. destruct a, b; cbn [add tt_ok size] in *; repeat gstep rec IH.
  - destruct Hok as [Ha Hb]. destruct a, b; cbn [sub tt_ok size] in *; repeat gstep rec IH.
  - unfold end_of_year. gstep rec IH; [gstep rec IH|].
    destruct a; try discriminate; try exact I. cbn in H0.
    destruct (from_ymd_opt _ _ _) as [nd|] eqn:H1; [|exact I]. cbn [ok_or bind].
    destruct (@and_hms_good kek nd 0 0 0) as (dt & H2 & H3); try lia. rewrite H3. cbn [bind].
    split; [reflexivity|]. eapply ymd_hms_valid; eassumption.
  - unfold end_of_month. gstep rec IH; [gstep rec IH|].
    destruct a; try discriminate; try exact I. cbn in H0.
    destruct (from_ymd_opt _ _ _) as [nd|] eqn:H1; [|exact I]. cbn [ok_or bind].
    destruct (@and_hms_good kek nd 0 0 0) as (dt & H2 & H3); try lia. rewrite H3. cbn [bind].
    split; [reflexivity|]. eapply ymd_hms_valid; eassumption.
  - unfold end_of_day. gstep rec IH; [gstep rec IH|].
    destruct a; try discriminate; try exact I. cbn in H0.
    destruct (from_ymd_opt _ _ _) as [nd|] eqn:H1; [|exact I]. cbn [ok_or bind].
    destruct (@and_hms_good kek nd 23 59 59) as (dt & H2 & H3); try lia. rewrite H3. cbn [bind].
    split; [reflexivity|]. eapply ymd_hms_valid; eassumption.
  - unfold end_of_hour. gstep rec IH; [gstep rec IH|].
    destruct a; try discriminate; try exact I. cbn in H0.
    destruct (from_ymd_opt _ _ _) as [nd|] eqn:H1; [|exact I].
    destruct (and_hms_opt _ _ _ _) as [dt|] eqn:H2; [|exact I]. cbn [ok_or bind].
    split; [reflexivity|]. eapply ymd_hms_valid; eassumption.
  - unfold end_of_minute. gstep rec IH; [gstep rec IH|].
    destruct a; try discriminate; try exact I. cbn in H0.
    destruct (from_ymd_opt _ _ _) as [nd|] eqn:H1; [|exact I].
    destruct (and_hms_opt _ _ _ _) as [dt|] eqn:H2; [|exact I]. cbn [ok_or bind].
    split; [reflexivity|]. eapply ymd_hms_valid; eassumption.
  - destruct t; cbn [add_to_seconds tt_ok size] in *; repeat gstep rec IH.
  - destruct t; cbn [add_to_minutes tt_ok size] in *; repeat gstep rec IH.
  - destruct t; cbn [add_to_hours tt_ok size] in *; repeat gstep rec IH.
  - destruct t; cbn [add_to_days tt_ok size] in *; repeat gstep rec IH.
  - destruct t; cbn [add_to_months tt_ok size] in *; repeat gstep rec IH.
  - destruct t; cbn [add_to_years tt_ok size] in *; repeat gstep rec IH.
  - destruct Hok as [Ha Hb].
    assert (month mom <= i64_max).
    { apply dt_valid_iff in Ha. destruct Ha as (_ & Ha & _). apply date_exists_iff in Ha.
      unfold i64_max. lia. }
    destruct t; cbn [add_to_moment tt_ok size] in *; repeat gstep rec IH; try assumption.
    eapply addc_range; eassumption.
  - destruct t; cbn [sub_from_seconds tt_ok size] in *; repeat gstep rec IH.
  - destruct t; cbn [sub_from_minutes tt_ok size] in *; repeat gstep rec IH.
  - destruct t; cbn [sub_from_hours tt_ok size] in *; repeat gstep rec IH.
  - destruct t; cbn [sub_from_days tt_ok size] in *; repeat gstep rec IH.
  - destruct t; cbn [sub_from_months tt_ok size] in *; repeat gstep rec IH.
  - destruct t; cbn [sub_from_years tt_ok size] in *; repeat gstep rec IH.
  - destruct Hok as [Ha Hb].
    destruct t; cbn [sub_from_moment tt_ok size] in *; repeat gstep rec IH; try assumption.
Qed.

Theorem run_good : forall n c, call_ok c -> (meas c < n)%nat -> good md (run md n c).
Proof.
  induction n; intros c Hok Hm; [lia|]. cbn [run]. eapply body_good; eauto.
Qed.

(** *** More fuel does not change a result *)
Definition le_res (x y : result) : Prop := x <> OutOfFuel -> y = x.
Lemma le_refl : forall x, le_res x x. Proof. intros x _. reflexivity. Qed.
Lemma le_bind : forall (x y : result) (f g : timetype -> result),
  le_res x y -> (forall a, le_res (f a) (g a)) -> le_res (bind x f) (bind y g).
Proof.
  intros x y f g Hxy Hfg H. destruct x; cbn [bind] in *;
    try (rewrite Hxy by discriminate; cbn [bind]; auto; fail).
  - rewrite Hxy by discriminate. cbn [bind]. apply Hfg. assumption.
  - contradiction.
Qed.
Lemma le_bind_same : forall {A} (x : outcome kek A) (f g : A -> result),
  (forall a, le_res (f a) (g a)) -> le_res (bind x f) (bind x g).
Proof. intros A x f g Hfg H. destruct x; cbn [bind] in *; auto. apply Hfg. assumption. Qed.

Ltac lstep Hle := repeat first
  [ apply le_refl
  | apply Hle
  | apply le_bind; [|intro]
  | apply le_bind_same; intro ].

Lemma body_le : forall rec rec', (forall c, le_res (rec c) (rec' c)) ->
  forall c, le_res (body md rec c) (body md rec' c).
Proof.
  intros rec rec' Hle c. destruct c; cbn [body].
  - destruct t; cbn [do_calculate]; lstep Hle.
  - destruct a, b; cbn [add]; lstep Hle.
  - destruct a, b; cbn [sub]; lstep Hle.
  - apply le_bind; [apply Hle|]. intros []; lstep Hle.
  - apply le_bind; [apply Hle|]. intros []; lstep Hle.
  - apply le_bind; [apply Hle|]. intros []; lstep Hle.
  - apply le_bind; [apply Hle|]. intros []; lstep Hle.
  - apply le_bind; [apply Hle|]. intros []; lstep Hle.
  - destruct t; cbn [add_to_seconds]; lstep Hle.
  - destruct t; cbn [add_to_minutes]; lstep Hle.
  - destruct t; cbn [add_to_hours]; lstep Hle.
  - destruct t; cbn [add_to_days]; lstep Hle.
  - destruct t; cbn [add_to_months]; lstep Hle.
  - destruct t; cbn [add_to_years]; lstep Hle.
  - destruct t; cbn [add_to_moment]; lstep Hle.
  - destruct t; cbn [sub_from_seconds]; lstep Hle.
  - destruct t; cbn [sub_from_minutes]; lstep Hle.
  - destruct t; cbn [sub_from_hours]; lstep Hle.
  - destruct t; cbn [sub_from_days]; lstep Hle.
  - destruct t; cbn [sub_from_months]; lstep Hle.
  - destruct t; cbn [sub_from_years]; lstep Hle.
  - destruct t; cbn [sub_from_moment]; lstep Hle.
Qed.

Lemma run_le_S : forall n c, le_res (run md n c) (run md (S n) c).
Proof.
  induction n; intro c.
  - intro H. cbn in H. contradiction.
  - cbn [run]. apply body_le. intro. apply IHn.
Qed.
Lemma run_le : forall n m c, (n <= m)%nat -> le_res (run md n c) (run md m c).
Proof.
  intros n m c H. induction H; [apply le_refl|].
  intro Hx. rewrite run_le_S; [apply IHle; assumption|]. rewrite IHle; assumption.
Qed.

(** *** Fuel-free evaluation *)
Definition ev (c : call) : result := run md (S (meas c)) c.

Lemma ev_good : forall c, call_ok c -> good md (ev c).
Proof. intros. apply run_good; auto. Qed.

Lemma run_ev : forall n c, call_ok c -> (meas c < n)%nat -> run md n c = ev c.
Proof.
  intros n c Hok Hn. apply (run_le (S (meas c)) n c); [lia|].
  pose proof (ev_good c Hok) as Hg. unfold ev in Hg. intro Hx. rewrite Hx in Hg. exact Hg.
Qed.

Lemma good_not_fuel : forall r, good md r -> r <> OutOfFuel.
Proof. intros r H ->. exact H. Qed.

Lemma and_dec : forall P Q : Prop, {P} + {~ P} -> {Q} + {~ Q} -> {P /\ Q} + {~ (P /\ Q)}.
Proof. intros P Q [] []; (left; split; assumption) || (right; intros []; contradiction). Defined.
Lemma call_ok_dec : forall c, {call_ok c} + {~ call_ok c}.
Proof. destruct c; cbn [call_ok]; try apply and_dec; apply bool_dec. Defined.

(** The equation of the evaluator. *)
Theorem ev_eq : forall c, call_ok c -> ev c = body md ev c.
Proof.
  intros c Hok.
  set (rec0 := fun c' => if call_ok_dec c' then if (meas c' <? meas c)%nat then ev c' else OutOfFuel
                         else OutOfFuel).
  assert (Hg : good md (body md rec0 c)).
  { apply (body_good rec0 (meas c)); [|assumption|lia].
    intros c' Hc' Hm'. unfold rec0. destruct (call_ok_dec c') as [_|n]; [|contradiction].
    apply Nat.ltb_lt in Hm'. rewrite Hm'. apply ev_good. assumption. }
  apply good_not_fuel in Hg.
  assert (H1 : ev c = body md rec0 c).
  { unfold ev. cbn [run]. apply (body_le rec0); [|assumption].
    intros c' Hx. unfold rec0 in *. destruct (call_ok_dec c') as [Hc'|]; [|contradiction].
    destruct (meas c' <? meas c)%nat eqn:Hlt; [|contradiction].
    apply run_ev; [assumption|]. apply Nat.ltb_lt. assumption. }
  rewrite H1. symmetry. apply (body_le rec0); [|assumption].
  intros c' Hx. unfold rec0 in *. destruct (call_ok_dec c') as [Hc'|]; [|contradiction].
  destruct (meas c' <? meas c)%nat; [reflexivity|contradiction].
Qed.
End Body.

Lemma calculate_ev : forall md t, calculate md t = ev md (CCalc t).
Proof. reflexivity. Qed.
