(** Proofs about stepping iterators. *)
Require Import ZArith Bool List Lia ZifyBool.
From Verif Require Import Prelude Spec Chrono Util TimeType Matcher Iter SpecTree SpecMoment SpecIter PreludeProofs CalendarProofs EvalProofs AmountProofs ShapeProofs CompProofs AddProofs AddProofs2 SubProofs SubProofs2.
Local Open Scope Z_scope.
Ltac Zify.zify_post_hook ::= Z.div_mod_to_equations.

(** ** Generic *)
Lemma after_add : forall {S} (nx : next_fn S) j k s, after nx (j + k) s = after nx k (after nx j s).
Proof. induction j; intros k s; [reflexivity|]. cbn. apply IHj. Qed.
Lemma after_S : forall {S} (nx : next_fn S) k s, after nx (Datatypes.S k) s = snd (nx (after nx k s)).
Proof. intros S nx k s. replace (Datatypes.S k) with (k + 1)%nat by lia. rewrite after_add. reflexivity. Qed.
Lemma nth_item_add : forall {S} (nx : next_fn S) j k s, nth_item nx (j + k) s = nth_item nx k (after nx j s).
Proof. intros. unfold nth_item. rewrite after_add. reflexivity. Qed.
Lemma items_nth : forall {S} (nx : next_fn S) k s i, (i < k)%nat -> nth_error (items nx k s) i = Some (nth_item nx i s).
Proof.
  induction k; intros s i H; [lia|]. destruct i; [reflexivity|]. cbn. rewrite IHk by lia. reflexivity.
Qed.

Lemma inst_year_end : forall m, dt_valid m = true -> inst m < instant (year m + 1) 1 1 0 0 0.
Proof.
  intros m Hm. rewrite inst_sod. pose proof (sod_range m Hm). pose proof (doy_bounds _ _ _ (valid_date m Hm)) as HB.
  unfold instant. rewrite day_number_jan, leap_year_step. unfold day_number. lia.
Qed.
Lemma inst_max : forall m, dt_valid m = true -> inst m < instant (max_year + 1) 1 1 0 0 0.
Proof.
  intros m Hm. pose proof (inst_year_end m Hm). destruct (valid_facts m Hm) as (Vy & _).
  pose proof (days_before_year_mono (year m + 1) (max_year + 1) ltac:(lia)).
  unfold instant in *. rewrite day_number_jan in *. lia.
Qed.

Section Iter.
Variable md : mode.

Lemma is_amount_mk : forall t, is_a_amount t = true -> exists u n, t = mk u n.
Proof.
  intros [] H; try discriminate H;
  [exists USec|exists UMin|exists UHour|exists UDay|exists UMonth|exists UYear]; exists n; reflexivity.
Qed.

(** ** Building *)
Lemma build_iff : forall b inc it, build b inc = Ok it <->
  is_a_amount inc = true /\ it = mkiter (Moment b) inc false.
Proof.
  intros b inc it. unfold build. destruct (is_a_amount inc); cbn; split; intro H.
  - injection H as <-. auto.
  - destruct H as [_ ->]. reflexivity.
  - discriminate.
  - destruct H. discriminate.
Qed.
Lemma ctor_moment : forall m n inc,
  minutely (Moment m) n = build m (Minutes n) /\ hourly (Moment m) n = build m (Hours n) /\
  daily (Moment m) n = build m (Days n) /\ monthly (Moment m) n = build m (Months n) /\
  yearly (Moment m) n = build m (Years n) /\ every (Moment m) inc = build m inc.
Proof. repeat split. Qed.
Lemma ctor_other : forall t n inc, is_moment t = false ->
  let e := Err (ArgumentErrorNotAnAmount t) in
  minutely t n = e /\ hourly t n = e /\ daily t n = e /\ weekly md t n = e /\ monthly t n = e /\ yearly t n = e /\ every t inc = e.
Proof. intros t n inc H. destruct t; try discriminate H; repeat split. Qed.
Lemma weekly_daily : forall t n, in_i64 (7 * n) = true -> weekly md t n = daily t (7 * n).
Proof.
  intros t n H. destruct t; try reflexivity. cbn [weekly daily]. unfold mulc. cbn [bind].
  replace (n * 7) with (7 * n) by lia. unfold arith. rewrite H. reflexivity.
Qed.
Lemma weekly_overflow : forall m n, in_i64 n = true -> in_i64 (7 * n) = false ->
  weekly md (Moment m) n = match md with Checked => Panic PArith | Wrapping => daily (Moment m) (wrap64 (7 * n)) end.
Proof.
  intros m n _ H. cbn [weekly daily]. unfold mulc. cbn [bind].
  replace (n * 7) with (7 * n) by lia. unfold arith. rewrite H. destruct md; reflexivity.
Qed.

(** ** Basic stepping *)
Definition step (it : iter) : timetype := Addition (base it) (increment it).
Lemma next_first : forall it, had_first it = false ->
  iter_next md it = (Some (Ok (base it)), mkiter (base it) (increment it) true).
Proof. intros [b i h] H. cbn in H. subst h. reflexivity. Qed.
Lemma next_later : forall it, had_first it = true ->
  iter_next md it = match calculate md (step it) with
                    | Ok v => (Some (Ok v), mkiter v (increment it) true)
                    | r => (Some r, mkiter (step it) (increment it) true)
                    end.
Proof.
  intros [b i h] H. cbn in H. subst h. unfold iter_next, skip, recalculate, step, op_add_assign. cbn [had_first negb base increment].
  destruct (calculate md (Addition b i)); reflexivity.
Qed.
Lemma next_some : forall it, exists r, fst (iter_next md it) = Some r /\ had_first (snd (iter_next md it)) = true /\
  increment (snd (iter_next md it)) = increment it.
Proof.
  intro it. destruct (had_first it) eqn:H.
  - rewrite next_later by exact H. destruct (calculate md (step it)); repeat eexists.
  - rewrite next_first by exact H. repeat eexists.
Qed.
Lemma never_none : forall k it, nth_item (iter_next md) k it <> None.
Proof.
  intros k it. unfold nth_item. destruct (next_some (after (iter_next md) k it)) as (r & -> & _). discriminate.
Qed.
Lemma after_inc : forall k it, increment (after (iter_next md) k it) = increment it /\
  (had_first it = true \/ (0 < k)%nat -> had_first (after (iter_next md) k it) = true).
Proof.
  induction k; intro it; cbn [after].
  - split; [reflexivity|]. intros [H|H]; [exact H|lia].
  - destruct (next_some it) as (r & _ & H1 & H2). destruct (IHk (snd (iter_next md it))) as [H3 H4].
    rewrite H3, H2. split; [reflexivity|]. intros _. apply H4. left. exact H1.
Qed.

(** ** Errors *)
Definition binary (t : timetype) : bool := match t with Addition _ _ | Subtraction _ _ => true | _ => false end.
Definition stuck (e : kek) (it : iter) : Prop :=
  iter_ok it /\ binary (base it) = true /\ calculate md (base it) = Err e /\ had_first it = true.

Lemma err_add : forall t u n e, tt_ok t = true -> in_i64 n = true -> binary t = true -> calculate md t = Err e ->
  calculate md (Addition t (mk u n)) = Err e.
Proof.
  intros t u n e Ht Hn Hb E. assert (Hu : tt_ok (mk u n) = true) by (rewrite ok_mk; exact Hn).
  rewrite calc_eq in E by exact Ht.
  rewrite (calc_eq md (Addition t (mk u n))) by (cbn [tt_ok]; rewrite Ht; exact Hu). cbn [do_calculate].
  rewrite ev_eq by (split; assumption). cbn [body].
  destruct t; try discriminate Hb; cbn [do_calculate] in E; destruct u; cbn [mk add]; rewrite E; reflexivity.
Qed.
Lemma err_sub : forall t u n e, tt_ok t = true -> in_i64 n = true -> binary t = true -> calculate md t = Err e ->
  calculate md (Subtraction t (mk u n)) = Err e.
Proof.
  intros t u n e Ht Hn Hb E. assert (Hu : tt_ok (mk u n) = true) by (rewrite ok_mk; exact Hn).
  rewrite calc_eq in E by exact Ht.
  rewrite (calc_eq md (Subtraction t (mk u n))) by (cbn [tt_ok]; rewrite Ht; exact Hu). cbn [do_calculate].
  rewrite ev_eq by (split; assumption). cbn [body].
  destruct t; try discriminate Hb; cbn [do_calculate] in E; destruct u; cbn [mk sub]; rewrite E; reflexivity.
Qed.

Lemma stuck_step : forall e it o, stuck e it ->
  fst (perform md o it) = Some e /\ stuck e (snd (perform md o it)) /\
  (o = Next -> fst (iter_next md it) = Some (Err e)).
Proof.
  intros e [b i h] o [(Hb & Hi & Ha) (Hbin & E & Hf)]. cbn [base increment had_first] in *. subst h.
  destruct (is_amount_mk i Ha) as (u & n & ->). rewrite ok_mk in Hi.
  pose proof (err_add b u n e Hb Hi Hbin E) as EA. pose proof (err_sub b u n e Hb Hi Hbin E) as ES.
  assert (OA : tt_ok (Addition b (mk u n)) = true) by (cbn [tt_ok]; rewrite Hb, ok_mk; exact Hi).
  assert (OS : tt_ok (Subtraction b (mk u n)) = true) by exact OA.
  assert (Hi' : tt_ok (mk u n) = true) by (rewrite ok_mk; exact Hi).
  destruct o; unfold perform.
  - rewrite next_later by reflexivity. unfold step. cbn [base increment]. rewrite EA.
    split; [reflexivity|]. split; [|reflexivity]. repeat split; assumption.
  - unfold skip, recalculate, op_add_assign. cbn [base increment had_first]. rewrite EA.
    split; [reflexivity|]. split; [|discriminate]. repeat split; assumption.
  - unfold rollback, recalculate, op_sub_assign. cbn [base increment had_first]. rewrite ES.
    split; [reflexivity|]. split; [|discriminate]. repeat split; assumption.
Qed.

Lemma next_err_stuck : forall it e it', iter_ok it -> iter_next md it = (Some (Err e), it') -> stuck e it'.
Proof.
  intros it e it' Hok H. destruct (had_first it) eqn:Hf.
  - rewrite next_later in H by exact Hf. destruct Hok as (Hb & Hi & Ha).
    destruct (calculate md (step it)) eqn:E; try discriminate H. injection H as -> <-.
    assert (OA : tt_ok (step it) = true) by (unfold step; cbn [tt_ok]; rewrite Hb; exact Hi).
    repeat split; assumption.
  - rewrite next_first in H by exact Hf. discriminate.
Qed.
Lemma stuck_performs : forall os e it, stuck e it -> stuck e (performs md os it).
Proof.
  induction os as [|o os IH]; intros e it H; [exact H|]. cbn [performs]. apply IH. apply stuck_step. exact H.
Qed.
Lemma sticky : forall it e it', iter_ok it -> iter_next md it = (Some (Err e), it') ->
  forall k, nth_item (iter_next md) k it' = Some (Err e).
Proof.
  intros it e it' Hok H k. apply next_err_stuck in H; [|exact Hok].
  assert (P : forall k, stuck e (after (iter_next md) k it')).
  { clear k. induction k; [exact H|]. rewrite after_S.
    destruct (stuck_step e _ Next IHk) as (_ & S & _). unfold perform in S.
    destruct (iter_next md (after (iter_next md) k it')). exact S. }
  unfold nth_item. destruct (stuck_step e _ Next (P k)) as (_ & _ & Q). apply Q. reflexivity.
Qed.
Lemma sticky_all : forall it e it' os o, iter_ok it -> iter_next md it = (Some (Err e), it') ->
  fst (perform md o (performs md os it')) = Some e.
Proof.
  intros it e it' os o Hok H. apply next_err_stuck in H; [|exact Hok].
  apply stuck_step. apply stuck_performs. exact H.
Qed.

(** ** States of a running iterator *)

Lemma next_moment : forall u n m m', calculate md (Addition (Moment m) (mk u n)) = Ok (Moment m') ->
  iter_next md (at_moment u n m true) = (Some (Ok (Moment m')), at_moment u n m' true).
Proof. intros u n m m' E. rewrite next_later by reflexivity. unfold step, at_moment. cbn [base increment]. rewrite E. reflexivity. Qed.
Lemma next_moment_err : forall u n m e, calculate md (Addition (Moment m) (mk u n)) = Err e ->
  exists it', iter_next md (at_moment u n m true) = (Some (Err e), it').
Proof. intros u n m e E. rewrite next_later by reflexivity. unfold step, at_moment. cbn [base increment]. rewrite E. eexists. reflexivity. Qed.

(** If [f] describes the moments, stepping follows it. *)
Lemma follow : forall u n m (f : nat -> datetime) K, 
  (forall k, (k < K)%nat -> calculate md (Addition (Moment (match k with O => m | _ => f k end)) (mk u n)) = Ok (Moment (f (Datatypes.S k)))) ->
  forall k, (k <= K)%nat -> after (iter_next md) k (at_moment u n m true) = at_moment u n (match k with O => m | _ => f k end) true.
Proof.
  intros u n m f K H. induction k; intro Hk; [reflexivity|].
  rewrite after_S, IHk by lia. rewrite (next_moment u n _ _ (H k ltac:(lia))). reflexivity.
Qed.
Lemma fresh_after : forall u n m k, after (iter_next md) (Datatypes.S k) (at_moment u n m false) =
  after (iter_next md) k (at_moment u n m true).
Proof. reflexivity. Qed.
Lemma fresh_item : forall u n m k, nth_item (iter_next md) (Datatypes.S k) (at_moment u n m false) =
  nth_item (iter_next md) k (at_moment u n m true).
Proof. reflexivity. Qed.

(** The item after [K] good steps, and everything after a failed one. *)
Lemma follow_item : forall u n m f K k,
  (forall k, (k < K)%nat -> calculate md (Addition (Moment (match k with O => m | _ => f k end)) (mk u n)) = Ok (Moment (f (Datatypes.S k)))) ->
  (1 <= k <= K)%nat -> nth_item (iter_next md) k (at_moment u n m false) = Some (Ok (Moment (f k))).
Proof.
  intros u n m f K k H Hk. destruct k as [|k]; [lia|]. rewrite fresh_item. unfold nth_item.
  rewrite (follow u n m f K H k) by lia. rewrite (next_moment u n _ _ (H k ltac:(lia))). reflexivity.
Qed.
Lemma follow_fail : forall u n m f K e k, in_i64 n = true ->
  (forall k, (k < K)%nat -> calculate md (Addition (Moment (match k with O => m | _ => f k end)) (mk u n)) = Ok (Moment (f (Datatypes.S k)))) ->
  dt_valid (match K with O => m | _ => f K end) = true ->
  calculate md (Addition (Moment (match K with O => m | _ => f K end)) (mk u n)) = Err e ->
  (K < k)%nat -> nth_item (iter_next md) k (at_moment u n m false) = Some (Err e).
Proof.
  intros u n m f K e k Hn H V E Hk. destruct k as [|k]; [lia|]. rewrite fresh_item.
  replace k with (K + (k - K))%nat by lia. rewrite nth_item_add.
  rewrite (follow u n m f K H K) by lia.
  destruct (next_moment_err u n _ e E) as [it' N].
  destruct (k - K)%nat as [|j]; [unfold nth_item; cbn [after]; rewrite N; reflexivity|].
  change (Datatypes.S j) with (1 + j)%nat. rewrite nth_item_add. cbn [after]. rewrite N. cbn [snd].
  apply (sticky _ _ _) with (2 := N). repeat split; cbn; [exact V|rewrite ok_mk; exact Hn|destruct u; reflexivity].
Qed.

(** ** Clock units, at most 30 days *)
Lemma iter_clock : forall m u n k, dt_valid m = true -> clock_unit u = true -> 0 <= n -> n * unit_secs u <= 30 * 86400 ->
  (1 <= k)%nat -> inst m + Z.of_nat k * n * unit_secs u < instant (max_year + 1) 1 1 0 0 0 ->
  exists m', nth_item (iter_next md) k (at_moment u n m false) = Some (Ok (Moment m')) /\
    after (iter_next md) (Datatypes.S k) (at_moment u n m false) = at_moment u n m' true /\
    dt_valid m' = true /\ nano m' = 0 /\ inst m' = inst m + Z.of_nat k * n * unit_secs u.
Proof.
  intros m u n k Hm Hu Hn Hd Hk HR. pose proof (clock_unit_secs u Hu) as Hus.
  set (N := n * unit_secs u) in *. assert (HN : 0 <= N) by (subst N; nia).
  replace (Z.of_nat k * n * unit_secs u) with (Z.of_nat k * N) in * by (subst N; lia).
  assert (Step : forall m0, dt_valid m0 = true -> inst m0 + N < instant (max_year + 1) 1 1 0 0 0 ->
    exists m1, calculate md (Addition (Moment m0) (mk u n)) = Ok (Moment m1) /\ dt_valid m1 = true /\ nano m1 = 0 /\ inst m1 = inst m0 + N).
  { intros m0 V0 R0. apply add_clock_exact; try assumption.
    rewrite inst_sod. pose proof (sod_range m0 V0). pose proof (doy_bounds _ _ _ (valid_date m0 V0)) as HB.
    unfold instant. rewrite day_number_jan, leap_year_step.
    assert (Q : day_number (year m0) (month m0) (day m0) <= days_before_year (year m0) + year_length (year m0)) by (unfold day_number; lia).
    fold N. lia. }
  revert Hk HR. induction k as [|k IH]; intros Hk HR; [lia|].
  destruct k as [|k].
  - destruct (Step m Hm) as (m1 & E & V & Z0 & I1); [lia|]. exists m1.
    rewrite fresh_item, fresh_after. unfold nth_item. cbn [after]. rewrite (next_moment u n _ _ E).
    repeat split; try assumption. rewrite I1. lia.
  - destruct IH as (m1 & E1 & A1 & V1 & Z1 & I1); [lia|lia|].
    destruct (Step m1 V1) as (m2 & E & V & Z0 & I2); [lia|]. exists m2.
    unfold nth_item. rewrite (after_S _ (Datatypes.S (Datatypes.S k))). rewrite A1. rewrite (next_moment u n _ _ E).
    repeat split; try assumption. rewrite I2, I1. lia.
Qed.

Lemma iter_clock_beyond : forall m u n k, dt_valid m = true -> clock_unit u = true -> 0 <= n -> n * unit_secs u <= 30 * 86400 ->
  instant (max_year + 1) 1 1 0 0 0 <= inst m + Z.of_nat k * n * unit_secs u ->
  exists y mo d h mi s, nth_item (iter_next md) k (at_moment u n m false) = Some (Err (OutOfBounds y mo d h mi s)) /\
    forall j, (k <= j)%nat -> nth_item (iter_next md) j (at_moment u n m false) = Some (Err (OutOfBounds y mo d h mi s)).
Proof.
  intros m u n k Hm Hu Hn Hd HR. pose proof (clock_unit_secs u Hu) as Hus.
  assert (Hmax : inst m < instant (max_year + 1) 1 1 0 0 0).
  { apply inst_max. exact Hm. }
  assert (HN : 0 < n * unit_secs u) by nia.
  assert (Hi : in_i64 n = true) by (apply in_i64_iff; unfold i64_min, i64_max; nia).
  (* the last good step *)
  induction k as [|k IH]; [lia|].
  destruct (Z_lt_le_dec (inst m + Z.of_nat k * n * unit_secs u) (instant (max_year + 1) 1 1 0 0 0)) as [L|G].
  - assert (B : exists m', after (iter_next md) (Datatypes.S k) (at_moment u n m false) = at_moment u n m' true /\
      dt_valid m' = true /\ inst m' = inst m + Z.of_nat k * n * unit_secs u).
    { destruct k as [|k].
      - exists m. repeat split; [assumption|lia].
      - destruct (iter_clock m u n (Datatypes.S k) Hm Hu Hn Hd ltac:(lia) L) as (m' & _ & A & V & _ & I'). exists m'. auto. }
    destruct B as (m' & A & V & I').
    assert (O : oob (calculate md (Addition (Moment m') (mk u n)))).
    { apply add_clock_beyond; try assumption; [unfold span32; lia|]. rewrite I'. lia. }
    destruct O as (y & mo & d & h & mi & s & E). exists y, mo, d, h, mi, s.
    destruct (next_moment_err u n m' _ E) as [it' N].
    assert (F : nth_item (iter_next md) (Datatypes.S k) (at_moment u n m false) = Some (Err (OutOfBounds y mo d h mi s))).
    { unfold nth_item. rewrite A, N. reflexivity. }
    split; [exact F|]. intros j Hj. replace j with (Datatypes.S k + (j - Datatypes.S k))%nat by lia.
    rewrite nth_item_add, A. destruct (j - Datatypes.S k)%nat as [|i]; [unfold nth_item; cbn [after]; rewrite N; reflexivity|].
    change (Datatypes.S i) with (1 + i)%nat. rewrite nth_item_add. cbn [after]. rewrite N. cbn [snd].
    apply (sticky _ _ _) with (2 := N). repeat split; cbn; [exact V|rewrite ok_mk; exact Hi|destruct u; reflexivity].
  - destruct (IH G) as (y & mo & d & h & mi & s & _ & F). exists y, mo, d, h, mi, s.
    split; [apply F; lia|]. intros j Hj. apply F. lia.
Qed.
End Iter.
