(** The tests of src/iter.rs 567-627 that read the clock, for every reading. *)
Require Import ZArith Bool List Lia ZifyBool.
From Verif Require Import Prelude Spec Chrono TimeType Iter SpecTree SpecMoment SpecIter SpecAdapt SpecSeq
  PreludeProofs CalendarProofs EvalProofs CompProofs AddProofs AddProofs2 SubProofs SubProofs2 OrdProofs IterProofs IterProofs2 AdapterProofs SeqProofs.
Import ListNotations.
Local Open Scope Z_scope.
Ltac Zify.zify_post_hook ::= Z.div_mod_to_equations.

Lemma add_days_few : forall md m n, dt_valid m = true -> 0 <= n <= 30 -> inst m + n * 86400 < instant (max_year + 1) 1 1 0 0 0 ->
  exists e, calculate md (op_add (today m) (days n)) = Ok (Moment e) /\ dt_valid e = true /\ nano e = 0 /\ inst e = inst m + n * 86400.
Proof.
  intros md m n Hm Hn Hr. apply (add_clock_exact md m UDay n Hm eq_refl ltac:(lia)); [|exact Hr].
  pose proof (inst_year_end m Hm) as Y. unfold instant in *. rewrite day_number_jan in *. cbn [unit_secs]. lia.
Qed.
Lemma test_until_1_ok : forall md now1 now2, dt_valid now1 = true -> dt_valid now2 = true ->
  inst now1 <= inst now2 < inst now1 + 86400 -> inst now2 + 86400 < instant (max_year + 1) 1 1 0 0 0 ->
  exists e it l, calculate md (op_add (today now1) (days 1)) = Ok (Moment e) /\ daily (today now2) 1 = Ok it /\
    collects (until_next md (iter_next md) e) it l /\ length l = 1%nat.
Proof.
  intros md a b Ha Hb Hab Hr. destruct (add_days_few md a 1 Ha ltac:(lia) ltac:(lia)) as (e & E & V & N & I).
  exists e. exists (mkiter (Moment b) (Days 1) false).
  assert (Bu : build b (mk UDay 1) = Ok (mkiter (Moment b) (Days 1) false)) by reflexivity.
  assert (S1 : steps_before b e (1 * unit_secs UDay) = 1).
  { unfold steps_before. rewrite N. change (0 <? 0) with false. cbv iota. cbn [unit_secs]. lia. }
  destruct (until_count md b UDay 1 _ e Bu Hb eq_refl ltac:(lia) ltac:(cbn; lia) V) as (l & C & L & _).
  { left. lia. }
  { rewrite S1. cbn [unit_secs]. lia. }
  exists l. split; [exact E|]. split; [reflexivity|]. split; [exact C|]. rewrite S1 in L. lia.
Qed.
Lemma test_until_2_ok : forall md now1 now2, dt_valid now1 = true -> dt_valid now2 = true ->
  inst now1 <= inst now2 < inst now1 + 3600 -> inst now2 + 2 * 86400 < instant (max_year + 1) 1 1 0 0 0 ->
  exists e it l, calculate md (op_add (today now1) (days 2)) = Ok (Moment e) /\ hourly (today now2) 1 = Ok it /\
    collects (until_next md (iter_next md) e) it l /\ length l = 48%nat.
Proof.
  intros md a b Ha Hb Hab Hr. destruct (add_days_few md a 2 Ha ltac:(lia) ltac:(lia)) as (e & E & V & N & I).
  exists e. exists (mkiter (Moment b) (Hours 1) false).
  assert (Bu : build b (mk UHour 1) = Ok (mkiter (Moment b) (Hours 1) false)) by reflexivity.
  assert (S1 : steps_before b e (1 * unit_secs UHour) = 48).
  { unfold steps_before. rewrite N. change (0 <? 0) with false. cbv iota. cbn [unit_secs]. lia. }
  destruct (until_count md b UHour 1 _ e Bu Hb eq_refl ltac:(lia) ltac:(cbn; lia) V) as (l & C & L & _).
  { left. lia. }
  { rewrite S1. cbn [unit_secs]. lia. }
  exists l. split; [exact E|]. split; [reflexivity|]. split; [exact C|]. rewrite S1 in L. lia.
Qed.
Lemma test_until_when_ok : forall md now1 now2 y, dt_valid now1 = true -> dt_valid now2 = true -> inst now1 <= inst now2 ->
  calculate md (op_sub (today now1) (days 1)) = Ok (Moment y) ->
  exists it, daily (today now2) 1 = Ok it /\ collects (until_next md (iter_next md) y) it nil.
Proof.
  intros md a b y Ha Hb Hab E. exists (mkiter (Moment b) (Days 1) false). split; [reflexivity|].
  pose proof (sub_days_deviation md a 1 y Ha ltac:(lia) E) as D.
  assert (Vy : dt_valid y = true).
  { pose proof (calc_tt_ok md (Subtraction (Moment a) (Days 1)) (Moment y)) as K. apply K; [|exact E]. cbn [tt_ok]. rewrite Ha. reflexivity. }
  assert (Ny : nano y = 0).
  { destruct (sub_days md a 1 Ha ltac:(lia)) as [C _]. destruct (valid_facts a Ha) as (_ & _ & Vd & _). unfold op_sub, today, days in E. rewrite C in E by lia.
    unfold built3 in E. destruct (back_day (year a) (month a) (day a - 1)) as [[y1 m1] d1]. apply built_ok in E. destruct E as (_ & E). injection E as E. rewrite E. reflexivity. }
  assert (I : inst y <= inst a - 86400).
  { destruct (valid_facts a Ha) as (Vyr & Vmo & Vd & _). destruct (sub_days md a 1 Ha ltac:(lia)) as [C _]. unfold op_sub, today, days in E. rewrite C in E by lia.
    destruct (1 <=? day a - 1) eqn:Q; [lia|]. assert (day a = 1) by lia.
    assert (B : back_day (year a) (month a) (day a - 1) = (let '(y', mo') := prev_month (year a) (month a) in (y', mo', 31))).
    { unfold back_day. rewrite Q. destruct (prev_month (year a) (month a)). replace (31 + (day a - 1)) with 31 by lia. reflexivity. }
    rewrite B in E. destruct (prev_month (year a) (month a)) as [py pm]. cbn [built3] in E. apply built_ok in E. destruct E as (R & _).
    apply representable_iff in R. destruct R as [_ R]. apply date_exists_iff in R. lia. }
  apply (until_empty md b (Days 1)); try assumption; [reflexivity|]. unfold before. pose proof (nano_range b Hb). lia.
Qed.
(** The days on which that test panics. *)
Lemma yesterday_fails : forall md m, dt_valid m = true ->
  (exists y, calculate md (op_sub (today m) (days 1)) = Ok (Moment y)) <->
  1 < day m \/ (let '(py, pm) := prev_month (year m) (month m) in month_length py pm = 31 /\ min_year <= py).
Proof.
  intros md m Hm. destruct (valid_facts m Hm) as (Vyr & Vmo & Vd & Vml & _). destruct (sub_days md m 1 Hm ltac:(lia)) as [C _].
  unfold op_sub, today, days. rewrite C by lia. unfold back_day.
  destruct (Z_lt_le_dec 1 (day m)) as [L|L].
  - replace (1 <=? day m - 1) with true by lia. cbn [built3]. unfold built. replace (representable (year m) (month m) (day m - 1)) with true.
    + split; [left; exact L|intros _; eexists; reflexivity].
    + symmetry. apply representable_iff. split; [assumption|]. apply date_exists_iff. lia.
  - assert (day m = 1) as -> by lia. change (1 <=? 1 - 1) with false. cbv iota. unfold prev_month.
    destruct (month m =? 1) eqn:M; cbn [built3]; unfold built; change (31 + (1 - 1)) with 31.
    + change (month_length (year m - 1) 12) with 31. destruct (representable (year m - 1) 12 31) eqn:R.
      * apply representable_iff in R. split; [intros _; right; lia|intros _; eexists; reflexivity].
      * split; [intros [y Q]; discriminate|]. intros [Q|[_ Q]]; [lia|]. exfalso. apply not_true_iff_false in R. apply R. apply representable_iff.
        split; [lia|reflexivity].
    + pose proof (month_length_bounds (year m) (month m - 1) ltac:(lia)). destruct (representable (year m) (month m - 1) 31) eqn:R.
      * apply representable_iff in R. destruct R as [_ R]. apply date_exists_iff in R. split; [intros _; right; lia|intros _; eexists; reflexivity].
      * split; [intros [y Q]; discriminate|]. intros [Q|[Q _]]; [lia|]. exfalso. apply not_true_iff_false in R. apply R. apply representable_iff.
        split; [lia|]. apply date_exists_iff. lia.
Qed.
