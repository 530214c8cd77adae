(** Weekday and month filters, and absence of panics in iteration. *)
Require Import ZArith Bool List Lia ZifyBool.
From Verif Require Import Prelude Spec PreludeProofs CalendarProofs Chrono TimeType Matcher Iter SpecTree SpecMoment SpecIter SpecAdapt
  EvalProofs ShapeProofs CompProofs AmountProofs AddProofs OrdProofs IterProofs IterProofs2 AdapterProofs AdapterProofs2.
Import ListNotations.
Local Open Scope Z_scope.

Section Filters.
Variable md : mode.

(** If the items with index [g + p*j] match and the others do not, they are what every() yields. *)
Lemma every_periodic : forall S (nx : next_fn S) m s (g p fuel : nat) J, (g < p)%nat -> (p <= fuel)%nat ->
  (forall i, (i <= g + p * J)%nat -> exists t, nth_item nx i s = Some (Ok t) /\ m t = Ok (Nat.eqb (i mod p) g)) ->
  forall j, (j <= J)%nat ->
  nth_item (filter_next nx fuel m) j s = nth_item nx (g + p * j) s /\
  after (filter_next nx fuel m) (Datatypes.S j) s = after nx (Datatypes.S (g + p * j)) s.
Proof.
  intros S nx m s g p fuel J Hg Hf Hi.
  assert (Step : forall s0 c d, s0 = after nx c s -> (d < fuel)%nat -> (c + d <= g + p * J)%nat ->
    (forall i, (c <= i < c + d)%nat -> (i mod p)%nat <> g) -> ((c + d) mod p = g)%nat ->
    filter_next nx fuel m s0 = (nth_item nx (c + d) s, after nx (Datatypes.S (c + d)) s)).
  { intros s0 c d -> Hd HJ Hno Hyes.
    change (filter_next nx fuel m) with (drop_next nx m false fuel).
    rewrite (drop_first nx m false d fuel (after nx c s) Hd).
    - rewrite <- nth_item_add. destruct (Hi (c + d)%nat HJ) as (t & E1 & E2). f_equal.
      + rewrite E1. cbn [seen]. rewrite E2. reflexivity.
      + rewrite <- after_add. f_equal. lia.
    - intros i Hid. rewrite <- nth_item_add. destruct (Hi (c + i)%nat ltac:(lia)) as (t & E1 & E2).
      rewrite E1. cbn [decided]. rewrite E2. specialize (Hno (c + i)%nat ltac:(lia)).
      apply Nat.eqb_neq in Hno. rewrite Hno. reflexivity.
    - rewrite <- nth_item_add. destruct (Hi (c + d)%nat HJ) as (t & E1 & E2).
      rewrite E1. cbn [decided]. rewrite E2, Hyes, Nat.eqb_refl. reflexivity. }
  assert (Md : forall a j, (a < p)%nat -> ((a + p * j) mod p = a)%nat).
  { intros a j Ha. rewrite Nat.mul_comm, Nat.mod_add by lia. apply Nat.mod_small. exact Ha. }
  induction j as [|j IH]; intro Hj.
  - unfold nth_item at 1. cbn [after]. rewrite (Step s 0%nat g eq_refl); [|lia|lia| |].
    + cbn [fst snd]. replace (g + p * 0)%nat with (0 + g)%nat by lia. split; reflexivity.
    + intros i Hii. rewrite Nat.mod_small by lia. lia.
    + cbn [Nat.add]. apply Nat.mod_small. lia.
  - destruct IH as [_ A]; [lia|]. unfold nth_item at 1. rewrite (after_S (filter_next nx fuel m) (Datatypes.S j)), A.
    rewrite (Step _ (Datatypes.S (g + p * j)) (p - 1)%nat eq_refl); [|lia|nia| |].
    + cbn [fst snd]. replace (Datatypes.S (g + p * j) + (p - 1))%nat with (g + p * Datatypes.S j)%nat by nia. split; reflexivity.
    + intros i Hii. assert (E : exists r, (i = r + p * j /\ g < r < p)%nat \/ (i = r + p * Datatypes.S j /\ r < g)%nat).
      { destruct (le_lt_dec (p * Datatypes.S j) i) as [L|G].
        - exists (i - p * Datatypes.S j)%nat. right. lia.
        - exists (i - p * j)%nat. left. lia. }
      destruct E as [r [[-> E]|[-> E]]]; rewrite Md; lia.
    + replace (Datatypes.S (g + p * j) + (p - 1))%nat with (g + p * Datatypes.S j)%nat by nia. apply Md. exact Hg.
Qed.

(** Daily iteration: item [k] is the weekday [k] days later. *)
Lemma weekday_shift : forall m m' k, dt_valid m = true -> dt_valid m' = true -> inst m' = inst m + k * 86400 ->
  weekday (year m') (month m') (day m') = (weekday (year m) (month m) (day m) + k) mod 7.
Proof.
  intros m m' k Hm Hm' I. rewrite !inst_sod in I. pose proof (sod_range m Hm). pose proof (sod_range m' Hm').
  unfold weekday.
  assert (Q : day_number (year m') (month m') (day m') = day_number (year m) (month m) (day m) + k).
  { generalize dependent (day_number (year m') (month m') (day m')).
    generalize (day_number (year m) (month m) (day m)). intros. lia. }
  rewrite Q. generalize (day_number (year m) (month m) (day m)). intro z. lia.
Qed.

Lemma every_weekday : forall m it d fuel j, build m (Days 1) = Ok it -> dt_valid m = true -> (7 <= fuel)%nat ->
  let k := (wday_into d - weekday (year m) (month m) (day m)) mod 7 + 7 * Z.of_nat j in
  inst m + k * 86400 < instant (max_year + 1) 1 1 0 0 0 ->
  exists m', nth_item (filter_next (iter_next md) fuel (day_matches d)) j it = Some (Ok (Moment m')) /\
    dt_valid m' = true /\ inst m' = inst m + k * 86400 /\ is_a (Moment m') d = Ok true.
Proof.
  intros m it d fuel j B Hm Hf k HR.
  set (w := weekday (year m) (month m) (day m)) in *.
  pose proof (Z.mod_pos_bound (wday_into d - w) 7 ltac:(lia)) as Gb.
  assert (Db : 0 <= wday_into d < 7) by (destruct d; cbn; lia).
  set (g := (wday_into d - w) mod 7) in *.
  assert (It : forall i, inst m + Z.of_nat i * 86400 < instant (max_year + 1) 1 1 0 0 0 ->
    exists m', nth_item (iter_next md) i it = Some (Ok (Moment m')) /\ dt_valid m' = true /\ inst m' = inst m + Z.of_nat i * 86400).
  { intros [|i] Hi.
    - exists m. rewrite (build_first md _ _ _ B). split; [reflexivity|]. split; [exact Hm|]. lia.
    - destruct (b_clock md m UDay 1 it (S i) B Hm eq_refl ltac:(lia) ltac:(cbn; lia) ltac:(lia)) as (m' & F & V & _ & I).
      + cbn [unit_secs]. lia.
      + exists m'. split; [exact F|]. split; [exact V|]. rewrite I. cbn [unit_secs]. lia. }
  assert (Dec : forall i m', dt_valid m' = true -> inst m' = inst m + Z.of_nat i * 86400 ->
    day_matches d (Moment m') = Ok (Nat.eqb (i mod 7) (Z.to_nat g))).
  { intros i m' V I. cbn [day_matches get_moment ok_or]. unfold day_matches. cbn [get_moment ok_or]. f_equal.
    unfold dt_weekday. rewrite (weekday_shift m m' (Z.of_nat i) Hm V I). fold w.
    assert (Wb : 0 <= w < 7) by (apply weekday_range).
    assert (E : Z.of_nat (i mod 7) = Z.of_nat i mod 7) by (rewrite Nat2Z.inj_mod; reflexivity).
    unfold g in *. clear It HR B Hm V I Hf.
    destruct (Z.eqb_spec (wday_into d) ((w + Z.of_nat i) mod 7)) as [Q|Q]; symmetry.
    - apply Nat.eqb_eq. apply Nat2Z.inj. rewrite E, Z2Nat.id by lia. lia.
    - apply Nat.eqb_neq. intro C. apply Q. assert (C' : Z.of_nat (i mod 7) = (wday_into d - w) mod 7) by (rewrite C, Z2Nat.id; lia).
      rewrite E in C'. lia. }
  destruct (every_periodic iter (iter_next md) (day_matches d) it (Z.to_nat g) 7 fuel j ltac:(lia) Hf) with (j := j) as [R _]; [|lia|].
  - intros i Hi. destruct (It i) as (m' & F & V & I).
    + unfold k in HR. nia.
    + exists (Moment m'). split; [exact F|]. apply Dec; assumption.
  - destruct (It (Z.to_nat g + 7 * j)%nat) as (m' & F & V & I).
    + unfold k in HR. replace (Z.of_nat (Z.to_nat g + 7 * j)) with (g + 7 * Z.of_nat j) by lia. exact HR.
    + exists m'. rewrite R, F. split; [reflexivity|]. split; [exact V|].
      replace (Z.of_nat (Z.to_nat g + 7 * j)) with (g + 7 * Z.of_nat j) in I by lia. split; [exact I|].
      pose proof (Dec (Z.to_nat g + 7 * j)%nat m' V) as D.
      replace (Z.of_nat (Z.to_nat g + 7 * j)) with (g + 7 * Z.of_nat j) in D by lia. specialize (D I).
      assert (Em : ((Z.to_nat g + 7 * j) mod 7 = Z.to_nat g)%nat) by (rewrite Nat.mul_comm, Nat.mod_add by lia; apply Nat.mod_small; lia).
      rewrite Em, Nat.eqb_refl in D.
      rewrite agree_day in D. destruct (is_a (Moment m') d) as [b|e|p|]; try discriminate D.
      exact D.
Qed.

(** Monthly iteration filtered by a month: that month of every year. *)
Lemma every_month : forall m it mo fuel j, build m (Months 1) = Ok it -> dt_valid m = true -> day m <= 28 -> (12 <= fuel)%nat ->
  let k := (ymonth_into mo - month m) mod 12 + 12 * Z.of_nat j in
  let i := year m * 12 + month m - 1 + k in
  0 < k -> i / 12 <= max_year ->
  nth_item (filter_next (iter_next md) fuel (month_matches mo)) j it = Some (Ok (Moment (in_month i (day m) m))) /\
  month (in_month i (day m) m) = ymonth_into mo.
Proof.
  intros m it mo fuel j B Hm Hd Hf k i Hk HR.
  destruct (valid_facts m Hm) as (Vy & Vmo & Vd & Vml & Vh & Vmi & Vs).
  pose proof (Z.mod_pos_bound (ymonth_into mo - month m) 12 ltac:(lia)) as Gb.
  assert (Db : 1 <= ymonth_into mo <= 12) by (destruct mo; cbn; lia).
  set (g := (ymonth_into mo - month m) mod 12) in *.
  set (c := fun q : nat => year m * 12 + month m - 1 + Z.of_nat q).
  assert (It : forall q, c q / 12 <= max_year ->
    exists m', nth_item (iter_next md) q it = Some (Ok (Moment m')) /\ month m' = (month m - 1 + Z.of_nat q) mod 12 + 1 /\
      ((1 <= q)%nat -> m' = in_month (c q) (day m) m)).
  { intros [|q] Hq.
    - exists m. rewrite (build_first md _ _ _ B). split; [reflexivity|]. split; [rewrite Z.mod_small; lia|lia].
    - pose proof (b_months md m 1 it (S q) B Hm Hd ltac:(lia)) as F. cbv zeta in F.
      replace (year m * 12 + month m - 1 + Z.of_nat (S q) * 1) with (c (S q)) in F by (unfold c; lia).
      specialize (F ltac:(lia) Hq). eexists. split; [exact F|]. split; [|reflexivity].
      cbn [in_month month]. f_equal. unfold c. rewrite <- (Z_mod_plus_full (month m - 1 + Z.of_nat (S q)) (year m) 12). f_equal. lia. }
  assert (Dec : forall q m', month m' = (month m - 1 + Z.of_nat q) mod 12 + 1 ->
    month_matches mo (Moment m') = Ok (Nat.eqb (q mod 12) (Z.to_nat g))).
  { intros q m' V. unfold month_matches. cbn [get_moment ok_or]. f_equal. rewrite V.
    assert (E : Z.of_nat (q mod 12) = Z.of_nat q mod 12) by (rewrite Nat2Z.inj_mod; reflexivity).
    unfold g in *. clear It HR B Hm V Hf.
    destruct (Z.eqb_spec (ymonth_into mo) ((month m - 1 + Z.of_nat q) mod 12 + 1)) as [Q|Q]; symmetry.
    - apply Nat.eqb_eq. apply Nat2Z.inj. rewrite E, Z2Nat.id by lia. lia.
    - apply Nat.eqb_neq. intro C. apply Q. assert (C' : Z.of_nat (q mod 12) = (ymonth_into mo - month m) mod 12) by (rewrite C, Z2Nat.id; lia).
      rewrite E in C'. lia. }
  destruct (every_periodic iter (iter_next md) (month_matches mo) it (Z.to_nat g) 12 fuel j ltac:(lia) Hf) with (j := j) as [R _]; [|lia|].
  - intros q Hq. destruct (It q) as (m' & F & V & _).
    + assert (c q <= i) by (unfold c, i, k; lia). assert (c q / 12 <= i / 12) by (apply Z.div_le_mono; lia). lia.
    + exists (Moment m'). split; [exact F|]. apply Dec. exact V.
  - assert (Ei : c (Z.to_nat g + 12 * j)%nat = i) by (unfold c, i, k; lia).
    destruct (It (Z.to_nat g + 12 * j)%nat) as (m' & F & V & E); [rewrite Ei; exact HR|].
    rewrite R, F. rewrite E by lia. rewrite Ei. split; [reflexivity|].
    cbn [in_month month]. unfold i, k, g. clear It Dec R F V E Ei HR B.
    lia.
Qed.

(** ** No panics in iteration *)
Lemma iter_returns : forall it k, iter_ok it -> item_returns md (nth_item (iter_next md) k it).
Proof.
  intros it k Hok. pose proof (iter_ok_after md k it Hok) as (H1 & H2 & H3). unfold nth_item.
  set (it' := after (iter_next md) k it) in *. destruct (had_first it') eqn:F.
  - rewrite next_later by exact F.
    assert (OA : tt_ok (step it') = true) by (unfold step; cbn [tt_ok]; rewrite H1; exact H2).
    pose proof (calculate_good md (step it') OA) as G.
    destruct (calculate md (step it')); cbn in *; try exact I; try tauto. unfold allowed. tauto.
  - rewrite next_first by exact F. exact I.
Qed.
Lemma until_returns : forall S (nx : next_fn S) ending s,
  (forall k, item_returns md (nth_item nx k s)) -> (forall k t, nth_item nx k s = Some (Ok t) -> tt_ok t = true) ->
  forall k, item_returns md (nth_item (until_next md nx ending) k s).
Proof.
  intros S nx ending s H T k. rewrite until_item. specialize (H k). specialize (T k). unfold nth_item in *. unfold until_next.
  destruct (nx (after nx k s)) as [[[t|e|p|]|] s']; cbn [fst] in *; try exact H.
  pose proof (calculate_good md t (T t eq_refl)) as G.
  destruct (calculate md t) as [v|e|p|]; cbn in *; try exact I; try tauto; [|unfold allowed; tauto].
  destruct v; try exact I; try (destruct G; discriminate).
  cbn [is_moment get_moment]. destruct (dt_ltb m ending); exact I.
Qed.
Lemma times_returns : forall S (nx : next_fn S) n s, (forall k, item_returns md (nth_item nx k s)) ->
  forall k, item_returns md (nth_item (times_next md nx) k (times_new s n)).
Proof.
  intros S nx n s H.
  assert (A : forall k, exists j, inner (after (times_next md nx) k (times_new s n)) = after nx j s).
  { induction k as [|k [j IH]]; [exists 0%nat; reflexivity|]. rewrite after_S. unfold times_next at 1.
    set (t := after (times_next md nx) k (times_new s n)) in *.
    destruct (times t =? count t); [exists j; exact IH|].
    destruct (addc md (Ok (count t)) (Ok 1)) as [c|e|p|]; cbn [snd]; try (exists j; exact IH).
    exists (Datatypes.S j). rewrite after_S, IH. destruct (nx (after nx j s)). reflexivity. }
  intro k. unfold nth_item. destruct (A k) as [j E]. unfold times_next at 1.
  set (t := after (times_next md nx) k (times_new s n)) in *.
  destruct (times t =? count t); [exact I|].
  unfold addc. cbn [bind]. unfold arith. destruct (in_i64 (count t + 1)).
  - specialize (H j). unfold nth_item in H. rewrite E. destruct (nx (after nx j s)). exact H.
  - destruct md; [split; reflexivity|]. specialize (H j). unfold nth_item in H. rewrite E. destruct (nx (after nx j s)). exact H.
Qed.
(** every() and without() panic only if the inner iterator or the matcher does. *)
Lemma drop_panics : forall S (nx : next_fn S) m b fuel s p, fst (drop_next nx m b fuel s) = Some (Panic p) ->
  exists k, nth_item nx k s = Some (Panic p) \/ exists t, nth_item nx k s = Some (Ok t) /\ m t = Panic p.
Proof.
  intros S nx m b. induction fuel as [|fuel IH]; intros s p H; [destruct b; discriminate H|].
  rewrite drop_eq in H. destruct (decided m b (fst (nx s))).
  - destruct (IH _ _ H) as [k Hk]. exists (Datatypes.S k). exact Hk.
  - exists 0%nat. unfold nth_item. cbn [after]. cbn [fst] in H. unfold seen in H.
    destruct (fst (nx s)) as [[t|e|q|]|]; try discriminate H; [right|left; exact H].
    exists t. split; [reflexivity|]. destruct (m t); try discriminate H. injection H as ->. reflexivity.
Qed.
Lemma every_panics : forall S (nx : next_fn S) m fuel s p, fst (filter_next nx fuel m s) = Some (Panic p) ->
  exists k, nth_item nx k s = Some (Panic p) \/ exists t, nth_item nx k s = Some (Ok t) /\ m t = Panic p.
Proof. intros S nx m. exact (drop_panics S nx m false). Qed.
Lemma without_panics : forall S (nx : next_fn S) m fuel s p, fst (without_next nx fuel m s) = Some (Panic p) ->
  exists k, nth_item nx k s = Some (Panic p) \/ exists t, nth_item nx k s = Some (Ok t) /\ m t = Panic p.
Proof. intros S nx m. exact (drop_panics S nx m true). Qed.
Lemma matcher_returns : forall d mo t, (exists r, day_matches d t = r /\ match r with Ok _ | Err _ => True | _ => False end) /\
  (exists r, month_matches mo t = r /\ match r with Ok _ | Err _ => True | _ => False end).
Proof. intros d mo t. split; eexists; (split; [reflexivity|]); unfold day_matches, month_matches; destruct (get_moment t); exact I. Qed.
Lemma ctor_returns : forall t n inc, tt_ok t = true ->
  (forall r, In r [minutely t n; hourly t n; daily t n; weekly md t n; monthly t n; yearly t n; every t inc] -> returns md r).
Proof.
  intros t n inc Ht r H.
  destruct (is_moment t) eqn:M.
  - destruct t; try discriminate M. repeat (destruct H as [<-|H]); try exact I; try contradiction.
    + cbn. unfold mulc. cbn [bind]. unfold arith. destruct (in_i64 (n * 7)); [exact I|]. destruct md; [split; reflexivity|exact I].
    + cbn. unfold build. destruct (is_a_amount inc); exact I.
  - destruct t; try discriminate M; repeat (destruct H as [<-|H]); try exact I; contradiction.
Qed.
End Filters.

(** Every two months from 29 December 2016 until 2018 never ends: after one item only errors. *)
Lemma endless : forall k, (1 <= k)%nat ->
  nth_item (until_next Checked (iter_next Checked) (mkdt 2018 1 1 0 0 0 0)) k (mkiter (Moment (mkdt 2016 12 29 0 0 0 0)) (Months 2) false) =
  Some (Err (OutOfBounds 2017 2 0 0 0 0)).
Proof.
  apply until_error_persists; [repeat split|]. vm_compute. reflexivity.
Qed.
(** Every 2^32 years from 2016 until 2018 never ends, either: every item is the base. *)
Lemma endless_same : forall k, nth_item (until_next Checked (iter_next Checked) (mkdt 2018 1 1 0 0 0 0)) k
    (mkiter (Moment (mkdt 2016 12 29 0 0 0 0)) (Years 4294967296) false) = Some (Ok (Moment (mkdt 2016 12 29 0 0 0 0))).
Proof.
  intro k. rewrite until_item.
  assert (A : forall j, after (iter_next Checked) (S j) (mkiter (Moment (mkdt 2016 12 29 0 0 0 0)) (Years 4294967296) false) =
    mkiter (Moment (mkdt 2016 12 29 0 0 0 0)) (Years 4294967296) true).
  { induction j as [|j IH]; [reflexivity|]. rewrite after_S, IH. vm_compute. reflexivity. }
  destruct k as [|k]; [vm_compute; reflexivity|]. rewrite A. vm_compute. reflexivity.
Qed.
