(** Number of items of monthly and yearly iterations; items increase; adapters commute; chains of additions. *)
Require Import ZArith Bool List Lia ZifyBool Permutation.
From Verif Require Import Prelude Spec Chrono TimeType Matcher Iter SpecTree SpecMoment SpecIter SpecAdapt SpecSeq
  PreludeProofs CalendarProofs EvalProofs AmountProofs ShapeProofs CompProofs AddProofs AddProofs2 SubProofs SubProofs2 OrdProofs IterProofs IterProofs2
  AdapterProofs AdapterProofs2 SeqProofs NegProofs.
Import ListNotations.
Local Open Scope Z_scope.
Ltac Zify.zify_post_hook ::= Z.div_mod_to_equations.

(** ** Counting *)
Lemma until_count_f : forall md m inc it ending (f : nat -> datetime) N, build m inc = Ok it -> dt_valid m = true -> dt_valid ending = true -> before m ending ->
  (1 <= N)%nat -> (forall k, (1 <= k <= N)%nat -> nth_item (iter_next md) k it = Some (Ok (Moment (f k))) /\ dt_valid (f k) = true) ->
  (forall k, (1 <= k < N)%nat -> before (f k) ending) -> ~ before (f N) ending ->
  exists l, collects (until_next md (iter_next md) ending) it l /\ length l = N /\
    nth_error l 0 = Some (Ok (Moment m)) /\ forall k, (1 <= k < length l)%nat -> nth_error l k = Some (Ok (Moment (f k))).
Proof.
  intros md m inc it ending f N Hb Hm He B HN It Bf Nb.
  assert (U0 : nth_item (until_next md (iter_next md) ending) 0 it = Some (Ok (Moment m))).
  { apply (until_moment md (iter_next md) ending 0 it _ m Hm He (build_first md m _ it Hb) (calc_value md (Moment _) eq_refl)). exact B. }
  assert (Un : forall k, (1 <= k < N)%nat -> nth_item (until_next md (iter_next md) ending) k it = Some (Ok (Moment (f k)))).
  { intros k Hk. destruct (It k ltac:(lia)) as [H1 H2].
    apply (until_moment md (iter_next md) ending k it _ (f k) H2 He H1 (calc_value md (Moment _) eq_refl)). apply Bf. lia. }
  destruct (collect_n (until_next md (iter_next md) ending) N it) as (l & C & L & Hl).
  - intros k Hk. destruct k as [|k]; [rewrite U0; discriminate|]. rewrite Un by lia. discriminate.
  - destruct (It N ltac:(lia)) as [H1 H2].
    apply (until_moment md (iter_next md) ending N it _ (f N) H2 He H1 (calc_value md (Moment _) eq_refl)). exact Nb.
  - exists l. split; [exact C|]. split; [exact L|]. split; [apply Hl; [lia|exact U0]|].
    intros k Hk. rewrite L in Hk. apply Hl; [lia|]. apply Un. lia.
Qed.

(** Order of moments by month number and position in the month. *)
Lemma before_cmp : forall a b, dt_valid a = true -> dt_valid b = true ->
  (before a b <-> year a < year b \/ year a = year b /\ earlier_in_year a b = true).
Proof.
  intros a b Ha Hb. rewrite <- before_ltb by assumption. unfold dt_ltb, earlier_in_year, earlier_in_month.
  destruct (valid_facts a Ha) as (_ & _ & _ & _ & Ah & Ami & As). destruct (valid_facts b Hb) as (_ & _ & _ & _ & Bh & Bmi & Bs).
  unfold dt_compare, sod.
  Local Ltac side := split; intro; first [reflexivity | discriminate | lia].
  destruct (Z.compare_spec (year a) (year b)); [|side|side].
  destruct (Z.compare_spec (month a) (month b)); [|side|side].
  destruct (Z.compare_spec (day a) (day b)); [|side|side].
  destruct (Z.compare_spec (hour a) (hour b)); [|side|side].
  destruct (Z.compare_spec (minute a) (minute b)); [|side|side].
  destruct (Z.compare_spec (second a) (second b)); [|side|side].
  destruct (Z.compare_spec (nano a) (nano b)); side.
Qed.

(** Monthly. *)
Lemma until_count_months : forall md m n it ending, build m (Months n) = Ok it -> dt_valid m = true -> day m <= 28 -> 0 < n ->
  dt_valid ending = true -> before m ending ->
  let N := month_steps_before m ending n in
  (year m * 12 + month m - 1 + N * n) / 12 <= max_year ->
  exists l, collects (until_next md (iter_next md) ending) it l /\ Z.of_nat (length l) = N /\
    nth_error l 0 = Some (Ok (Moment m)) /\
    forall k, (1 <= k < length l)%nat -> nth_error l k = Some (Ok (Moment (in_month (year m * 12 + month m - 1 + Z.of_nat k * n) (day m) m))).
Proof.
  intros md m n it ending Hb Hm Hd Hn He B N HN.
  destruct (valid_facts m Hm) as (Vy & Vmo & Vd & Vml & Vh & Vmi & Vs). destruct (valid_facts ending He) as (Wy & Wmo & _).
  pose proof (nano_range m Hm) as Nm.
  set (i := fun k : nat => year m * 12 + month m - 1 + Z.of_nat k * n).
  set (e := year ending * 12 + month ending - 1). set (i0 := year m * 12 + month m - 1) in *.
  set (c := if earlier_in_month (whole_second m) ending then 1 else 0).
  set (D := e - i0 + c).
  assert (EN : N = (D - 1) / n + 1) by (unfold N, month_steps_before; fold c; subst D e i0; f_equal; f_equal; lia).
  assert (D1 : 1 <= D).
  { apply before_cmp in B; [|assumption|assumption]. subst D c e i0. unfold earlier_in_year, earlier_in_month, whole_second in *.
    cbn [day sod hour minute second nano] in *. change (sod _) with (sod m) at 1.
    change (sod {| year := year m; month := month m; day := day m; hour := hour m; minute := minute m; second := second m; nano := 0 |}) with (sod m).
    destruct ((day m <? day ending) || (day m =? day ending) && ((sod m <? sod ending) || (sod m =? sod ending) && (0 <? nano ending))) eqn:Q; lia. }
  assert (HD : 1 <= N /\ (N - 1) * n < D <= N * n).
  { rewrite EN. pose proof (Z.div_mod (D - 1) n ltac:(lia)). pose proof (Z.mod_pos_bound (D - 1) n Hn).
    assert (0 <= (D - 1) / n) by (apply Z.div_pos; lia). nia. }
  assert (HY : forall k, Z.of_nat k <= N -> min_year <= i k / 12 <= max_year).
  { intros k Hk. assert (0 <= Z.of_nat k * n <= N * n) by nia. subst i. cbv beta. fold i0. lia. }
  assert (Va : forall k, Z.of_nat k <= N -> dt_valid (in_month (i k) (day m) m) = true) by (intros k Hk; apply in_month_valid; try assumption; [apply HY; exact Hk|lia]).
  assert (Bk : forall k, Z.of_nat k <= N -> (before (in_month (i k) (day m) m) ending <-> Z.of_nat k * n < D)).
  { intros k Hk. rewrite before_cmp by (apply Va || assumption; exact Hk).
    assert (EM : earlier_in_month (in_month (i k) (day m) m) ending = earlier_in_month (whole_second m) ending) by reflexivity.
    unfold earlier_in_year. rewrite EM. subst D c. cbn [in_month year month].
    assert (Ei : i k = i0 + Z.of_nat k * n) by reflexivity. fold i0 in Ei. set (x := i k) in *. clearbody x. subst e.
    destruct (earlier_in_month (whole_second m) ending); lia. }
  destruct (until_count_f md m (Months n) it ending (fun k => in_month (i k) (day m) m) (Z.to_nat N) Hb Hm He B ltac:(lia)) as (l & C & L & L0 & Lk).
  - intros k Hk. split; [|apply Va; lia]. apply b_months; try assumption; [lia|lia|]. apply (HY k). lia.
  - intros k Hk. apply Bk; [lia|]. nia.
  - intro X. apply Bk in X; [|lia]. rewrite Z2Nat.id in X by lia. lia.
  - exists l. split; [exact C|]. split; [lia|]. split; [exact L0|]. exact Lk.
Qed.

(** Yearly. *)
Lemma until_count_years : forall md m n it ending, build m (Years n) = Ok it -> dt_valid m = true -> ~ (month m = 2 /\ day m = 29) -> 0 < n ->
  dt_valid ending = true -> before m ending ->
  let N := year_steps_before m ending n in
  year m + N * n <= max_year ->
  exists l, collects (until_next md (iter_next md) ending) it l /\ Z.of_nat (length l) = N /\
    nth_error l 0 = Some (Ok (Moment m)) /\
    forall k, (1 <= k < length l)%nat -> nth_error l k = Some (Ok (Moment (mkdt (year m + Z.of_nat k * n) (month m) (day m) (hour m) (minute m) (second m) 0))).
Proof.
  intros md m n it ending Hb Hm Hd Hn He B N HN.
  destruct (valid_facts m Hm) as (Vy & Vmo & Vd & Vml & Vh & Vmi & Vs). destruct (valid_facts ending He) as (Wy & Wmo & _).
  pose proof (nano_range m Hm) as Nm.
  set (f := fun k : nat => mkdt (year m + Z.of_nat k * n) (month m) (day m) (hour m) (minute m) (second m) 0).
  set (c := if earlier_in_year (whole_second m) ending then 1 else 0).
  set (D := year ending - year m + c).
  assert (EN : N = (D - 1) / n + 1) by (unfold N, year_steps_before; fold c; subst D; f_equal; f_equal; lia).
  assert (D1 : 1 <= D).
  { apply before_cmp in B; [|assumption|assumption]. subst D c. unfold earlier_in_year, earlier_in_month, whole_second in *.
    cbn [month day sod hour minute second nano] in *.
    change (sod {| year := year m; month := month m; day := day m; hour := hour m; minute := minute m; second := second m; nano := 0 |}) with (sod m).
    destruct ((month m <? month ending) || (month m =? month ending) && ((day m <? day ending) || (day m =? day ending) && ((sod m <? sod ending) || (sod m =? sod ending) && (0 <? nano ending)))) eqn:Q; lia. }
  assert (HD : 1 <= N /\ (N - 1) * n < D <= N * n).
  { rewrite EN. pose proof (Z.div_mod (D - 1) n ltac:(lia)). pose proof (Z.mod_pos_bound (D - 1) n Hn).
    assert (0 <= (D - 1) / n) by (apply Z.div_pos; lia). nia. }
  assert (HY : forall k, Z.of_nat k <= N -> min_year <= year m + Z.of_nat k * n <= max_year).
  { intros k Hk. assert (0 <= Z.of_nat k * n <= N * n) by nia. lia. }
  assert (Va : forall k, Z.of_nat k <= N -> dt_valid (f k) = true).
  { intros k Hk. apply dt_valid_iff. cbn [f year month day hour minute second nano]. split; [apply HY; exact Hk|]. split; [|lia].
    apply date_exists_iff. split; [lia|]. split; [lia|].
    destruct (Z.eq_dec (month m) 2) as [E2|E2].
    + rewrite E2 in *. assert (day m <= 28) by (rewrite month_length_val in Vml by lia; cbn in Vml; destruct (leap (year m)); lia).
      pose proof (month_length_bounds (year m + Z.of_nat k * n) 2 ltac:(lia)). lia.
    + rewrite (month_length_leap _ (year m)) by (try (left; assumption); assumption). assumption. }
  assert (Bk : forall k, Z.of_nat k <= N -> (before (f k) ending <-> Z.of_nat k * n < D)).
  { intros k Hk. rewrite before_cmp by (apply Va || assumption; exact Hk).
    assert (EM : earlier_in_year (f k) ending = earlier_in_year (whole_second m) ending) by reflexivity.
    rewrite EM. subst D c. cbn [f year]. destruct (earlier_in_year (whole_second m) ending); lia. }
  destruct (until_count_f md m (Years n) it ending f (Z.to_nat N) Hb Hm He B ltac:(lia)) as (l & C & L & L0 & Lk).
  - intros k Hk. split; [|apply Va; lia]. apply b_years; try assumption; [lia|]. apply (HY k). lia.
  - intros k Hk. apply Bk; [lia|]. nia.
  - intro X. apply Bk in X; [|lia]. rewrite Z2Nat.id in X by lia. lia.
  - exists l. split; [exact C|]. split; [lia|]. split; [exact L0|]. exact Lk.
Qed.

(** ** Items move in the direction of the step *)
Section Direction.
Variable md : mode.

(** Subtracting clock time, months and years by negative additions goes back. *)
Lemma add_backward : forall m u n, dt_valid m = true -> -2147483648 <= n < 0 ->
  (exists m', calculate md (Addition (Moment m) (mk u n)) = Ok (Moment m') /\ dt_valid m' = true /\ inst m' < inst m) \/
  exists e, calculate md (Addition (Moment m) (mk u n)) = Err e.
Proof.
  intros m u n Hm Hn.
  assert (Hi : in_i64 n = true) by (apply in_i64_iff; unfold i64_min, i64_max; lia).
  destruct (valid_facts m Hm) as (Vy & Vmo & Vd & Vml & Vh & Vmi & Vs). pose proof (sod_range m Hm) as SR.
  assert (Valid : forall m', calculate md (Addition (Moment m) (mk u n)) = Ok (Moment m') -> dt_valid m' = true).
  { intros m' E. assert (OA : tt_ok (Addition (Moment m) (mk u n)) = true) by (cbn [tt_ok]; rewrite ok_mk, Hi, Hm; reflexivity).
    pose proof (calculate_good md _ OA) as G. rewrite E in G. apply G. }
  assert (Good : forall m', calculate md (Addition (Moment m) (mk u n)) = Ok (Moment m') -> inst m' < inst m ->
    exists m', calculate md (Addition (Moment m) (mk u n)) = Ok (Moment m') /\ dt_valid m' = true /\ inst m' < inst m) by eauto.
  assert (Bad : oob (calculate md (Addition (Moment m) (mk u n))) -> exists e, calculate md (Addition (Moment m) (mk u n)) = Err e)
    by (intros (y & mo & d & h & mi & s & E); eauto).
  assert (InMonth : forall mo d, dt_valid (mkdt (year m) mo d (hour m) (minute m) (second m) 0) = true -> mo < month m \/ mo = month m /\ d < day m ->
    inst (mkdt (year m) mo d (hour m) (minute m) (second m) 0) < inst m).
  { intros mo d V H. assert (B : before (mkdt (year m) mo d (hour m) (minute m) (second m) 0) m).
    { apply before_cmp; [exact V|exact Hm|]. right. cbn [year]. split; [reflexivity|]. unfold earlier_in_year, earlier_in_month. cbn [month day]. lia. }
    destruct B as [B|[B _]]; [exact B|exfalso].
    pose proof (inst_inj _ _ V Hm B) as W. unfold whole_second in W. cbn in W. injection W. lia. }
  destruct (clock_unit u) eqn:Hu.
  - destruct (add_negative_complete md m u n Hm Hu Hn) as [A1 A2]. set (T := sod m + n * unit_secs u) in *.
    destruct (no_borrow u m T) eqn:NB; [|right; apply Bad; apply A2; left; reflexivity].
    destruct (Z_le_gt_dec 1 (day m + T / 86400)) as [L|G]; [left|right; apply Bad; apply A2; right; lia].
    eapply Good; [apply A1; [reflexivity|exact L]|].
    rewrite !inst_sod. unfold at_time, sod at 1. cbn [year month day hour minute second]. unfold day_number.
    pose proof (clock_unit_secs u Hu). assert (n * unit_secs u < 0) by nia. lia.
  - destruct u; try discriminate Hu; cbn [mk] in *.
    + destruct (add_months_negative md m n Hm Hn) as (A1 & A2 & A3 & A4). set (M := month m + n) in *.
      destruct (Z_le_gt_dec 1 M) as [L|L].
      * destruct (Z_le_gt_dec (day m) (month_length (year m) M)) as [K|K]; left.
        -- specialize (A1 L K). eapply Good; [exact A1|]. apply InMonth; [apply Valid; exact A1|lia].
        -- specialize (A2 L ltac:(lia)). eapply Good; [exact A2|]. pose proof (month_length_bounds (year m) M ltac:(lia)).
           apply InMonth; [apply Valid; exact A2|lia].
      * destruct (Z.eq_dec M 0) as [Z0|Z0]; [|right; apply Bad, A4; lia].
        destruct (Z.eq_dec (day m) 31) as [D|D]; [left|right; apply Bad, A4; lia].
        specialize (A3 Z0 D). eapply Good; [exact A3|]. apply InMonth; [apply Valid; exact A3|lia].
    + pose proof (add_years md m n Hm ltac:(unfold min_year, max_year, i64_min, i64_max in *; lia) Hi) as A.
      destruct (in_year (wrap32 (year m + n)) (month m) (day m)) as [[Y Mo] D] eqn:E.
      assert (EY : Y = wrap32 (year m + n)) by (unfold in_year in E; destruct (_ && _); congruence).
      unfold built in A. destruct (representable Y Mo D) eqn:R; [left|right; eauto].
      eapply Good; [exact A|]. apply inst_year_lt; [apply Valid; exact A|exact Hm|].
      cbn [at_time year]. apply representable_iff in R. destruct R as [R _].
      subst Y. unfold wrap32, min_year, max_year in *. lia.
Qed.

(** Running iterators whose steps move every moment by the relation [R]. *)
Variable u : tunit.
Variable n : Z.
Variable R : datetime -> datetime -> Prop.
Hypothesis Hn : in_i64 n = true.
Hypothesis R_trans : forall a b c, R a b -> R b c -> R a c.
Hypothesis R_step : forall m, dt_valid m = true ->
  (exists m', calculate md (Addition (Moment m) (mk u n)) = Ok (Moment m') /\ dt_valid m' = true /\ R m m') \/
  exists e, calculate md (Addition (Moment m) (mk u n)) = Err e.

Lemma run_err : forall m e k, dt_valid m = true -> calculate md (Addition (Moment m) (mk u n)) = Err e ->
  nth_item (iter_next md) k (at_moment u n m true) = Some (Err e).
Proof.
  intros m e k Hm E. destruct (next_moment_err md u n m e E) as [it' N].
  destruct k as [|k]; [unfold nth_item; cbn [after]; rewrite N; reflexivity|].
  rewrite nth_S, N. cbn [snd]. apply (sticky md _ _ _) with (2 := N). repeat split; cbn; [exact Hm|rewrite ok_mk; exact Hn|destruct u; reflexivity].
Qed.
Lemma run_item : forall k m r, dt_valid m = true -> nth_item (iter_next md) k (at_moment u n m true) = r ->
  (exists b, r = Some (Ok (Moment b)) /\ dt_valid b = true /\ R m b /\ after (iter_next md) (S k) (at_moment u n m true) = at_moment u n b true) \/
  exists e, r = Some (Err e).
Proof.
  induction k as [|k IH]; intros m r Hm H.
  - destruct (R_step m Hm) as [(m' & E & V & Rm)|[e E]].
    + left. exists m'. pose proof (next_moment md u n m m' E) as N. unfold nth_item in H. cbn [after] in H |- *. rewrite N in H |- *. auto.
    + right. exists e. rewrite <- H. apply run_err; assumption.
  - destruct (R_step m Hm) as [(m' & E & V & Rm)|[e E]].
    + rewrite nth_S, (next_moment md u n m m' E) in H. cbn [snd] in H.
      destruct (IH m' r V H) as [(b & -> & Vb & Rb & A)|[e ->]]; [left|right; eauto].
      exists b. split; [reflexivity|]. split; [exact Vb|]. split; [eapply R_trans; eassumption|].
      change (after (iter_next md) (S (S k)) (at_moment u n m true)) with (after (iter_next md) (S k) (snd (iter_next md (at_moment u n m true)))).
      rewrite (next_moment md u n m m' E). exact A.
    + right. exists e. rewrite <- H. apply run_err; assumption.
Qed.
(** Items of a fresh iterator: moments or errors, and every pair of moments is related. *)
Lemma fresh_moves : forall m it j k a b, build m (mk u n) = Ok it -> dt_valid m = true -> (j < k)%nat ->
  nth_item (iter_next md) j it = Some (Ok (Moment a)) -> nth_item (iter_next md) k it = Some (Ok (Moment b)) -> R a b.
Proof.
  intros m it j k a b B Hm L Ha Hb. apply build_at in B. subst it.
  assert (S1 : dt_valid a = true /\ after (iter_next md) (S j) (at_moment u n m false) = at_moment u n a true).
  { destruct j as [|j]; [cbn in Ha; injection Ha as <-; auto|]. rewrite fresh_item in Ha.
    destruct (run_item j m _ Hm Ha) as [(x & E & V & _ & A)|[e E]]; [|discriminate E]. injection E as <-. split; [exact V|]. rewrite fresh_after. exact A. }
  destruct S1 as [Va A].
  replace k with (S j + (k - S j))%nat in Hb by lia. rewrite nth_item_add, A in Hb.
  destruct (run_item (k - S j) a _ Va Hb) as [(x & E & _ & Rx & _)|[e E]]; [|discriminate E]. injection E as <-. exact Rx.
Qed.
Lemma fresh_cases : forall m it k, build m (mk u n) = Ok it -> dt_valid m = true ->
  (exists b, nth_item (iter_next md) k it = Some (Ok (Moment b)) /\ dt_valid b = true) \/ exists e, nth_item (iter_next md) k it = Some (Err e).
Proof.
  intros m it k B Hm. apply build_at in B. subst it. destruct k as [|k]; [left; exists m; split; [reflexivity|exact Hm]|].
  rewrite fresh_item. destruct (run_item k m _ Hm eq_refl) as [(b & E & V & _)|[e E]]; [left|right]; eauto.
Qed.
End Direction.

Lemma items_increase : forall md m u n it j k a b, build m (mk u n) = Ok it -> dt_valid m = true -> 0 < n -> n * unit_secs u <= span32 ->
  (j < k)%nat -> nth_item (iter_next md) j it = Some (Ok (Moment a)) -> nth_item (iter_next md) k it = Some (Ok (Moment b)) -> inst a < inst b.
Proof.
  intros md m u n it j k a b B Hm Hn Hs L Ha Hb.
  apply (fresh_moves md u n (fun a b => inst a < inst b)) with (m := m) (it := it) (j := j) (k := k); try assumption.
  - apply span_i64 with u; lia.
  - intros; lia.
  - intros x Hx. destruct (add_total md x u n Hx ltac:(lia) Hs) as [(m' & E & V)|E]; [left|right; exact E].
    exists m'. split; [exact E|]. split; [exact V|]. exact (add_forward md x u n m' Hx Hn Hs E).
Qed.
Lemma items_decrease : forall md m u n it j k a b, build m (mk u n) = Ok it -> dt_valid m = true -> -2147483648 <= n < 0 ->
  (j < k)%nat -> nth_item (iter_next md) j it = Some (Ok (Moment a)) -> nth_item (iter_next md) k it = Some (Ok (Moment b)) -> inst b < inst a.
Proof.
  intros md m u n it j k a b B Hm Hn L Ha Hb.
  apply (fresh_moves md u n (fun a b => inst b < inst a)) with (m := m) (it := it) (j := j) (k := k); try assumption.
  - apply in_i64_iff. unfold i64_min, i64_max. lia.
  - intros; lia.
  - intros x Hx. apply add_backward; assumption.
Qed.

(** until() on forward steps cuts off nothing that is before the end. *)
Lemma until_misses_nothing : forall md m u n it ending K, build m (mk u n) = Ok it -> dt_valid m = true -> 0 < n -> n * unit_secs u <= span32 ->
  dt_valid ending = true -> nth_item (until_next md (iter_next md) ending) K it = None ->
  forall j a, (K <= j)%nat -> nth_item (iter_next md) j it = Some (Ok (Moment a)) -> ~ before a ending.
Proof.
  intros md m u n it ending K B Hm Hn Hs He HK j a Hj Ha Bf.
  assert (C : exists b, nth_item (iter_next md) K it = Some (Ok (Moment b)) /\ dt_valid b = true /\ ~ before b ending).
  { destruct (fresh_cases md u n (fun a b => inst a < inst b)) with (m := m) (it := it) (k := K) as [(b & E & V)|[e E]]; try assumption.
    - apply span_i64 with u; lia.
    - intros; lia.
    - intros x Hx. destruct (add_total md x u n Hx ltac:(lia) Hs) as [(m' & E & V)|E]; [left|right; exact E].
      exists m'. split; [exact E|]. split; [exact V|]. exact (add_forward md x u n m' Hx Hn Hs E).
    - exists b. split; [exact E|]. split; [exact V|]. intro X.
      destruct (until_moment md (iter_next md) ending K it (Moment b) b V He E (calc_value md (Moment _) eq_refl)) as [U _].
      rewrite (U X) in HK. discriminate HK.
    - rewrite until_rest in HK by (intros t X; congruence). congruence. }
  destruct C as (b & E & V & NB). apply NB.
  destruct (Nat.eq_dec K j) as [->|NE]; [congruence|].
  pose proof (items_increase md m u n it K j b a B Hm Hn Hs ltac:(lia) E Ha) as I.
  destruct Bf as [Bf|[Bf _]]; left; lia.
Qed.
(** until() on backward steps never stops once the base is before the end. *)
Lemma until_backward : forall md m u n it ending k, build m (mk u n) = Ok it -> dt_valid m = true -> -2147483648 <= n < 0 ->
  dt_valid ending = true -> before m ending -> nth_item (until_next md (iter_next md) ending) k it <> None.
Proof.
  intros md m u n it ending k B Hm Hn He Bf.
  destruct (fresh_cases md u n (fun a b => inst b < inst a)) with (m := m) (it := it) (k := k) as [(b & E & V)|[e E]]; try assumption.
  - apply in_i64_iff. unfold i64_min, i64_max. lia.
  - intros; lia.
  - intros x Hx. apply add_backward; assumption.
  - assert (X : before b ending).
    { destruct k as [|k]; [rewrite (build_first md _ _ _ B) in E; injection E as <-; exact Bf|].
      pose proof (items_decrease md m u n it 0 (S k) m b B Hm Hn ltac:(lia) (build_first md _ _ _ B) E).
      destruct Bf as [Bf|[Bf _]]; left; lia. }
    destruct (until_moment md (iter_next md) ending k it (Moment b) b V He E (calc_value md (Moment _) eq_refl)) as [U _].
    rewrite (U X). discriminate.
  - rewrite until_rest by (intros t X; congruence). congruence.
Qed.
