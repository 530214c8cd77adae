(** The moments an addition can reach (C115). *)
Require Import ZArith Bool List Lia ZifyBool.
From Verif Require Import Prelude Spec Chrono Util TimeType SpecTree SpecMoment SpecExact SpecReach PreludeProofs EvalProofs AmountProofs
  ShapeProofs CompProofs CalendarProofs OrdProofs AddProofs AddProofs2 SubProofs SubProofs2 ExactProofs4 FarProofs SeqProofs FurtherProofs.
Local Open Scope Z_scope.
Local Ltac Zify.zify_post_hook ::= Z.to_euclidean_division_equations.

Section Reach.
Variable md : mode.

Lemma year_le : forall a b, dt_valid a = true -> dt_valid b = true -> inst a <= inst b -> year a <= year b.
Proof.
  intros a b Ha Hb H. destruct (Z_le_gt_dec (year a) (year b)) as [L|L]; [exact L|exfalso].
  pose proof (inst_lt_date b a Hb Ha ltac:(lia)). lia.
Qed.
Lemma at_self : forall m, dt_valid m = true -> nano m = 0 -> m = at_time (year m) (month m) (day m) (sod m).
Proof. intros m Hm N. rewrite whole_at by exact Hm. unfold whole_second. destruct m. cbn in *. subst. reflexivity. Qed.
Lemma self_repr : forall m, dt_valid m = true -> representable (year m) (month m) (day m) = true.
Proof. intros m Hm. apply representable_iff. split; [apply (valid_facts m Hm)|apply valid_date, Hm]. Qed.
Lemma doy_year : forall m, dt_valid m = true -> 1 <= days_before (year m) (month m) + day m <= year_length (year m).
Proof. intros m Hm. exact (doy_bounds _ _ _ (valid_date m Hm)). Qed.
Lemma reach_back : forall m u n m', dt_valid m = true -> clock_unit u = true -> 0 <= n -> n * unit_secs u <= span32 ->
  calculate md (Addition (Moment m) (mk u n)) = Ok (Moment m') -> inst m <= inst m' /\ on_way m m' /\ n * unit_secs u = way m m'.
Proof.
  intros m u n m' Hm Hu Hn Hl E. pose proof (sod_range m Hm) as R. pose proof (doy_year m Hm) as Y.
  assert (Hi : inst m <= inst m').
  { destruct (Z.eq_dec n 0) as [->|Z0]; [|pose proof (add_forward md m u n m' Hm ltac:(lia) Hl E); lia].
    rewrite (proj1 (add_zero_unit md m u Hm)) in E. injection E as <-. reflexivity. }
  split; [exact Hi|]. destruct (clock_key md m u n m' Hm Hu Hn Hl E) as [A B]. cbv zeta in A, B. unfold on_way, way.
  destruct (Z_lt_le_dec (days_before (year m) (month m) + day m + (sod m + n * unit_secs u) / 86400 - year_length (year m) - 1) 0) as [L|L].
  - destruct (A L) as [A1 A2]. split; [left; exact A1|]. rewrite A1, Z.eqb_refl. lia.
  - destruct (B L) as (y & mo & d & -> & P & I & D & G). rewrite at_facts by lia. cbn [at_time year month day]. split; [right; lia|].
    replace (y =? year m) with false by lia. lia.
Qed.

Lemma way_bound : forall m m', dt_valid m = true -> dt_valid m' = true -> inst m <= inst m' -> 0 <= way m m' <= span32 /\ (year m' <> year m -> year m < year m').
Proof.
  intros m m' Hm Hm' Hi. pose proof (year_le m m' Hm Hm' Hi) as Y. pose proof (sod_range m Hm) as R. pose proof (sod_range m' Hm') as R'.
  destruct (valid_facts m Hm) as (Vy & Vmo & Vd & Vml & _). destruct (valid_facts m' Hm') as (Vy' & Vmo' & Vd' & Vml' & _).
  pose proof (doy_year m Hm) as D. pose proof (doy_year m' Hm') as D'. pose proof (year_length_bounds (year m)). pose proof (month_length_bounds (year m') (month m') Vmo').
  split; [|lia]. unfold way. unfold min_year, max_year, span32 in *. destruct (year m' =? year m) eqn:Q; [|lia].
  assert (year m' = year m) as Ey by lia. rewrite !inst_sod in *. unfold day_number in *. rewrite Ey in *. lia.
Qed.

Lemma field_bound : forall m u n, dt_valid m = true -> clock_unit u = true -> 0 <= n -> n * unit_secs u <= span32 -> field u m + n <= i64_max.
Proof. intros m u n Hm Hu Hn Hl. destruct (span_field m u n Hm Hn Hl). lia. Qed.

Lemma reach : forall m u n m', dt_valid m = true -> dt_valid m' = true -> nano m' = 0 -> clock_unit u = true ->
  inst m <= inst m' -> on_way m m' -> n * unit_secs u = way m m' -> calculate md (Addition (Moment m) (mk u n)) = Ok (Moment m').
Proof.
  intros m u n m' Hm Hm' N Hu Hi Ho W. destruct (way_bound m m' Hm Hm' Hi) as [B1 B2].
  assert (Hn : 0 <= n) by (destruct u; try discriminate Hu; cbn [unit_secs] in W; lia).
  pose proof (field_bound m u n Hm Hu Hn ltac:(lia)) as F.
  pose proof (sod_range m Hm) as R. pose proof (sod_range m' Hm') as R'. pose proof (doy_year m Hm) as D. pose proof (doy_year m' Hm') as D'.
  destruct (valid_facts m' Hm') as (Vy' & Vmo' & Vd' & _).
  destruct (add_clock md m u n Hm Hu Hn F) as [A B]. cbv zeta in A, B. unfold way in W.
  destruct (year m' =? year m) eqn:Q.
  - assert (Ey : year m' = year m) by lia. clear B.
    assert (K : days_before (year m) (month m) + day m + (sod m + n * unit_secs u) / 86400 = days_before (year m') (month m') + day m' /\ (sod m + n * unit_secs u) mod 86400 = sod m').
    { rewrite !inst_sod in W. unfold day_number in W. rewrite Ey in *. lia. }
    destruct K as [K1 K2]. destruct (A ltac:(rewrite Ey in *; lia)) as (mo & d & X & G & E). rewrite E, K2. do 2 f_equal.
    assert (P : representable (year m) mo d = true) by (apply representable_iff; split; [rewrite <- Ey; exact Vy'|exact X]).
    apply same_moment; [apply at_valid; assumption|exact Hm'|reflexivity|exact N|].
    rewrite inst_at, inst_sod by exact R'. unfold day_number. rewrite Ey in *. lia.
  - clear A. pose proof (B2 ltac:(lia)) as L.
    set (e := days_before (year m) (month m) + day m + (sod m + n * unit_secs u) / 86400 - year_length (year m) - 1) in *.
    destruct Ho as [Ho|Ho]; [lia|].
    assert (Ee : e = 360 * (year m' - year m - 1) + 30 * (month m' - 1) + day m' - 1 /\ (sod m + n * unit_secs u) mod 86400 = sod m') by (subst e; lia).
    destruct Ee as [Ee Er]. rewrite B by lia. rewrite Er.
    replace (year m + 1 + e / 360) with (year m') by lia. replace (e mod 360 / 30 + 1) with (month m') by lia. replace (e mod 30 + 1) with (day m') by lia.
    rewrite wrap32_id by (unfold min_year, max_year in *; lia). unfold built. rewrite (self_repr m' Hm'). rewrite <- (at_self m' Hm' N). reflexivity.
Qed.

(** The graph of additions of clock units. *)
Lemma reach_iff : forall m u n m', dt_valid m = true -> clock_unit u = true -> 0 <= n -> n * unit_secs u <= span32 ->
  (calculate md (Addition (Moment m) (mk u n)) = Ok (Moment m') <->
   dt_valid m' = true /\ nano m' = 0 /\ inst m <= inst m' /\ on_way m m' /\ n * unit_secs u = way m m').
Proof.
  intros m u n m' Hm Hu Hn Hl. split.
  - intro E. destruct (span_field m u n Hm Hn Hl) as [_ Hi]. destruct (ok_valid md m u n m' Hm Hi E) as [V N].
    split; [exact V|]. split; [exact N|]. exact (reach_back m u n m' Hm Hu Hn Hl E).
  - intros (V & N & I & O & W). exact (reach m u n m' Hm V N Hu I O W).
Qed.

Lemma reach_tree : forall m t m', dt_valid m = true -> tt_ok t = true -> amount_only t = true -> abs_secs t <= i64_max -> clock_unit (finest t) = true -> 0 <= secs t <= span32 ->
  (calculate md (Addition (Moment m) t) = Ok (Moment m') <->
   dt_valid m' = true /\ nano m' = 0 /\ inst m <= inst m' /\ on_way m m' /\ secs t = way m m').
Proof.
  intros m t m' Hm Ht Ha Hs Hu Hl. destruct (add_tree md m t Hm Ht Ha Hs) as (n & En & _ & _ & E & _). rewrite E, <- En.
  apply reach_iff; try assumption; [|lia]. destruct (finest t); try discriminate Hu; cbn [unit_secs] in En; lia.
Qed.

(** Which moments are reached at all. *)
Lemma reach_some : forall m u m', dt_valid m = true -> dt_valid m' = true -> nano m' = 0 -> inst m <= inst m' -> clock_unit u = true ->
  ((exists n, 0 <= n /\ field u m + n <= i64_max /\ calculate md (Addition (Moment m) (mk u n)) = Ok (Moment m')) <->
   on_way m m' /\ (sod m' - sod m) mod unit_secs u = 0).
Proof.
  intros m u m' Hm Hm' N Hi Hu. destruct (way_bound m m' Hm Hm' Hi) as [B1 B2]. pose proof (sod_range m Hm) as R. split.
  - intros (n & Hn & F & E). destruct (add_clock md m u n Hm Hu Hn F) as [A B]. cbv zeta in A, B.
    assert (S : sod m' = (sod m + n * unit_secs u) mod 86400 -> (sod m' - sod m) mod unit_secs u = 0).
    { intro S. rewrite S. clear - Hu. destruct u; try discriminate Hu; cbn [unit_secs]; lia. }
    destruct (Z_le_gt_dec (days_before (year m) (month m) + day m + (sod m + n * unit_secs u) / 86400) (year_length (year m))) as [L|L].
    + destruct (A L) as (mo & d & X & G & Q). rewrite Q in E. injection E as <-. split; [left; reflexivity|]. apply S. apply at_facts. lia.
    + rewrite (B ltac:(lia)) in E. apply built_ok in E as [_ E]. injection E as ->. split; [right; cbn [at_time day]; lia|]. apply S. apply at_facts. lia.
  - intros [O S].
    assert (W : way m m' mod unit_secs u = 0).
    { unfold way. rewrite !inst_sod. destruct (year m' =? year m); destruct u; try discriminate Hu; cbn [unit_secs] in *; lia. }
    exists (way m m' / unit_secs u).
    assert (Eq : way m m' / unit_secs u * unit_secs u = way m m') by (destruct u; try discriminate Hu; cbn [unit_secs] in *; lia).
    assert (0 <= way m m' / unit_secs u) by (destruct u; try discriminate Hu; cbn [unit_secs] in *; lia).
    split; [assumption|]. split; [apply field_bound; try assumption; lia|]. apply reach; assumption.
Qed.

(** Two additions of seconds. *)
Lemma reach_two : forall m m', dt_valid m = true -> dt_valid m' = true -> nano m' = 0 -> inst m <= inst m' ->
  exists a b, 0 <= a /\ 0 <= b /\ calculate md (Addition (Addition (Moment m) (Seconds a)) (Seconds b)) = Ok (Moment m').
Proof.
  intros m m' Hm Hm' N Hi.
  assert (T : forall j, dt_valid j = true -> nano j = 0 -> inst m <= inst j -> inst j <= inst m' -> on_way m j -> year m' = year j ->
    exists a b, 0 <= a /\ 0 <= b /\ calculate md (Addition (Addition (Moment m) (Seconds a)) (Seconds b)) = Ok (Moment m')).
  { intros j Hj Nj I1 I2 O Y. destruct (way_bound m j Hm Hj I1) as [W1 _]. destruct (way_bound j m' Hj Hm' I2) as [W2 _].
    exists (way m j), (way j m'). split; [lia|]. split; [lia|].
    pose proof (reach m USec (way m j) j Hm Hj Nj eq_refl I1 O ltac:(cbn [unit_secs]; lia)) as E1. cbn [mk] in E1.
    pose proof (reach j USec (way j m') m' Hj Hm' N eq_refl I2 (or_introl Y) ltac:(cbn [unit_secs]; lia)) as E2. cbn [mk] in E2.
    unfold span32 in *.
    rewrite (add_twice md m (Seconds (way m j)) (Seconds (way j m')) j); try assumption; try reflexivity.
    - cbn [tt_ok]. apply in_i64_iff. unfold i64_min, i64_max. lia.
    - cbn [tt_ok]. apply in_i64_iff. unfold i64_min, i64_max. lia.
    - change (Seconds (way j m')) with (mk USec (way j m')). rewrite abs_secs_mk. cbn [unit_secs]. clear - W2. unfold i64_max. lia. }
  destruct (way_bound m m' Hm Hm' Hi) as [_ L]. pose proof (sod_range m' Hm') as R'. pose proof (doy_year m' Hm') as D'. destruct (valid_facts m' Hm') as (Vy' & _).
  destruct (Z.eq_dec (year m') (year m)) as [Y|Y].
  - assert (W : dt_valid (whole_second m) = true) by (rewrite <- whole_at by exact Hm; apply at_valid; [apply sod_range, Hm|apply self_repr, Hm]).
    apply (T (whole_second m)); [exact W|reflexivity|reflexivity|exact Hi|left; reflexivity|exact Y].
  - assert (Vj : dt_valid (at_time (year m') 1 1 0) = true) by (apply at_valid; [lia|apply representable_iff; split; [exact Vy'|reflexivity]]).
    apply (T (at_time (year m') 1 1 0)); [exact Vj|reflexivity| | |right; cbn [at_time day]; lia|reflexivity].
    + pose proof (inst_lt_date m (at_time (year m') 1 1 0) Hm Vj ltac:(cbn [at_time year]; lia)). lia.
    + rewrite inst_at, inst_sod by lia. unfold day_number. rewrite days_before_1. lia.
Qed.

(** Months and years. *)
Lemma reach_months : forall m m', dt_valid m = true -> dt_valid m' = true -> nano m' = 0 ->
  ((exists n, 0 <= n <= 2147483648 /\ calculate md (Addition (Moment m) (Months n)) = Ok (Moment m')) <->
   month_index m <= month_index m' /\ sod m' = sod m /\ month_day m m').
Proof.
  intros m m' Hm Hm' N. pose proof (sod_range m Hm) as R. destruct (valid_facts m Hm) as (Vy & Vmo & Vd & Vml & _). destruct (valid_facts m' Hm') as (Vy' & Vmo' & Vd' & Vml' & _).
  pose proof (month_length_bounds (year m) (month m) Vmo) as LB. unfold month_day, month_index. split.
  - intros (n & Hn & E). rewrite add_months in E by first [assumption | lia | unfold i64_max; lia]. unfold plus_months in E.
    destruct (month m + n <=? 12) eqn:L1; [destruct (day m <=? month_length (year m) (month m + n)) eqn:L2|destruct (day m <=? 30) eqn:L2]; apply built_ok in E as [P E]; injection E as E;
      pose proof P as P'; apply representable_iff in P' as [P1 P2]; apply date_exists_iff in P2 as [P2 P3].
    + rewrite wrap32_id in * by (unfold min_year, max_year in *; lia). rewrite E. rewrite at_facts by exact R. cbn [at_time year month day]. rewrite Z.eqb_refl. repeat split; try lia.
    + rewrite wrap32_id in * by (unfold min_year, max_year in *; lia). rewrite E. rewrite at_facts by exact R. cbn [at_time year month day]. rewrite Z.eqb_refl. repeat split; try lia.
      right. replace (month m + n + 1 - 1) with (month m + n) by lia. lia.
    + assert (W : wrap32 (year m + (month m + n - 1) / 12) = year m + (month m + n - 1) / 12) by (unfold wrap32, min_year, max_year in *; lia).
      rewrite W in *. rewrite E. rewrite at_facts by exact R. cbn [at_time year month day]. replace (_ =? year m) with false by lia. repeat split; try lia.
    + assert (W : wrap32 (year m + (month m + n) / 12) = year m + (month m + n) / 12) by (unfold wrap32, min_year, max_year in *; lia).
      rewrite W in *. rewrite E. rewrite at_facts by exact R. cbn [at_time year month day]. replace (_ =? year m) with false by lia. repeat split; try lia.
  - intros (I & S & D). 
    assert (K : forall n Y Mo Dy, 0 <= n <= 2147483648 -> plus_months (year m) (month m) (day m) n = (Y, Mo, Dy) -> Y = year m' -> Mo = month m' -> Dy = day m' ->
      exists n, 0 <= n <= 2147483648 /\ calculate md (Addition (Moment m) (Months n)) = Ok (Moment m')).
    { intros n Y Mo Dy Hn P -> -> ->. exists n. split; [exact Hn|]. rewrite add_months by first [assumption | lia | unfold i64_max; lia]. rewrite P.
      rewrite wrap32_id by (unfold min_year, max_year in *; lia). unfold built. rewrite (self_repr m' Hm'). rewrite <- S. rewrite <- (at_self m' Hm' N). reflexivity. }
    unfold min_year, max_year in *. destruct (year m' =? year m) eqn:Q.
    + assert (Y : year m' = year m) by lia. destruct D as [D|[D1 D2]].
      * apply (K (month m' - month m) (year m) (month m') (day m)); try lia. unfold plus_months. replace (month m + (month m' - month m)) with (month m') by lia.
        replace (month m' <=? 12) with true by lia. rewrite Y in Vml'. replace (day m <=? month_length (year m) (month m')) with true by lia. reflexivity.
      * apply (K (month m' - 1 - month m) (year m) (month m') (day m')); try lia. unfold plus_months. replace (month m + (month m' - 1 - month m)) with (month m' - 1) by lia.
        replace (month m' - 1 <=? 12) with true by lia. replace (day m <=? month_length (year m) (month m' - 1)) with false by lia. apply (f_equal2 pair); [apply (f_equal2 pair); lia|lia].
    + destruct D as [[D1 D2]|(D1 & D2 & D3)].
      * apply (K (12 * (year m' - year m) + month m' - month m) (year m') (month m') (day m)); try lia. unfold plus_months.
        replace (_ <=? 12) with false by lia. replace (day m <=? 30) with true by lia. apply (f_equal2 pair); [apply (f_equal2 pair); lia|lia].
      * apply (K (12 * (year m' - year m) + month m' - 1 - month m) (year m') (month m') 1); try lia. unfold plus_months.
        replace (_ <=? 12) with false by lia. replace (day m <=? 30) with false by lia. apply (f_equal2 pair); [apply (f_equal2 pair); lia|lia].
Qed.
Lemma reach_years : forall m m', dt_valid m = true -> dt_valid m' = true -> nano m' = 0 ->
  ((exists n, 0 <= n <= 2147483648 /\ calculate md (Addition (Moment m) (Years n)) = Ok (Moment m')) <->
   year m <= year m' /\ sod m' = sod m /\ year_day m m').
Proof.
  intros m m' Hm Hm' N. pose proof (sod_range m Hm) as R. destruct (valid_facts m Hm) as (Vy & Vmo & Vd & Vml & _). destruct (valid_facts m' Hm') as (Vy' & Vmo' & Vd' & Vml' & _).
  unfold year_day. split.
  - intros (n & Hn & E). rewrite add_years in E by first [assumption | apply in_i64_iff; unfold i64_min, i64_max; lia | unfold i64_min, i64_max, min_year, max_year in *; lia].
    unfold in_year in E. destruct ((month m =? 2) && (day m =? 29) && negb (leap (wrap32 (year m + n)))) eqn:L; apply built_ok in E as [P E]; injection E as E;
      pose proof P as P'; apply representable_iff in P' as [P1 _]; rewrite (year_near m n Hm ltac:(lia) P1) in *; rewrite E; rewrite at_facts by exact R; cbn [at_time year month day].
    + destruct (leap (year m + n)) eqn:Lp; [exfalso; lia|]. repeat split; try lia.
    + repeat split; try lia.
  - intros (I & S & D). exists (year m' - year m). unfold min_year, max_year in *. split; [lia|].
    rewrite add_years by first [assumption | apply in_i64_iff; unfold i64_min, i64_max; lia | unfold i64_min, i64_max; lia].
    replace (year m + (year m' - year m)) with (year m') by lia. rewrite wrap32_id by lia. unfold in_year. rewrite <- S.
    destruct D as [[D1 D2]|(D1 & D2 & D3 & D4 & D5)].
    + replace ((month m =? 2) && (day m =? 29) && negb (leap (year m'))) with false.
      * rewrite <- D1, <- D2. unfold built. rewrite (self_repr m' Hm'). rewrite <- (at_self m' Hm' N). reflexivity.
      * symmetry. destruct (month m =? 2) eqn:M2; [|reflexivity]. destruct (day m =? 29) eqn:M3; [|reflexivity].
        assert (M : month m' = 2) by lia. rewrite M in Vml'. change (month_length (year m') 2) with (if leap (year m') then 29 else 28) in Vml'. destruct (leap (year m')); [reflexivity|lia].
    + rewrite D1, D2, D5. cbn [andb negb Z.eqb Pos.eqb]. rewrite <- D3, <- D4. unfold built. rewrite (self_repr m' Hm'). rewrite <- (at_self m' Hm' N). reflexivity.
Qed.
End Reach.
