(** The end of a period moves along when the moment is moved. *)
Require Import ZArith Bool List Lia ZifyBool.
From Verif Require Import Prelude Spec Chrono Util TimeType SpecTree SpecMoment SpecWide SpecEndStep PreludeProofs CalendarProofs EvalProofs AmountProofs ShapeProofs CompProofs LoopProofs
  AddProofs AddProofs2 SubProofs EndProofs.
Local Open Scope Z_scope.

Section Step.
Variable md : mode.

(** Fields that agree down to the period, the lower ones being at its end on the right. *)
Definition related (k : SpecMoment.period) (f f' : fields) : Prop :=
  let '(y, mo, d, h, mi, s) := f in let '(y', mo', d', h', mi', s') := f' in
  y = y' /\ mo = mo' /\ d = d' /\
  match k with
  | PMinute => h = h' /\ mi = mi' /\ 0 <= s < 60 /\ s' = 59
  | PHour => h = h' /\ 0 <= mi < 60 /\ mi' = 59 /\ 0 <= s < 60 /\ s' = 59
  | PDay => 0 <= h < 24 /\ h' = 23 /\ 0 <= mi < 60 /\ mi' = 59 /\ 0 <= s < 60 /\ s' = 59
  | _ => False
  end.
Definition both (k : SpecMoment.period) (o o' : outcome kek fields) : Prop :=
  (exists f f', o = Ok f /\ o' = Ok f' /\ related k f f') \/ ((forall f, o <> Ok f) /\ forall f, o' <> Ok f).
Definition both_end (k : SpecMoment.period) (r r' : result) : Prop :=
  (exists a, r = Ok (Moment a) /\ r' = Ok (Moment (end_at k a))) \/ ((forall v, r <> Ok v) /\ forall v, r' <> Ok v).

Lemma build_both : forall k o o', both k o o' -> both_end k (do f <- o; build_moment f) (do f <- o'; build_moment f).
Proof.
  intros k o o' [(f & f' & -> & -> & R)|[N N']].
  - destruct f as [[[[[y mo] d] h] mi] s], f' as [[[[[y' mo'] d'] h'] mi'] s']. cbn [related] in R.
    destruct R as (<- & <- & <- & R). cbn [bind]. unfold build_moment, from_ymd_opt.
    assert (U : forall z, 0 <= z < 60 -> as_u32 z = z) by (intros z Hz; unfold as_u32; apply Z.mod_small; lia).
    destruct (_ && date_exists _ _ _); [|right; split; intros v; cbn; discriminate].
    unfold and_hms_opt. cbn [dyear dmonth dday].
    destruct k; try contradiction.
    + destruct R as (Hh & -> & Hmi & -> & Hs & ->). rewrite !U by lia.
      replace ((0 <=? h) && (h <? 24) && (0 <=? mi) && (mi <? 60) && (0 <=? s) && (s <? 60)) with true by lia.
      left. eexists. split; reflexivity.
    + destruct R as (<- & Hmi & -> & Hs & ->). rewrite !(U mi), !(U s), !(U 59) by lia.
      replace ((0 <=? as_u32 h) && (as_u32 h <? 24) && (0 <=? mi) && (mi <? 60) && (0 <=? s) && (s <? 60)) with ((0 <=? as_u32 h) && (as_u32 h <? 24)) by lia.
      replace ((0 <=? as_u32 h) && (as_u32 h <? 24) && (0 <=? 59) && (59 <? 60) && (0 <=? 59) && (59 <? 60)) with ((0 <=? as_u32 h) && (as_u32 h <? 24)) by lia.
      destruct (_ && _); [left; eexists; split; reflexivity|right; split; intros v; cbn; discriminate].
    + destruct R as (<- & <- & Hs & ->). rewrite !(U s), !(U 59) by lia.
      set (b := (0 <=? as_u32 h) && (as_u32 h <? 24) && (0 <=? as_u32 mi) && (as_u32 mi <? 60)).
      replace (b && (0 <=? s) && (s <? 60)) with b by (clearbody b; destruct b; lia).
      replace (b && (0 <=? 59) && (59 <? 60)) with b by (clearbody b; destruct b; reflexivity).
      destruct b; [left; eexists; split; reflexivity|right; split; intros v; cbn; discriminate].
  - right. split; intros v E.
    + destruct o as [f| | |]; try discriminate E. exact (N f eq_refl).
    + destruct o' as [f| | |]; try discriminate E. exact (N' f eq_refl).
Qed.

Lemma both_tail : forall k A (t : outcome kek A) (g g' : A -> fields), (forall a, related k (g a) (g' a)) ->
  both k (do a <- t; Ok (g a)) (do a <- t; Ok (g' a)).
Proof.
  intros k A t g g' H. destruct t as [a| | |]; cbn [bind]; [left; exists (g a), (g' a); auto| | |]; right; split; intros f; discriminate.
Qed.

(** Carries upward. *)
Lemma adjust_both_minute : forall y mo d h mi s, 0 <= s < 60 -> in_i64 mi = true ->
  both PMinute (adjust_times_add md y mo d h mi s) (adjust_times_add md y mo d h mi 59).
Proof.
  intros y mo d h mi s Hs Hi. apply in_i64_iff in Hi. unfold adjust_times_add. rewrite !fix_carry_small by lia. cbn [bind].
  destruct (fix_carry md mi 60 h) as [[h1 mi1]| | |]; cbn [bind]; try (right; split; intros f; discriminate).
  destruct (fix_carry md h1 24 d) as [[d1 h2]| | |]; cbn [bind]; try (right; split; intros f; discriminate).
  destruct (month_loop md y d1 mo) as [[d2 mo1]| | |]; cbn [bind]; try (right; split; intros f; discriminate).
  destruct (year_loop md y mo1) as [[y1 mo2]| | |]; cbn [bind]; try (right; split; intros f; discriminate).
  left. do 2 eexists. repeat split; lia.
Qed.
Lemma adjust_both_hour : forall y mo d h mi s, 0 <= s < 60 -> 0 <= mi < 60 -> in_i64 h = true ->
  both PHour (adjust_times_add md y mo d h mi s) (adjust_times_add md y mo d h 59 59).
Proof.
  intros y mo d h mi s Hs Hm Hi. apply in_i64_iff in Hi. unfold adjust_times_add.
  rewrite !(fix_carry_small md _ 60) by (unfold i64_min, i64_max; lia). cbn [bind]. rewrite !(fix_carry_small md _ 60) by lia. cbn [bind].
  destruct (fix_carry md h 24 d) as [[d1 h2]| | |]; cbn [bind]; try (right; split; intros f; discriminate).
  destruct (month_loop md y d1 mo) as [[d2 mo1]| | |]; cbn [bind]; try (right; split; intros f; discriminate).
  destruct (year_loop md y mo1) as [[y1 mo2]| | |]; cbn [bind]; try (right; split; intros f; discriminate).
  left. do 2 eexists. repeat split; lia.
Qed.
Lemma adjust_both_day : forall y mo d h mi s, 0 <= s < 60 -> 0 <= mi < 60 -> 0 <= h < 24 -> in_i64 d = true ->
  both PDay (adjust_times_add md y mo d h mi s) (adjust_times_add md y mo d 23 59 59).
Proof.
  intros y mo d h mi s Hs Hm Hh Hi. apply in_i64_iff in Hi. unfold adjust_times_add.
  rewrite !(fix_carry_small md _ 60) by (unfold i64_min, i64_max; lia). cbn [bind].
  rewrite !(fix_carry_small md _ 60) by (unfold i64_min, i64_max; lia). cbn [bind].
  rewrite !(fix_carry_small md _ 24) by lia. cbn [bind].
  destruct (month_loop md y d mo) as [[d2 mo1]| | |]; cbn [bind]; try (right; split; intros f; discriminate).
  destruct (year_loop md y mo1) as [[y1 mo2]| | |]; cbn [bind]; try (right; split; intros f; discriminate).
  left. do 2 eexists. repeat split; lia.
Qed.

(** Borrows downward. *)
Lemma sub_both_minute : forall y mo d h mi s, 0 <= s < 60 ->
  both PMinute (adjust_times_sub md y mo d h mi s) (adjust_times_sub md y mo d h mi 59).
Proof.
  intros y mo d h mi s Hs. unfold adjust_times_sub. rewrite !(borrow_no md 0 60 60 mi) by lia. cbn [bind].
  destruct (borrow md 0 60 60 h mi) as [[h1 mi1]| | |]; cbn [bind]; try (right; split; intros f; discriminate).
  destruct (borrow md 0 24 24 d h1) as [[d1 h2]| | |]; cbn [bind]; try (right; split; intros f; discriminate).
  destruct (borrow md 1 32 31 mo d1) as [[mo1 d2]| | |]; cbn [bind]; try (right; split; intros f; discriminate).
  destruct (borrow md 1 13 12 y mo1) as [[y1 mo2]| | |]; cbn [bind]; try (right; split; intros f; discriminate).
  left. do 2 eexists. repeat split; lia.
Qed.
Lemma sub_both_hour : forall y mo d h mi s, 0 <= s < 60 -> 0 <= mi < 60 ->
  both PHour (adjust_times_sub md y mo d h mi s) (adjust_times_sub md y mo d h 59 59).
Proof.
  intros y mo d h mi s Hs Hm. unfold adjust_times_sub. rewrite !(borrow_no md 0 60 60 _ s), !(borrow_no md 0 60 60 _ 59) by lia. cbn [bind].
  rewrite !(borrow_no md 0 60 60 h) by lia. cbn [bind].
  destruct (borrow md 0 24 24 d h) as [[d1 h2]| | |]; cbn [bind]; try (right; split; intros f; discriminate).
  destruct (borrow md 1 32 31 mo d1) as [[mo1 d2]| | |]; cbn [bind]; try (right; split; intros f; discriminate).
  destruct (borrow md 1 13 12 y mo1) as [[y1 mo2]| | |]; cbn [bind]; try (right; split; intros f; discriminate).
  left. do 2 eexists. repeat split; lia.
Qed.
Lemma sub_both_day : forall y mo d h mi s, 0 <= s < 60 -> 0 <= mi < 60 -> 0 <= h < 24 ->
  both PDay (adjust_times_sub md y mo d h mi s) (adjust_times_sub md y mo d 23 59 59).
Proof.
  intros y mo d h mi s Hs Hm Hh. unfold adjust_times_sub. rewrite !(borrow_no md 0 60 60 _ s), !(borrow_no md 0 60 60 _ 59) by lia. cbn [bind].
  rewrite ?(borrow_no md 0 60 60 h), ?(borrow_no md 0 60 60 23) by lia. cbn [bind].
  rewrite !(borrow_no md 0 24 24 d) by lia. cbn [bind].
  destruct (borrow md 1 32 31 mo d) as [[mo1 d2]| | |]; cbn [bind]; try (right; split; intros f; discriminate).
  destruct (borrow md 1 13 12 y mo1) as [[y1 mo2]| | |]; cbn [bind]; try (right; split; intros f; discriminate).
  left. do 2 eexists. repeat split; lia.
Qed.

Lemma arith_i64 : forall z r, @arith kek md z = Ok r -> in_i64 r = true.
Proof.
  intros z r. unfold arith. destruct (in_i64 z) eqn:I; [intro E; injection E as <-; exact I|]. destruct md; [discriminate|].
  intro E. injection E as <-. apply in_i64_iff, wrap64_range.
Qed.

Lemma add_both : forall m u n k, dt_valid m = true -> in_i64 n = true -> moves u k = true ->
  both_end k (calculate md (Addition (Moment m) (mk u n))) (calculate md (Addition (Moment (end_at k m)) (mk u n))).
Proof.
  intros m u n k Hm Hn Hk. rewrite !calc_add_mk by (assumption || apply end_at_valid; assumption).
  destruct (valid_facts m Hm) as (Vy & Vmo & Vd & Vml & Vh & Vmi & Vs).
  assert (S : forall z, 0 <= z <= 60 -> in_i64 z = true) by (intros z Hz; apply in_i64_iff; unfold i64_min, i64_max; lia).
  destruct k, u; try discriminate Hk; cbn [mk add_to_moment end_at year month day hour minute second]; unfold addc; cbn [bind];
    (destruct (arith md _) as [z| | |] eqn:A; cbn [bind]; [apply arith_i64 in A; apply build_both|right; split; intros v; discriminate..]);
    first [apply adjust_both_minute|apply adjust_both_hour|apply adjust_both_day]; solve [assumption|lia|apply S; lia].
Qed.
Lemma sub_both : forall m u n k, dt_valid m = true -> in_i64 n = true -> moves u k = true ->
  both_end k (calculate md (Subtraction (Moment m) (mk u n))) (calculate md (Subtraction (Moment (end_at k m)) (mk u n))).
Proof.
  intros m u n k Hm Hn Hk. rewrite !calc_sub_mk by (assumption || apply end_at_valid; assumption).
  destruct (valid_facts m Hm) as (Vy & Vmo & Vd & Vml & Vh & Vmi & Vs).
  destruct k, u; try discriminate Hk; cbn [mk sub_from_moment end_at year month day hour minute second]; unfold subc; cbn [bind];
    (destruct (arith md _) as [z| | |] eqn:A; cbn [bind]; [apply build_both|right; split; intros v; discriminate..]);
    first [apply sub_both_minute|apply sub_both_hour|apply sub_both_day]; lia.
Qed.

Lemma end_iff : forall t t' k v, tt_ok t = true -> both_end k (calculate md t) (calculate md t') ->
  (calculate md (end_of k t) = Ok v <-> calculate md t' = Ok v).
Proof.
  intros t t' k v Ht [(a & E & E')|[N N']].
  - rewrite end_complete by assumption. rewrite E, E'. reflexivity.
  - split; intro C; [exfalso|elim (N' v C)]. rewrite end_complete in C by assumption.
    destruct (calculate md t) as [w| | |]; try discriminate C. exact (N w eq_refl).
Qed.
Lemma end_value : forall k m e, dt_valid m = true -> calculate md (end_of k (Moment m)) = Ok (Moment e) -> e = end_at k m.
Proof.
  intros k m e Hm E. rewrite end_complete in E by exact Hm. change (calculate md (Moment m)) with (@Ok kek timetype (Moment m)) in E. congruence.
Qed.

Lemma end_moves_add : forall m u n k e v, dt_valid m = true -> in_i64 n = true -> moves u k = true -> calculate md (end_of k (Moment m)) = Ok (Moment e) ->
  (calculate md (end_of k (Addition (Moment m) (mk u n))) = Ok v <-> calculate md (Addition (Moment e) (mk u n)) = Ok v).
Proof.
  intros m u n k e v Hm Hn Hk He. rewrite (end_value k m e Hm He). apply end_iff; [cbn [tt_ok]; rewrite Hm, ok_mk; exact Hn|apply add_both; assumption].
Qed.
Lemma end_moves_sub : forall m u n k e v, dt_valid m = true -> in_i64 n = true -> moves u k = true -> calculate md (end_of k (Moment m)) = Ok (Moment e) ->
  (calculate md (end_of k (Subtraction (Moment m) (mk u n))) = Ok v <-> calculate md (Subtraction (Moment e) (mk u n)) = Ok v).
Proof.
  intros m u n k e v Hm Hn Hk He. rewrite (end_value k m e Hm He). apply end_iff; [cbn [tt_ok]; rewrite Hm, ok_mk; exact Hn|apply sub_both; assumption].
Qed.

(** Years and their ends. *)
Lemma rep_year : forall y Y mo d, 1 <= mo <= 12 -> 1 <= d <= month_length y mo ->
  representable Y mo d = (min_year <=? Y) && (Y <=? max_year) && negb ((mo =? 2) && (d =? 29) && negb (leap Y)).
Proof.
  intros y Y mo d Hmo Hd. unfold representable. f_equal. unfold date_exists. rewrite month_length_val in * by assumption.
  destruct (Z.eqb_spec mo 2) as [->|M]; [|destruct (_ || _ || _ || _); lia].
  destruct (leap Y), (leap y), (Z.eqb_spec d 29); cbn [andb negb]; lia.
Qed.
Lemma rep_end : forall Y, representable Y 12 31 = (min_year <=? Y) && (Y <=? max_year).
Proof. intros Y. unfold representable. change (date_exists Y 12 31) with true. apply andb_true_r. Qed.
Lemma rep_march : forall Y, representable Y 3 1 = (min_year <=? Y) && (Y <=? max_year).
Proof. intros Y. unfold representable. change (date_exists Y 3 1) with true. apply andb_true_r. Qed.

Lemma end_year_add : forall m n e v, dt_valid m = true -> in_i64 n = true -> i64_min <= year m + n <= i64_max ->
  calculate md (EndOfYear (Moment m)) = Ok (Moment e) ->
  (calculate md (EndOfYear (Addition (Moment m) (Years n))) = Ok v <-> calculate md (Addition (Moment e) (Years n)) = Ok v).
Proof.
  intros m n e v Hm Hn Hy He. rewrite (end_value PYear m e Hm He). apply (end_iff _ _ PYear); [cbn [tt_ok]; rewrite Hm; exact Hn|].
  pose proof (end_at_valid PYear m Hm) as Hv. destruct (valid_facts m Hm) as (Vy & Vmo & Vd & Vml & Vh & Vmi & Vs).
  rewrite !add_years by assumption. cbn [end_at year month day]. generalize (wrap32 (year m + n)). intro Y.
  assert (HA : in_year Y 12 31 = (Y, 12, 31)) by reflexivity. rewrite HA. clear HA.
  change (sod (mkdt (year m) 12 31 0 0 0 0)) with 0. unfold built. rewrite rep_end. unfold in_year.
  destruct ((month m =? 2) && (day m =? 29) && negb (leap Y)) eqn:L.
  - rewrite rep_march. destruct ((min_year <=? Y) && (Y <=? max_year)); [left; eexists; split; reflexivity|right; split; intros w; discriminate].
  - rewrite (rep_year (year m)) by (assumption || lia). rewrite L. cbn [negb]. rewrite andb_true_r.
    destruct ((min_year <=? Y) && (Y <=? max_year)); [left; eexists; split; reflexivity|right; split; intros w; discriminate].
Qed.
Lemma end_year_sub : forall m n e v, dt_valid m = true -> in_i64 n = true -> i64_min <= year m - n <= i64_max ->
  calculate md (EndOfYear (Moment m)) = Ok (Moment e) ->
  (calculate md (EndOfYear (Subtraction (Moment m) (Years n))) = Ok v <->
   calculate md (Subtraction (Moment e) (Years n)) = Ok v /\ ~ (month m = 2 /\ day m = 29 /\ leap (wrap32 (year m - n)) = false)).
Proof.
  intros m n e v Hm Hn Hy He. rewrite (end_value PYear m e Hm He).
  pose proof (end_at_valid PYear m Hm) as Hv. destruct (valid_facts m Hm) as (Vy & Vmo & Vd & Vml & Vh & Vmi & Vs).
  change (EndOfYear (Subtraction (Moment m) (Years n))) with (end_of PYear (Subtraction (Moment m) (Years n))).
  rewrite end_complete by (cbn [tt_ok]; rewrite Hm; exact Hn). rewrite !sub_years by assumption.
  cbn [end_at year month day]. generalize (wrap32 (year m - n)). intro Y.
  change (sod (mkdt (year m) 12 31 0 0 0 0)) with 0. unfold built. rewrite rep_end, (rep_year (year m)) by (assumption || lia).
  destruct ((min_year <=? Y) && (Y <=? max_year)); cbn [andb].
  - destruct ((month m =? 2) && (day m =? 29) && negb (leap Y)) eqn:L; cbn [negb].
    + rewrite !andb_true_iff, negb_true_iff, !Z.eqb_eq in L. split; [discriminate|tauto].
    + assert (N : ~ (month m = 2 /\ day m = 29 /\ leap Y = false)).
      { intros (A & B & C). rewrite A, B, C in L. discriminate L. }
      change (end_at PYear (at_time Y (month m) (day m) (sod m))) with (at_time Y 12 31 0). tauto.
  - split; [discriminate|intros [C _]; discriminate C].
Qed.

(** Expressions. *)
Lemma end_parts : forall k a e, tt_ok a = true -> calculate md (end_of k a) = Ok (Moment e) ->
  exists m, calculate md a = Ok (Moment m) /\ dt_valid m = true /\ calculate md (end_of k (Moment m)) = Ok (Moment e) /\ dt_valid e = true.
Proof.
  intros k a e Ha E. pose proof (calculate_good md a Ha) as G. rewrite end_complete in E by exact Ha.
  destruct (calculate md a) as [w| | |]; try discriminate E. destruct w as [| | | | | |d| | | | | | |]; try discriminate E. exists d.
  assert (Hd : dt_valid d = true) by apply G. split; [reflexivity|]. split; [exact Hd|].
  rewrite end_complete by exact Hd. change (calculate md (Moment d)) with (@Ok kek timetype (Moment d)). split; [exact E|].
  injection E as <-. apply end_at_valid. exact Hd.
Qed.
Lemma value_i64 : forall b u n, tt_ok b = true -> calculate md b = Ok (mk u n) -> in_i64 n = true.
Proof. intros b u n Hb E. pose proof (calculate_good md b Hb) as G. rewrite E in G. destruct G as [_ G]. rewrite ok_mk in G. exact G. Qed.

Lemma end_trees_add : forall k a b u n e v, tt_ok a = true -> tt_ok b = true -> shape_of (Addition a b) = SMoment -> moves u k = true ->
  calculate md (end_of k a) = Ok (Moment e) -> calculate md b = Ok (mk u n) ->
  (calculate md (end_of k (Addition a b)) = Ok v <-> calculate md (Addition (Moment e) b) = Ok v).
Proof.
  intros k a b u n e v Ha Hb Hs Hk He Hv. destruct (end_parts k a e Ha He) as (m & Em & Hm & Ee & Ve). pose proof (value_i64 b u n Hb Hv) as Hn.
  assert (Hab : tt_ok (Addition a b) = true) by (cbn [tt_ok]; rewrite Ha; exact Hb).
  assert (Sb : shape_of b = SAmount) by (cbn [shape_of] in Hs; destruct (shape_of a), (shape_of b); try discriminate Hs; reflexivity).
  destruct (calc_add_comp md a b Ha Hb ltac:(rewrite Hs; discriminate)) as (C1 & _).
  destruct (calc_add_comp md (Moment e) b Ve Hb ltac:(cbn [shape_of]; rewrite Sb; cbn; discriminate)) as (C2 & _).
  rewrite (C2 (Moment e) (mk u n) eq_refl Hv). rewrite <- (end_moves_add m u n k e v Hm Hn Hk Ee).
  rewrite !end_complete by (exact Hab || (cbn [tt_ok]; rewrite Hm, ok_mk; exact Hn)). rewrite (C1 _ _ Em Hv). reflexivity.
Qed.
Lemma end_trees_sub : forall k a b u n e v, tt_ok a = true -> tt_ok b = true -> shape_of (Subtraction a b) = SMoment -> moves u k = true ->
  calculate md (end_of k a) = Ok (Moment e) -> calculate md b = Ok (mk u n) ->
  (calculate md (end_of k (Subtraction a b)) = Ok v <-> calculate md (Subtraction (Moment e) b) = Ok v).
Proof.
  intros k a b u n e v Ha Hb Hs Hk He Hv. destruct (end_parts k a e Ha He) as (m & Em & Hm & Ee & Ve). pose proof (value_i64 b u n Hb Hv) as Hn.
  assert (Hab : tt_ok (Subtraction a b) = true) by (cbn [tt_ok]; rewrite Ha; exact Hb).
  assert (Sb : shape_of b = SAmount) by (cbn [shape_of] in Hs; destruct (shape_of a), (shape_of b); try discriminate Hs; reflexivity).
  destruct (calc_sub_comp md a b Ha Hb ltac:(rewrite Hs; discriminate)) as (C1 & _).
  destruct (calc_sub_comp md (Moment e) b Ve Hb ltac:(cbn [shape_of]; rewrite Sb; cbn; discriminate)) as (C2 & _).
  rewrite (C2 (Moment e) (mk u n) eq_refl Hv). rewrite <- (end_moves_sub m u n k e v Hm Hn Hk Ee).
  rewrite !end_complete by (exact Hab || (cbn [tt_ok]; rewrite Hm, ok_mk; exact Hn)). rewrite (C1 _ _ Em Hv). reflexivity.
Qed.
End Step.
