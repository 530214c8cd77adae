(** Moment - amount: closed forms. *)
Require Import ZArith Bool List Lia ZifyBool.
From Verif Require Import Prelude Spec Chrono Util TimeType SpecTree SpecMoment PreludeProofs CalendarProofs EvalProofs AmountProofs ShapeProofs LoopProofs AddProofs AddProofs2.
Local Open Scope Z_scope.
Ltac Zify.zify_post_hook ::= Z.div_mod_to_equations.

Definition big : Z := 1099511627776.
Section Sub.
Variable md : mode.

Lemma borrow_no : forall l k t n b, l <= b -> @borrow kek md l k t n b = Ok (n, b).
Proof. intros l k t n b H. unfold borrow. replace (b <? l) with false by lia. reflexivity. Qed.
Lemma borrow_yes : forall l k t n b, b < l -> l <= 1 -> - big <= b -> - big <= n <= big -> 1 <= k <= 60 -> 0 <= t <= 60 ->
  @borrow kek md l k t n b = Ok (n - (Z.abs b / k + 1), t - Z.abs b).
Proof.
  intros l k t n b H Hl Hb Hn Hk Ht. unfold borrow. replace (b <? l) with true by lia.
  unfold subc, addc, divc, absc. cbn [bind]. unfold big in *.
  rewrite arith_ok by (unfold i64_min, i64_max; lia). cbn [bind].
  rewrite Z.quot_div_nonneg by lia.
  assert (Hd : 0 <= Z.abs b / k <= 1099511627776).
  { split; [apply Z.div_pos; lia|]. apply Z.div_le_upper_bound; nia. }
  rewrite arith_ok by (unfold i64_min, i64_max; lia). cbn [bind].
  rewrite arith_ok by (unfold i64_min, i64_max; lia). cbn [bind].
  rewrite arith_ok by (unfold i64_min, i64_max; lia). cbn [bind].
  rewrite arith_ok by (unfold i64_min, i64_max; lia). cbn [bind].
  rewrite arith_ok by (unfold i64_min, i64_max; lia). cbn [bind].
  replace (Z.abs (0 - b)) with (Z.abs b) by lia. reflexivity.
Qed.

(** Days and months. *)
Lemma sub_date : forall y mo d r, min_year <= y <= max_year -> 1 <= mo <= 12 -> - big <= d <= 31 -> 
  forall h mi s, h = r / 3600 -> mi = r mod 3600 / 60 -> s = r mod 60 -> 0 <= r < 86400 ->
  let res := do f <- adjust_times_sub md y mo d h mi s; build_moment f in
  (-30 <= d -> res = built3 (back_day y mo d) r) /\ (-2147483648 <= d < -30 -> oob res).
Proof.
  intros y mo d r Hy Hmo Hd h mi s Eh Emi Es Hr res. subst res. unfold adjust_times_sub.
  rewrite borrow_no by lia. cbn [bind]. rewrite borrow_no by lia. cbn [bind].
  rewrite borrow_no by lia. cbn [bind].
  unfold back_day, built3, prev_month. unfold big, min_year, max_year in *.
  destruct (Z.leb_spec 1 d) as [H1|H1].
  - split; intro H; [|lia]. rewrite borrow_no by lia. cbn [bind]. rewrite borrow_no by lia. cbn [bind].
    subst h mi s. rewrite built_gen by lia. rewrite wrap32_id by lia. reflexivity.
  - rewrite borrow_yes by (unfold big; lia). cbn [bind]. split; intro H.
    + replace (Z.abs d / 32) with 0 by lia. replace (31 - Z.abs d) with (31 + d) by lia.
      replace (mo - (0 + 1)) with (mo - 1) by lia.
      destruct (Z.eqb_spec mo 1) as [Em|Em].
      * rewrite borrow_yes by (unfold big; lia). cbn [bind].
        replace (y - (Z.abs (mo - 1) / 13 + 1)) with (y - 1) by (replace (mo - 1) with 0 by lia; cbn; lia).
        replace (12 - Z.abs (mo - 1)) with 12 by lia.
        subst h mi s. rewrite built_gen by lia. rewrite wrap32_id by lia. reflexivity.
      * rewrite borrow_no by lia. cbn [bind]. subst h mi s. rewrite built_gen by lia. rewrite wrap32_id by lia. reflexivity.
    + (* the day stays below 1 *)
      assert (Hfin : forall Y Mo, oob (build_moment (Y, Mo, 31 - Z.abs d, h, mi, s))).
      { intros Y Mo. destruct (build_cases Y Mo (31 - Z.abs d) h mi s) as [(C1 & _)|[-> _]]; [|repeat eexists].
        exfalso. apply representable_iff in C1. destruct C1 as [_ C1]. apply date_exists_iff in C1.
        pose proof (month_length_bounds (wrap32 Y) (as_u32 Mo) ltac:(tauto)).
        assert (HD : as_u32 (31 - Z.abs d) = 0 \/ 2147483600 <= as_u32 (31 - Z.abs d)) by (clear - H; unfold as_u32; lia).
        lia. }
      destruct (Z_lt_le_dec (mo - (Z.abs d / 32 + 1)) 1).
      * rewrite borrow_yes by (unfold big; lia). cbn [bind]. apply Hfin.
      * rewrite borrow_no by lia. cbn [bind]. apply Hfin.
Qed.

(** Reductions: a borrow that leaves its field non-negative can be done first. *)
Lemma red_s : forall y mo d h mi s mi' s', @borrow kek md 0 60 60 mi s = Ok (mi', s') -> 0 <= s' ->
  @adjust_times_sub kek md y mo d h mi s = adjust_times_sub md y mo d h mi' s'.
Proof.
  intros y mo d h mi s mi' s' H Hs. unfold adjust_times_sub. rewrite H. cbn [bind].
  rewrite (borrow_no 0 60 60 mi' s') by lia. reflexivity.
Qed.
Lemma red_mi : forall y mo d h mi s h' mi', 0 <= s -> @borrow kek md 0 60 60 h mi = Ok (h', mi') -> 0 <= mi' ->
  @adjust_times_sub kek md y mo d h mi s = adjust_times_sub md y mo d h' mi' s.
Proof.
  intros y mo d h mi s h' mi' Hs H Hmi. unfold adjust_times_sub.
  rewrite (borrow_no 0 60 60 mi s), (borrow_no 0 60 60 mi' s) by lia. cbn [bind]. rewrite H. cbn [bind].
  rewrite (borrow_no 0 60 60 h' mi') by lia. reflexivity.
Qed.
Lemma red_h : forall y mo d h mi s d' h', 0 <= s -> 0 <= mi -> @borrow kek md 0 24 24 d h = Ok (d', h') -> 0 <= h' ->
  @adjust_times_sub kek md y mo d h mi s = adjust_times_sub md y mo d' h' mi s.
Proof.
  intros y mo d h mi s d' h' Hs Hmi H Hh. unfold adjust_times_sub.
  rewrite !(borrow_no 0 60 60 mi s) by lia. cbn [bind].
  rewrite !(borrow_no 0 60 60 h mi), !(borrow_no 0 60 60 h' mi) by lia. cbn [bind].
  rewrite H. cbn [bind]. rewrite (borrow_no 0 24 24 d' h') by lia. reflexivity.
Qed.

(** The five borrows without machine arithmetic. *)
Definition bor (l k t n b : Z) : Z * Z := if b <? l then (n - (Z.abs b / k + 1), t - Z.abs b) else (n, b).
Lemma borrow_bor : forall l k t n b, l <= 1 -> - big <= b -> - big <= n <= big -> 1 <= k <= 60 -> 0 <= t <= 60 ->
  @borrow kek md l k t n b = Ok (bor l k t n b).
Proof.
  intros l k t n b Hl Hb Hn Hk Ht. unfold bor. destruct (Z.ltb_spec b l).
  - apply borrow_yes; assumption.
  - apply borrow_no; assumption.
Qed.
Lemma bor_bound : forall l k t n b N B, l <= 1 -> 1 <= k <= 60 -> 0 <= t <= 60 -> - B <= b <= B -> - N <= n <= N ->
  60 <= B -> - (N + B + 1) <= fst (bor l k t n b) <= N /\ - B <= snd (bor l k t n b) <= B.
Proof.
  intros l k t n b N B Hl Hk Ht Hb Hn HB. unfold bor. destruct (Z.ltb_spec b l); cbn [fst snd]; [|lia].
  assert (0 <= Z.abs b / k <= B).
  { split; [apply Z.div_pos; lia|]. apply Z.div_le_upper_bound; nia. }
  lia.
Qed.
Lemma adj_pure : forall y mo d h mi s,
  let W := 8589934592 in
  - W <= y <= W -> - W <= mo <= W -> - W <= d <= W -> - W <= h <= W -> - W <= mi <= W -> - W <= s <= W ->
  let '(mi1, s1) := bor 0 60 60 mi s in
  let '(h1, mi2) := bor 0 60 60 h mi1 in
  let '(d1, h2) := bor 0 24 24 d h1 in
  let '(mo1, d2) := bor 1 32 31 mo d1 in
  let '(y1, mo2) := bor 1 13 12 y mo1 in
  @adjust_times_sub kek md y mo d h mi s = Ok (y1, mo2, d2, h2, mi2, s1).
Proof.
  intros y mo d h mi s W Hy Hmo Hd Hh Hmi Hs. unfold adjust_times_sub. subst W.
  rewrite borrow_bor by (unfold big; lia).
  pose proof (bor_bound 0 60 60 mi s 8589934592 8589934592 ltac:(lia) ltac:(lia) ltac:(lia) ltac:(lia) ltac:(lia) ltac:(lia)) as B1.
  destruct (bor 0 60 60 mi s) as [mi1 s1]. cbn [bind fst snd] in *.
  rewrite borrow_bor by (unfold big; lia).
  pose proof (bor_bound 0 60 60 h mi1 8589934592 17179869200 ltac:(lia) ltac:(lia) ltac:(lia) ltac:(lia) ltac:(lia) ltac:(lia)) as B2.
  destruct (bor 0 60 60 h mi1) as [h1 mi2]. cbn [bind fst snd] in *.
  rewrite borrow_bor by (unfold big; lia).
  pose proof (bor_bound 0 24 24 d h1 8589934592 34359738368 ltac:(lia) ltac:(lia) ltac:(lia) ltac:(lia) ltac:(lia) ltac:(lia)) as B3.
  destruct (bor 0 24 24 d h1) as [d1 h2]. cbn [bind fst snd] in *.
  rewrite borrow_bor by (unfold big; lia).
  pose proof (bor_bound 1 32 31 mo d1 8589934592 68719476736 ltac:(lia) ltac:(lia) ltac:(lia) ltac:(lia) ltac:(lia) ltac:(lia)) as B4.
  destruct (bor 1 32 31 mo d1) as [mo1 d2]. cbn [bind fst snd] in *.
  rewrite borrow_bor by (unfold big; lia).
  destruct (bor 1 13 12 y mo1) as [y1 mo2]. reflexivity.
Qed.

(** A second, minute or hour field that stays negative is an error. *)
Lemma build_neg : forall y mo d h mi s, (-2147483648 <= s < 0 \/ -2147483648 <= mi < 0 \/ -2147483648 <= h < 0) ->
  oob (build_moment (y, mo, d, h, mi, s)).
Proof.
  intros y mo d h mi s H.
  destruct (build_cases y mo d h mi s) as [(C1 & C2 & C3 & C4 & _)|[-> _]]; [|repeat eexists].
  exfalso. unfold as_u32 in C2, C3, C4. lia.
Qed.
Lemma sub_deep : forall y mo d h mi s,
  min_year <= y <= max_year -> 1 <= mo <= 12 -> 1 <= d <= 31 ->
  (-2147483648 <= s < -60 /\ 0 <= mi < 60 /\ 0 <= h < 24 \/
   0 <= s < 60 /\ -2147483648 <= mi < -60 /\ 0 <= h < 24 \/
   0 <= s < 60 /\ 0 <= mi < 60 /\ -2147483648 <= h < -24) ->
  oob (do f <- adjust_times_sub md y mo d h mi s; build_moment f).
Proof.
  intros y mo d h mi s Hy Hmo Hd H. unfold min_year, max_year in *.
  pose proof (adj_pure y mo d h mi s ltac:(lia) ltac:(lia) ltac:(lia) ltac:(lia) ltac:(lia) ltac:(lia)) as A.
  destruct (bor 0 60 60 mi s) as [mi1 s1] eqn:E1. destruct (bor 0 60 60 h mi1) as [h1 mi2] eqn:E2.
  destruct (bor 0 24 24 d h1) as [d1 h2] eqn:E3. destruct (bor 1 32 31 mo d1) as [mo1 d2].
  destruct (bor 1 13 12 y mo1) as [y1 mo2]. rewrite A. cbn [bind]. apply build_neg.
  unfold bor in E1, E2, E3.
  destruct H as [(H1 & H2 & H3)|[(H1 & H2 & H3)|(H1 & H2 & H3)]].
  - left. replace (s <? 0) with true in E1 by lia. apply pair_equal_spec in E1; destruct E1 as [<- <-]. clear - H1. lia.
  - right; left. replace (s <? 0) with false in E1 by lia. apply pair_equal_spec in E1; destruct E1 as [<- <-].
    replace (mi <? 0) with true in E2 by lia. apply pair_equal_spec in E2; destruct E2 as [<- <-]. clear - H2. lia.
  - right; right. replace (s <? 0) with false in E1 by lia. apply pair_equal_spec in E1; destruct E1 as [<- <-].
    replace (mi <? 0) with false in E2 by lia. apply pair_equal_spec in E2; destruct E2 as [<- <-].
    replace (h <? 0) with true in E3 by lia. apply pair_equal_spec in E3; destruct E3 as [<- <-]. clear - H3. lia.
Qed.

(** One borrow at each level. [T] is the resulting time of day in seconds, possibly negative. *)
Lemma sub_h : forall y mo d h mi s T, min_year <= y <= max_year -> 1 <= mo <= 12 -> 1 <= d <= 31 ->
  -24 <= h < 24 -> 0 <= mi < 60 -> 0 <= s < 60 ->
  (h = -24 /\ T = h * 3600 + mi * 60 + s - 86400 \/ h <> -24 /\ T = h * 3600 + mi * 60 + s) ->
  (do f <- adjust_times_sub md y mo d h mi s; build_moment f) = built3 (back_day y mo (d + T / 86400)) (T mod 86400).
Proof.
  intros y mo d h mi s T Hy Hmo Hd Hh Hmi Hs HT.
  destruct (Z_lt_le_dec h 0) as [Hn|Hn].
  - assert (B : @borrow kek md 0 24 24 d h = Ok (d + T / 86400, h + 24)).
    { rewrite borrow_yes by (unfold big; lia).
      replace (24 - Z.abs h) with (h + 24) by lia.
      replace (d - (Z.abs h / 24 + 1)) with (d + T / 86400) by (clear - HT Hh Hn Hmi Hs; lia). reflexivity. }
    rewrite (red_h y mo d h mi s _ _ ltac:(lia) ltac:(lia) B) by lia.
    apply sub_date; try assumption; try (unfold big); clear B; lia.
  - replace (d + T / 86400) with d by lia.
    apply sub_date; try assumption; try (unfold big); lia.
Qed.
Lemma sub_mi : forall y mo d h mi s T, min_year <= y <= max_year -> 1 <= mo <= 12 -> 1 <= d <= 31 ->
  0 <= h < 24 -> -60 <= mi < 60 -> 0 <= s < 60 ->
  (mi = -60 /\ T = h * 3600 + mi * 60 + s - 3600 \/ mi <> -60 /\ T = h * 3600 + mi * 60 + s) ->
  (do f <- adjust_times_sub md y mo d h mi s; build_moment f) = built3 (back_day y mo (d + T / 86400)) (T mod 86400).
Proof.
  intros y mo d h mi s T Hy Hmo Hd Hh Hmi Hs HT.
  destruct (Z_lt_le_dec mi 0) as [Hn|Hn].
  - set (h' := h - (if mi =? -60 then 2 else 1)).
    assert (Hh' : -2 <= h' < 24) by (subst h'; destruct (mi =? -60); lia).
    assert (B : @borrow kek md 0 60 60 h mi = Ok (h', mi + 60)).
    { rewrite borrow_yes by (unfold big; lia). subst h'.
      replace (60 - Z.abs mi) with (mi + 60) by lia.
      replace (Z.abs mi / 60 + 1) with (if mi =? -60 then 2 else 1) by (destruct (Z.eqb_spec mi (-60)); lia). reflexivity. }
    rewrite (red_mi y mo d h mi s _ _ ltac:(lia) B) by lia.
    apply sub_h; try assumption; try lia.
    subst h'. destruct (Z.eqb_spec mi (-60)); lia.
  - apply sub_h; try assumption; try lia.
Qed.
Lemma sub_s : forall y mo d h mi s T, min_year <= y <= max_year -> 1 <= mo <= 12 -> 1 <= d <= 31 ->
  0 <= h < 24 -> 0 <= mi < 60 -> -60 <= s < 60 ->
  (s = -60 /\ T = h * 3600 + mi * 60 + s - 60 \/ s <> -60 /\ T = h * 3600 + mi * 60 + s) ->
  (do f <- adjust_times_sub md y mo d h mi s; build_moment f) = built3 (back_day y mo (d + T / 86400)) (T mod 86400).
Proof.
  intros y mo d h mi s T Hy Hmo Hd Hh Hmi Hs HT.
  destruct (Z_lt_le_dec s 0) as [Hn|Hn].
  - set (mi' := mi - (if s =? -60 then 2 else 1)).
    assert (Hmi' : -2 <= mi' < 60) by (subst mi'; destruct (s =? -60); lia).
    assert (B : @borrow kek md 0 60 60 mi s = Ok (mi', s + 60)).
    { rewrite borrow_yes by (unfold big; lia). subst mi'.
      replace (60 - Z.abs s) with (s + 60) by lia.
      replace (Z.abs s / 60 + 1) with (if s =? -60 then 2 else 1) by (destruct (Z.eqb_spec s (-60)); lia). reflexivity. }
    rewrite (red_s y mo d h mi s _ _ B) by lia.
    apply sub_mi; try assumption; try lia.
    subst mi'. destruct (Z.eqb_spec s (-60)); lia.
  - apply sub_mi; try assumption; try lia.
Qed.

(** C19 *)
Lemma sub_clock : forall m u n, dt_valid m = true -> clock_unit u = true -> u <> UDay -> 0 <= n < 2147483648 ->
  let x := field u m - n in
  let T := sod m - n * unit_secs u in
  let res := calculate md (Subtraction (Moment m) (mk u n)) in
  (- modulus u < x -> res = built3 (back_day (year m) (month m) (day m + T / 86400)) (T mod 86400)) /\
  (x = - modulus u -> let T' := T - modulus u * unit_secs u in
     res = built3 (back_day (year m) (month m) (day m + T' / 86400)) (T' mod 86400)) /\
  (x < - modulus u -> oob res).
Proof.
  intros m u n Hm Hu Hud Hn x T res. subst x res.
  destruct (valid_facts m Hm) as (Vy & Vmo & Vd & Vml & Vh & Vmi & Vs).
  rewrite calc_sub_mk by (assumption || apply in_i64_iff; unfold i64_min, i64_max; lia).
  unfold sod in T. subst T.
  destruct u; try discriminate Hu; try contradiction; cbn [mk sub_from_moment unit_secs modulus field] in *;
    unfold subc; cbn [bind]; (rewrite arith_ok by (unfold i64_min, i64_max; lia)); cbn [bind];
    (split; [|split]); intro Hx; try (apply sub_deep; lia); cbv zeta; first [solve [apply sub_s; lia]|solve [apply sub_mi; lia]|solve [apply sub_h; lia]].
Qed.

(** C20 *)
Lemma sub_days : forall m n, dt_valid m = true -> 0 <= n < 2147483648 ->
  let D := day m - n in
  let res := calculate md (Subtraction (Moment m) (Days n)) in
  (-30 <= D -> res = built3 (back_day (year m) (month m) D) (sod m)) /\
  (D < -30 -> oob res).
Proof.
  intros m n Hm Hn D res. subst res.
  destruct (valid_facts m Hm) as (Vy & Vmo & Vd & Vml & Vh & Vmi & Vs).
  pose proof (sod_range m Hm) as Hsod.
  change (Days n) with (mk UDay n).
  rewrite calc_sub_mk by (assumption || apply in_i64_iff; unfold i64_min, i64_max; lia).
  cbn [mk sub_from_moment]. unfold subc. cbn [bind]. rewrite arith_ok by (unfold i64_min, i64_max; lia). cbn [bind].
  fold D.
  pose proof (sub_date (year m) (month m) D (sod m) Vy Vmo ltac:(unfold big; subst D; lia) (hour m) (minute m) (second m)
    ltac:(unfold sod; lia) ltac:(unfold sod; lia) ltac:(unfold sod; lia) Hsod) as [A1 A2].
  split; intro H; [apply A1; assumption|apply A2; subst D; lia].
Qed.

(** Identity on fields that need no borrow. *)
Lemma adjust_sub_id : forall y mo d h mi s, 1 <= mo -> 1 <= d -> 0 <= h -> 0 <= mi -> 0 <= s ->
  @adjust_times_sub kek md y mo d h mi s = Ok (y, mo, d, h, mi, s).
Proof.
  intros y mo d h mi s H1 H2 H3 H4 H5. unfold adjust_times_sub.
  rewrite borrow_no by lia. cbn [bind]. rewrite borrow_no by lia. cbn [bind].
  rewrite borrow_no by lia. cbn [bind]. rewrite borrow_no by lia. cbn [bind].
  rewrite borrow_no by lia. reflexivity.
Qed.

(** C21 *)
Lemma sub_months : forall m n, dt_valid m = true -> 0 <= n < 2147483648 ->
  let M := month m - n in
  let res := calculate md (Subtraction (Moment m) (Months n)) in
  (1 <= M -> res = built (year m) M (day m) (sod m)) /\
  (-11 <= M <= 0 -> res = built (year m - 1) (M + 12) (day m) (sod m)) /\
  (M < -11 -> oob res).
Proof.
  intros m n Hm Hn M res. subst res.
  destruct (valid_facts m Hm) as (Vy & Vmo & Vd & Vml & Vh & Vmi & Vs).
  change (Months n) with (mk UMonth n). unfold min_year, max_year in *.
  rewrite calc_sub_mk by (assumption || apply in_i64_iff; unfold i64_min, i64_max; lia).
  cbn [mk sub_from_moment]. unfold subc. cbn [bind]. rewrite arith_ok by (unfold i64_min, i64_max; lia). cbn [bind].
  fold M. split; [|split]; intro H.
  - rewrite adjust_sub_id by lia. cbn [bind]. rewrite build_sod by lia || assumption. rewrite wrap32_id by lia. reflexivity.
  - unfold adjust_times_sub.
    rewrite borrow_no by lia. cbn [bind]. rewrite borrow_no by lia. cbn [bind].
    rewrite borrow_no by lia. cbn [bind]. rewrite borrow_no by lia. cbn [bind].
    rewrite borrow_yes by (unfold big; lia). cbn [bind].
    replace (Z.abs M / 13) with 0 by lia. replace (12 - Z.abs M) with (M + 12) by lia.
    replace (year m - (0 + 1)) with (year m - 1) by lia.
    rewrite build_sod by lia || assumption. rewrite wrap32_id by lia. reflexivity.
  - unfold adjust_times_sub.
    rewrite borrow_no by lia. cbn [bind]. rewrite borrow_no by lia. cbn [bind].
    rewrite borrow_no by lia. cbn [bind]. rewrite borrow_no by lia. cbn [bind].
    rewrite borrow_yes by (unfold big; subst M; lia). cbn [bind].
    match goal with |- oob (build_moment (?Y, ?MM, ?D, ?h, ?mi, ?s)) =>
      destruct (build_cases Y MM D h mi s) as [(C1 & _)|[-> _]]; [|repeat eexists] end.
    exfalso. apply representable_iff in C1. destruct C1 as [_ C1]. apply date_exists_iff in C1.
    destruct C1 as [C1 _]. unfold as_u32 in C1. subst M. lia.
Qed.
Lemma sub_years : forall m n, dt_valid m = true -> in_i64 n = true -> i64_min <= year m - n <= i64_max ->
  calculate md (Subtraction (Moment m) (Years n)) = built (wrap32 (year m - n)) (month m) (day m) (sod m).
Proof.
  intros m n Hm Hn Hb. destruct (valid_facts m Hm) as (Vy & Vmo & Vd & Vml & Vh & Vmi & Vs).
  change (Years n) with (mk UYear n). rewrite calc_sub_mk by assumption.
  cbn [mk sub_from_moment]. unfold subc. cbn [bind]. rewrite arith_ok by assumption. cbn [bind].
  rewrite adjust_sub_id by lia. cbn [bind]. apply build_sod; lia || assumption.
Qed.

Lemma triple_eq : forall {A B C} (a a' : A) (b b' : B) (c c' : C), (a, b, c) = (a', b', c') -> a = a' /\ b = b' /\ c = c'.
Proof. intros A B C a a' b b' c c' H. inversion H. auto. Qed.

(** The day reached going back, as a day number. *)
Lemma back_day_number : forall y mo D y' mo' d', 1 <= mo <= 12 -> back_day y mo D = (y', mo', d') ->
  day_number y' mo' d' = day_number y mo D +
    (if 1 <=? D then 0 else 31 - (let '(py, pm) := prev_month y mo in month_length py pm)).
Proof.
  intros y mo D y' mo' d' Hmo E. unfold back_day in E. destruct (1 <=? D).
  - apply triple_eq in E as (<- & <- & <-). lia.
  - unfold prev_month in *. destruct (Z.eqb_spec mo 1) as [Em|Em].
    + apply triple_eq in E as (<- & <- & E). pose proof (day_number_next_year (y - 1)) as N.
      replace (y - 1 + 1) with y in N by lia. subst mo. change (month_length (y - 1) 12) with 31.
      unfold day_number in *. rewrite days_before_1 in *. lia.
    + apply triple_eq in E as (<- & <- & E). pose proof (day_number_next_month y (mo - 1) ltac:(lia)) as N.
      replace (mo - 1 + 1) with mo in N by lia. unfold day_number in *. lia.
Qed.
Lemma built3_ok : forall x r v, built3 x r = Ok v -> exists y mo d, x = (y, mo, d) /\
  representable y mo d = true /\ v = Moment (at_time y mo d r).
Proof. intros [[y mo] d] r v H. exists y, mo, d. split; [reflexivity|]. apply built_ok. exact H. Qed.
Lemma back_exact : forall y mo D r m', 1 <= mo <= 12 -> 0 <= r < 86400 ->
  built3 (back_day y mo D) r = Ok (Moment m') ->
  inst m' = day_number y mo D * 86400 + r +
    (if 1 <=? D then 0 else 31 - (let '(py, pm) := prev_month y mo in month_length py pm)) * 86400.
Proof.
  intros y mo D r m' Hmo Hr E. apply built3_ok in E. destruct E as (y' & mo' & d' & E & _ & Em).
  injection Em as ->. rewrite inst_at by assumption. rewrite (back_day_number _ _ _ _ _ _ Hmo E). lia.
Qed.

(** C22: how far a successful subtraction is from the true instant. *)
Lemma sub_error : forall m u n m', dt_valid m = true -> clock_unit u = true -> 0 <= n < 2147483648 ->
  (u <> UDay -> field u m - n <> - modulus u) ->
  calculate md (Subtraction (Moment m) (mk u n)) = Ok (Moment m') ->
  inst m' = inst m - n * unit_secs u +
    (if 1 <=? day m + (sod m - n * unit_secs u) / 86400 then 0
     else 31 - (let '(py, pm) := prev_month (year m) (month m) in month_length py pm)) * 86400.
Proof.
  intros m u n m' Hm Hu Hn Hx E. destruct (valid_facts m Hm) as (Vy & Vmo & Vd & _).
  pose proof (sod_range m Hm) as Hsod. rewrite (inst_sod m).
  assert (Hu' : u = UDay \/ u <> UDay) by (destruct u; auto; right; discriminate).
  destruct Hu' as [-> |Hud].
  - cbn [mk unit_secs] in *. destruct (sub_days m n Hm Hn) as [A1 A2]. cbv zeta in A1, A2.
    destruct (Z_le_gt_dec (-30) (day m - n)) as [H|H].
    + rewrite A1 in E by lia. apply back_exact in E; [|assumption|assumption]. rewrite E.
      replace (day m + (sod m - n * 86400) / 86400) with (day m - n) by (clear - Hsod; lia).
      unfold day_number. lia.
    + exfalso. exact (oob_err _ (A2 ltac:(lia)) _ E).
  - destruct (sub_clock m u n Hm Hu Hud Hn) as (A1 & A2 & A3). cbv zeta in A1, A2, A3.
    specialize (Hx Hud). set (T := sod m - n * unit_secs u) in *.
    destruct (Z_lt_le_dec (- modulus u) (field u m - n)) as [H|H].
    + rewrite A1 in E by assumption.
      apply back_exact in E; [|assumption|apply Z.mod_pos_bound; lia]. rewrite E.
      pose proof (Z.div_mod T 86400 ltac:(lia)). unfold day_number. subst T. lia.
    + exfalso. exact (oob_err _ (A3 ltac:(lia)) _ E).
Qed.

(** C23 *)
Lemma sub_negative : forall m u n, dt_valid m = true -> clock_unit u = true -> -2147483648 <= n < 0 ->
  let r := calculate md (Subtraction (Moment m) (mk u n)) in
  oob r \/ exists m', r = Ok (Moment m') /\ dt_valid m' = true /\ nano m' = 0 /\ inst m' = inst m - n * unit_secs u.
Proof.
  intros m u n Hm Hu Hn r. subst r.
  destruct (valid_facts m Hm) as (Vy & Vmo & Vd & Vml & Vh & Vmi & Vs).
  rewrite calc_sub_mk by (assumption || apply in_i64_iff; unfold i64_min, i64_max; lia).
  assert (Hfin : forall d h mi s, 1 <= d < 4294967296 -> 0 <= h < 4294967296 -> 0 <= mi < 4294967296 -> 0 <= s < 4294967296 ->
     let r := do f <- adjust_times_sub md (year m) (month m) d h mi s; build_moment f in
     oob r \/ exists m', r = Ok (Moment m') /\ dt_valid m' = true /\ nano m' = 0 /\
       inst m' = day_number (year m) (month m) d * 86400 + h * 3600 + mi * 60 + s).
  { intros d h mi s Hd Hh Hmi Hs r. subst r. rewrite adjust_sub_id by lia. cbn [bind].
    destruct (build_cases (year m) (month m) d h mi s) as [(C1 & C2 & C3 & C4 & ->)|[-> _]];
      [right|left; repeat eexists].
    rewrite !as_u32_id in * by lia. rewrite wrap32_id in * by (unfold min_year, max_year in *; lia).
    eexists. split; [reflexivity|]. split; [|split; reflexivity].
    apply dt_valid_iff. cbn. apply representable_iff in C1. destruct C1 as [? ?].
    split; [assumption|]. split; [assumption|]. lia. }
  unfold inst, instant in *.
  assert (Hday : day_number (year m) (month m) (day m - n) = day_number (year m) (month m) (day m) - n)
    by (unfold day_number; lia).
  destruct u; try discriminate Hu; cbn [mk sub_from_moment unit_secs] in *;
    unfold subc; cbn [bind]; (rewrite arith_ok by (unfold i64_min, i64_max; lia)); cbn [bind].
  - destruct (Hfin (day m) (hour m) (minute m) (second m - n)) as [?|(m' & ? & ? & ? & ?)];
      [lia|lia|lia|lia|left; assumption|right; exists m'; repeat split; try assumption; lia].
  - destruct (Hfin (day m) (hour m) (minute m - n) (second m)) as [?|(m' & ? & ? & ? & ?)];
      [lia|lia|lia|lia|left; assumption|right; exists m'; repeat split; try assumption; lia].
  - destruct (Hfin (day m) (hour m - n) (minute m) (second m)) as [?|(m' & ? & ? & ? & ?)];
      [lia|lia|lia|lia|left; assumption|right; exists m'; repeat split; try assumption; lia].
  - destruct (Hfin (day m - n) (hour m) (minute m) (second m)) as [?|(m' & ? & ? & ? & ?)];
      [lia|lia|lia|lia|left; assumption|right; exists m'; repeat split; try assumption; lia].
Qed.
End Sub.
