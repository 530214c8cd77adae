(** Adding negative amounts: closed forms; comparison with subtraction. *)
Require Import ZArith Bool List Lia ZifyBool.
From Verif Require Import Prelude Spec Chrono Util TimeType SpecTree SpecMoment SpecIter SpecSeq
  PreludeProofs CalendarProofs EvalProofs AmountProofs ShapeProofs CompProofs LoopProofs AddProofs AddProofs2 SubProofs SubProofs2.
Local Open Scope Z_scope.
Ltac Zify.zify_post_hook ::= Z.div_mod_to_equations.

Section Neg.
Variable md : mode.

Lemma fix_carry_neg : forall b k n, -4294967296 <= b < 0 -> 0 < k <= 60 -> -4294967296 <= n <= 60 ->
  @fix_carry kek md b k n = Ok (n - (- b) / k, - ((- b) mod k)).
Proof.
  intros b k n Hb Hk Hn. rewrite fix_carry_eq by (unfold i64_min, i64_max; lia).
  assert (Q : Z.quot b k = - ((- b) / k)).
  { rewrite <- (Z.opp_involutive b) at 1. rewrite Z.quot_opp_l by lia. rewrite Z.quot_div_nonneg by lia. reflexivity. }
  assert (R : Z.rem b k = - ((- b) mod k)).
  { rewrite <- (Z.opp_involutive b) at 1. rewrite Z.rem_opp_l by lia. rewrite Z.rem_mod_nonneg by lia. reflexivity. }
  assert (0 <= (- b) / k <= - b). { split; [apply Z.div_pos; lia|]. apply Z.div_le_upper_bound; nia. }
  rewrite Q, R. rewrite arith_ok by (unfold i64_min, i64_max; lia). reflexivity.
Qed.

Lemma finish : forall y mo d h mi s, min_year <= y <= max_year -> 1 <= mo <= 12 -> -4294967000 < d <= month_length y mo ->
  -60 < s < 60 -> -60 < mi < 60 -> -24 < h < 24 ->
  let res := do f <- (do (d', mo') <- month_loop md y d mo; do (y', mo'') <- year_loop md y mo'; Ok (y', mo'', d', h, mi, s)); build_moment f in
  (0 <= s -> 0 <= mi -> 0 <= h -> 1 <= d -> res = Ok (Moment (mkdt y mo d h mi s 0))) /\
  (s < 0 \/ mi < 0 \/ h < 0 \/ d < 1 -> oob res).
Proof.
  intros y mo d h mi s Hy Hmo Hd Hs Hmi Hh res. subst res.
  assert (W : wrap32 y = y) by (apply wrap32_id; unfold min_year, max_year in *; lia).
  pose proof (gndm_wrap y mo Hmo) as G. rewrite W in G. pose proof (month_length_bounds y mo Hmo).
  rewrite month_loop_stop by lia. cbn [bind]. rewrite year_loop_small by lia. cbn [bind]. split.
  - intros S0 M0 H0 D0. rewrite build_gen by lia. rewrite W. replace (representable y mo d) with true; [reflexivity|].
    symmetry. apply representable_iff. split; [assumption|]. apply date_exists_iff. lia.
  - intros [C|[C|[C|C]]]; [apply build_neg; lia|apply build_neg; lia|apply build_neg; lia|].
    destruct (build_cases y mo d h mi s) as [(C1 & _)|[-> _]]; [|repeat eexists].
    exfalso. apply representable_iff in C1. destruct C1 as [_ C1]. apply date_exists_iff in C1. rewrite W in C1.
    rewrite (as_u32_id mo) in C1 by lia. unfold as_u32 in C1. lia.
Qed.


(** One carry: exact if nothing has to be borrowed, otherwise a negative field is left. *)
Definition whole (b k : Z) : bool := (0 <=? b) || (b mod k =? 0).
Lemma carry : forall b k n, -4294967296 <= b < k -> 0 < k <= 60 -> -4294967296 <= n <= 60 ->
  exists n' b', @fix_carry kek md b k n = Ok (n', b') /\ - k < b' < k /\ n' <= n /\ n + (if b <? 0 then b else 0) <= n' /\
    (whole b k = true -> n' = n + b / k /\ b' = b mod k) /\ (whole b k = false -> b' < 0).
Proof.
  intros b k n Hb Hk Hn. unfold whole. destruct (Z_lt_le_dec b 0) as [B|B].
  - exists (n - (- b) / k), (- ((- b) mod k)). rewrite fix_carry_neg by lia.
    pose proof (Z.div_mod (- b) k ltac:(lia)). pose proof (Z.mod_pos_bound (- b) k ltac:(lia)).
    pose proof (Z.div_mod b k ltac:(lia)). pose proof (Z.mod_pos_bound b k ltac:(lia)).
    assert (0 <= (- b) / k <= - b). { split; [apply Z.div_pos; lia|]. apply Z.div_le_upper_bound; nia. }
    replace (b <? 0) with true by lia. replace (0 <=? b) with false by lia. cbn [orb].
    split; [reflexivity|]. split; [lia|]. split; [lia|]. split; [lia|]. split.
    + intro W. apply Z.eqb_eq in W. assert (b = - (- b / k) * k - (- b) mod k) by lia.
      assert (b / k = - ((- b) / k)) by nia. nia.
    + intro W. apply Z.eqb_neq in W. destruct (Z.eq_dec ((- b) mod k) 0) as [Q|Q]; [|lia]. exfalso. apply W.
      rewrite <- (Z.opp_involutive b). apply Z.mod_opp_l_z; lia.
  - exists n, b. rewrite fix_carry_small by (unfold i64_min, i64_max; lia).
    rewrite Z.div_small, Z.mod_small by lia. replace (b <? 0) with false by lia. replace (0 <=? b) with true by lia.
    split; [reflexivity|]. split; [lia|]. split; [lia|]. split; [lia|]. split; [lia|discriminate].
Qed.

Lemma chain : forall y mo d h mi s, min_year <= y <= max_year -> 1 <= mo <= 12 -> -2147483648 <= d <= month_length y mo ->
  -2147483648 <= s < 60 -> -2147483648 <= mi < 60 -> -2147483648 <= h < 24 ->
  mi + (if s <? 0 then s else 0) >= -2147483648 -> h + (if s <? 0 then s else 0) + (if mi <? 0 then mi else 0) >= -2147483648 ->
  d + (if s <? 0 then s else 0) + (if mi <? 0 then mi else 0) + (if h <? 0 then h else 0) >= -2147483648 ->
  let mi1 := mi + s / 60 in
  let h1 := h + mi1 / 60 in
  let d1 := d + h1 / 24 in
  let ok := whole s 60 && whole mi1 60 && whole h1 24 in
  let r := do f <- adjust_times_add md y mo d h mi s; build_moment f in
  (ok = true -> 1 <= d1 -> r = Ok (Moment (mkdt y mo d1 (h1 mod 24) (mi1 mod 60) (s mod 60) 0))) /\
  (ok = false \/ d1 < 1 -> oob r).
Proof.
  intros y mo d h mi s Hy Hmo Hd Hs Hmi Hh B1 B2 B3 mi1 h1 d1 ok r. subst r ok. unfold adjust_times_add.
  destruct (carry s 60 mi ltac:(lia) ltac:(lia) ltac:(lia)) as (a & s' & -> & R1 & L1 & G1 & W1 & X1). cbn [bind].
  destruct (carry a 60 h ltac:(destruct (s <? 0); lia) ltac:(lia) ltac:(lia)) as (b & mi' & -> & R2 & L2 & G2 & W2 & X2). cbn [bind].
  destruct (carry b 24 d ltac:(destruct (s <? 0), (a <? 0) eqn:?, (mi <? 0) eqn:?; lia) ltac:(lia) ltac:(pose proof (month_length_bounds y mo Hmo); lia)) as (c & h' & -> & R3 & L3 & G3 & W3 & X3). cbn [bind].
  assert (Gd : -4294967000 < c).
  { clear - G1 G2 G3 B1 B2 B3 L1 L2 L3 Hd Hh Hmi Hs.
    destruct (Z.ltb_spec s 0), (Z.ltb_spec mi 0), (Z.ltb_spec h 0), (Z.ltb_spec a 0), (Z.ltb_spec b 0); lia. }
  destruct (finish y mo c h' mi' s' Hy Hmo ltac:(lia) R1 R2 R3) as [F1 F2].
  destruct (whole s 60) eqn:E1; [|split; [discriminate|]; intros _; apply F2; left; apply X1; reflexivity].
  destruct (W1 eq_refl) as [-> ->]. fold mi1 in F1, F2, W2, X2, R2 |- *. cbn [andb].
  destruct (whole mi1 60) eqn:E2; [|split; [discriminate|]; intros _; apply F2; right; left; apply X2; reflexivity].
  destruct (W2 eq_refl) as [-> ->]. fold h1 in F1, F2, W3, X3, R3 |- *. cbn [andb].
  destruct (whole h1 24) eqn:E3; [|split; [discriminate|]; intros _; apply F2; right; right; left; apply X3; reflexivity].
  destruct (W3 eq_refl) as [-> ->]. fold d1 in F1, F2 |- *. split.
  - intros _ D1. apply F1; lia.
  - intros [D1|D1]; [discriminate|]. apply F2. auto.
Qed.

Lemma nb_min : forall h mi s n, 0 <= h < 24 -> 0 <= mi < 60 -> 0 <= s < 60 -> n < 0 ->
  let x := mi + n in let T := h * 3600 + x * 60 + s in
  (T / 3600 =? (h * 3600 + mi * 60 + s) / 3600) || (T mod 3600 / 60 =? 0) && ((0 <=? T) || (T mod 86400 / 3600 =? 0)) =
  ((0 <=? x) || (x mod 60 =? 0)) && ((0 <=? h + x / 60) || ((h + x / 60) mod 24 =? 0)).
Proof.
  intros h mi s n Hh Hmi Hs Hn x T.
  replace ((h * 3600 + mi * 60 + s) / 3600) with h by lia.
  set (b := h + x / 60). replace (T / 3600) with b by lia. replace (T mod 3600 / 60) with (x mod 60) by lia.
  replace (T mod 86400 / 3600) with (b mod 24) by lia. replace (0 <=? T) with (0 <=? b) by lia.
  replace (b =? h) with (0 <=? x) by lia.
  destruct (0 <=? x) eqn:X; cbn [orb andb]; [|reflexivity]. replace (0 <=? b) with true by lia. reflexivity.
Qed.
Lemma nb_sec : forall h mi s n, 0 <= h < 24 -> 0 <= mi < 60 -> 0 <= s < 60 -> n < 0 ->
  let x := s + n in let T := h * 3600 + mi * 60 + x in let a := mi + x / 60 in
  (T / 60 =? (h * 3600 + mi * 60 + s) / 60) || (T mod 60 =? 0) &&
    ((T / 3600 =? (h * 3600 + mi * 60 + s) / 3600) || (T mod 3600 / 60 =? 0) && ((0 <=? T) || (T mod 86400 / 3600 =? 0))) =
  ((0 <=? x) || (x mod 60 =? 0)) && ((0 <=? a) || (a mod 60 =? 0)) && ((0 <=? h + a / 60) || ((h + a / 60) mod 24 =? 0)).
Proof.
  intros h mi s n Hh Hmi Hs Hn x T a.
  replace ((h * 3600 + mi * 60 + s) / 3600) with h by lia. replace ((h * 3600 + mi * 60 + s) / 60) with (h * 60 + mi) by lia.
  set (b := h + a / 60). replace (T / 60) with (h * 60 + a) by lia. replace (T mod 60) with (x mod 60) by lia.
  replace (T / 3600) with b by lia. replace (T mod 3600 / 60) with (a mod 60) by lia.
  replace (T mod 86400 / 3600) with (b mod 24) by lia. replace (0 <=? T) with (0 <=? b) by lia.
  replace (h * 60 + a =? h * 60 + mi) with (0 <=? x) by lia.
  replace (b =? h) with (0 <=? a) by lia.
  destruct (0 <=? x) eqn:X; cbn [orb andb].
  - replace (0 <=? a) with true by lia. replace (0 <=? b) with true by lia. reflexivity.
  - destruct (x mod 60 =? 0); cbn [andb]; [|reflexivity]. destruct (0 <=? a) eqn:A; cbn [orb andb]; [|reflexivity].
    replace (0 <=? b) with true by lia. reflexivity.
Qed.

Lemma add_negative_complete : forall m u n, dt_valid m = true -> clock_unit u = true -> -2147483648 <= n < 0 ->
  let T := sod m + n * unit_secs u in
  let D := day m + T / 86400 in
  let r := calculate md (Addition (Moment m) (mk u n)) in
  (no_borrow u m T = true -> 1 <= D -> r = Ok (Moment (at_time (year m) (month m) D (T mod 86400)))) /\
  (no_borrow u m T = false \/ D < 1 -> oob r).
Proof.
  intros m u n Hm Hu Hn T D r. subst r. destruct (valid_facts m Hm) as (Vy & Vmo & Vd & Vml & Vh & Vmi & Vs).
  rewrite calc_add_mk by (assumption || apply in_i64_iff; unfold i64_min, i64_max; lia).
  assert (Hsod : sod m = hour m * 3600 + minute m * 60 + second m) by reflexivity.
  assert (A : forall d h mi s, T = (d - day m) * 86400 + h * 3600 + mi * 60 + s -> 
     -2147483648 <= d <= month_length (year m) (month m) -> -2147483648 <= s < 60 -> -2147483648 <= mi < 60 -> -2147483648 <= h < 24 ->
     mi + (if s <? 0 then s else 0) >= -2147483648 -> h + (if s <? 0 then s else 0) + (if mi <? 0 then mi else 0) >= -2147483648 ->
     d + (if s <? 0 then s else 0) + (if mi <? 0 then mi else 0) + (if h <? 0 then h else 0) >= -2147483648 ->
     no_borrow u m T = whole s 60 && whole (mi + s / 60) 60 && whole (h + (mi + s / 60) / 60) 24 ->
     let r := do f <- adjust_times_add md (year m) (month m) d h mi s; build_moment f in
     (no_borrow u m T = true -> 1 <= D -> r = Ok (Moment (at_time (year m) (month m) D (T mod 86400)))) /\
     (no_borrow u m T = false \/ D < 1 -> oob r)).
  { intros d h mi s HT B1 B2 B3 B4 B5 B6 B7 NB r. subst r. rewrite NB.
    pose proof (chain (year m) (month m) d h mi s Vy Vmo B1 B2 B3 B4 B5 B6 B7) as C. cbv zeta in C.
    set (mi1 := mi + s / 60) in *. set (h1 := h + mi1 / 60) in *.
    assert (E1 : T = ((d - day m) * 24 + h1) * 3600 + (mi1 mod 60) * 60 + s mod 60) by lia.
    assert (E2 : D = d + h1 / 24) by (unfold D; rewrite E1; clear - mi1 h1; lia).
    assert (E3 : T mod 86400 = (h1 mod 24) * 3600 + (mi1 mod 60) * 60 + s mod 60) by (rewrite E1; clear - mi1 h1; lia).
    rewrite E2. unfold at_time. rewrite E3.
    replace ((h1 mod 24 * 3600 + mi1 mod 60 * 60 + s mod 60) / 3600) with (h1 mod 24) by (clear - mi1 h1; lia).
    replace ((h1 mod 24 * 3600 + mi1 mod 60 * 60 + s mod 60) mod 3600 / 60) with (mi1 mod 60) by (clear - mi1 h1; lia).
    replace ((h1 mod 24 * 3600 + mi1 mod 60 * 60 + s mod 60) mod 60) with (s mod 60) by (clear - mi1 h1; lia).
    exact C. }
  assert (Hday : day m <= month_length (year m) (month m)) by lia.
  destruct u; try discriminate Hu; cbn [mk add_to_moment unit_secs] in *; unfold addc; cbn [bind];
    (rewrite arith_ok by (unfold i64_min, i64_max; lia)); cbn [bind]; apply A; clear A; try lia; try iflia; unfold no_borrow, whole; cbv zeta.
  - assert (ET : T = hour m * 3600 + minute m * 60 + (second m + n)) by lia. rewrite ET, Hsod. apply nb_sec; lia.
  - assert (ET : T = hour m * 3600 + (minute m + n) * 60 + second m) by lia. rewrite ET, Hsod.
    replace (second m / 60) with 0 by lia. rewrite Z.add_0_r.
    replace (0 <=? second m) with true by lia. cbn [orb andb]. apply nb_min; lia.
  - set (x := hour m + n) in *. assert (ET : T = x * 3600 + minute m * 60 + second m) by lia. rewrite ET.
    replace (second m / 60) with 0 by lia. rewrite Z.add_0_r. replace (minute m / 60) with 0 by lia. rewrite Z.add_0_r.
    replace (0 <=? second m) with true by lia. replace (0 <=? minute m) with true by lia. cbn [orb andb].
    f_equal; lia.
  - replace (second m / 60) with 0 by lia. rewrite Z.add_0_r. replace (minute m / 60) with 0 by lia. rewrite Z.add_0_r.
    replace (0 <=? second m) with true by lia. replace (0 <=? minute m) with true by lia. replace (0 <=? hour m) with true by lia. reflexivity.
Qed.
End Neg.

Section NegMonths.
Variable md : mode.

Lemma add_months_negative : forall m n, dt_valid m = true -> -2147483648 <= n < 0 ->
  let M := month m + n in
  let r := calculate md (Addition (Moment m) (Months n)) in
  (1 <= M -> day m <= month_length (year m) M -> r = Ok (Moment (mkdt (year m) M (day m) (hour m) (minute m) (second m) 0))) /\
  (1 <= M -> month_length (year m) M < day m ->
     r = Ok (Moment (mkdt (year m) (M + 1) (day m - month_length (year m) M) (hour m) (minute m) (second m) 0))) /\
  (M = 0 -> day m = 31 -> r = Ok (Moment (mkdt (year m) 1 1 (hour m) (minute m) (second m) 0))) /\
  (M <= 0 -> M < 0 \/ day m <= 30 -> oob r).
Proof.
  intros m n Hm Hn M r. subst r. destruct (valid_facts m Hm) as (Vy & Vmo & Vd & Vml & Vh & Vmi & Vs).
  change (Months n) with (mk UMonth n).
  rewrite calc_add_mk by (assumption || apply in_i64_iff; unfold i64_min, i64_max in *; lia).
  cbn [mk add_to_moment]. unfold addc. cbn [bind].
  rewrite arith_ok by (unfold i64_min, i64_max in *; lia). cbn [bind].
  rewrite adjust_add_date by lia. fold M. rewrite !bind_bind.
  assert (Yi : wrap32 (year m) = year m) by (apply wrap32_id; unfold min_year, max_year in *; lia).
  assert (Bd : forall mo d, 1 <= mo <= 12 -> 1 <= d <= month_length (year m) mo ->
     build_moment (year m, mo, d, hour m, minute m, second m) = Ok (Moment (mkdt (year m) mo d (hour m) (minute m) (second m) 0))).
  { intros mo d Hmo Hd. pose proof (month_length_bounds (year m) mo Hmo). rewrite build_gen by lia. rewrite Yi.
    replace (representable (year m) mo d) with true; [reflexivity|]. symmetry. apply representable_iff.
    split; [assumption|]. apply date_exists_iff. lia. }
  assert (G : 1 <= M -> get_num_of_days_in_month (year m) M = month_length (year m) M).
  { intro H. rewrite (gndm_wrap (year m) M) by lia. rewrite Yi. reflexivity. }
  split; [|split; [|split]].
  - intros H1 H2. specialize (G H1). rewrite month_loop_stop by lia. cbn [bind]. rewrite year_loop_small by lia. cbn [bind]. apply Bd; lia.
  - intros H1 H2. specialize (G H1). pose proof (month_length_bounds (year m) M ltac:(lia)). pose proof (month_length_bounds (year m) (M + 1) ltac:(lia)).
    rewrite month_loop_once by (unfold i64_min, i64_max; lia). cbn [bind]. rewrite year_loop_small by lia. cbn [bind]. rewrite G. apply Bd; lia.
  - intros H1 H2. assert (G' : get_num_of_days_in_month (year m) M = 30) by (apply gndm_else; lia).
    rewrite month_loop_once by (unfold i64_min, i64_max; lia). cbn [bind]. rewrite year_loop_small by lia. cbn [bind]. rewrite G', H1, H2.
    apply Bd; [lia|]. change (month_length (year m) 1) with 31. lia.
  - intros H1 H2. assert (G' : get_num_of_days_in_month (year m) M = 30) by (apply gndm_else; lia).
    assert (K : forall mo d, -2147483648 <= mo <= 0 -> oob (build_moment (year m, mo, d, hour m, minute m, second m))).
    { intros mo d Hmo. destruct (build_cases (year m) mo d (hour m) (minute m) (second m)) as [(C1 & _)|[-> _]]; [|repeat eexists].
      exfalso. apply representable_iff in C1. destruct C1 as [_ C1]. apply date_exists_iff in C1. unfold as_u32 in C1. lia. }
    destruct (Z_le_gt_dec (day m) 30) as [Hd|Hd].
    + rewrite month_loop_stop by lia. cbn [bind]. rewrite year_loop_small by lia. cbn [bind]. apply K. lia.
    + rewrite month_loop_once by (unfold i64_min, i64_max; lia). cbn [bind]. rewrite year_loop_small by lia. cbn [bind]. apply K. lia.
Qed.

(** Subtraction against addition of the opposite. *)
Lemma sub_is_add_opposite : forall m u n, dt_valid m = true -> clock_unit u = true -> 0 < n ->
  n <= (match u with UDay => day m - 1 | _ => field u m end) ->
  exists m', calculate md (Subtraction (Moment m) (mk u n)) = Ok (Moment m') /\
    calculate md (Addition (Moment m) (mk u (- n))) = Ok (Moment m') /\ inst m' = inst m - n * unit_secs u.
Proof.
  intros m u n Hm Hu Hn Hf. destruct (valid_facts m Hm) as (Vy & Vmo & Vd & Vml & Vh & Vmi & Vs).
  pose proof (sod_range m Hm) as Sr. assert (Hsod : sod m = hour m * 3600 + minute m * 60 + second m) by reflexivity.
  set (T := sod m + - n * unit_secs u). set (D := day m + T / 86400).
  exists (at_time (year m) (month m) D (T mod 86400)).
  assert (HD : 1 <= D <= day m /\ (u = UDay \/ D = day m) /\ no_borrow u m T = true /\ D = day m + T / 86400).
  { unfold D, T, no_borrow. destruct u; try discriminate Hu; cbn [unit_secs field] in *.
    - replace ((sod m + - n * 1) / 60 =? sod m / 60) with true by lia. cbn [orb]. lia.
    - replace ((sod m + - n * 60) / 3600 =? sod m / 3600) with true by lia. cbn [orb]. lia.
    - replace (0 <=? sod m + - n * 3600) with true by lia. cbn [orb]. lia.
    - split; [lia|]. split; [left; reflexivity|]. split; reflexivity. }
  destruct HD as (D1 & D2 & NB & _).
  assert (R : representable (year m) (month m) D = true).
  { apply representable_iff. split; [assumption|]. apply date_exists_iff. lia. }
  split; [|split].
  - assert (Bk : back_day (year m) (month m) D = (year m, month m, D)) by (unfold back_day; replace (1 <=? D) with true by lia; reflexivity).
    assert (Eb : built3 (back_day (year m) (month m) D) (T mod 86400) = Ok (Moment (at_time (year m) (month m) D (T mod 86400)))).
    { rewrite Bk. cbn [built3]. unfold built. rewrite R. reflexivity. }
    destruct u; try discriminate Hu; cbn [unit_secs field] in *.
    + destruct (sub_clock md m USec n Hm eq_refl ltac:(discriminate) ltac:(lia)) as [C _]. rewrite C by (cbn [field modulus]; lia).
      cbn [unit_secs]. replace (sod m - n * 1) with T by lia. exact Eb.
    + destruct (sub_clock md m UMin n Hm eq_refl ltac:(discriminate) ltac:(lia)) as [C _]. rewrite C by (cbn [field modulus]; lia).
      cbn [unit_secs]. replace (sod m - n * 60) with T by lia. exact Eb.
    + destruct (sub_clock md m UHour n Hm eq_refl ltac:(discriminate) ltac:(lia)) as [C _]. rewrite C by (cbn [field modulus]; lia).
      cbn [unit_secs]. replace (sod m - n * 3600) with T by lia. exact Eb.
    + destruct (sub_days md m n Hm ltac:(lia)) as [C _]. cbn [mk]. rewrite C by lia.
      replace (day m - n) with D by lia. replace (sod m) with (T mod 86400) by lia. exact Eb.
  - destruct (add_negative_complete md m u (- n) Hm Hu) as [C _]; [destruct u; try discriminate Hu; cbn [field] in Hf; lia|].
    apply C; [exact NB|exact (proj1 D1)].
  - rewrite inst_at by (apply Z.mod_pos_bound; lia). rewrite inst_sod. unfold day_number. subst D T. lia.
Qed.

Lemma sub_is_add_months : forall m n, dt_valid m = true -> 0 < n < month m ->
  calculate md (Subtraction (Moment m) (Months n)) = calculate md (Addition (Moment m) (Months (- n))) <->
  day m <= month_length (year m) (month m - n).
Proof.
  intros m n Hm Hn. destruct (valid_facts m Hm) as (Vy & Vmo & Vd & Vml & Vh & Vmi & Vs).
  destruct (sub_months md m n Hm ltac:(lia)) as [C _]. rewrite C by lia.
  destruct (add_months_negative m (- n) Hm ltac:(lia)) as (A1 & A2 & _).
  change (month m + - n) with (month m - n) in *. pose proof (month_length_bounds (year m) (month m - n) ltac:(lia)).
  unfold built, representable. destruct (Z_le_gt_dec (day m) (month_length (year m) (month m - n))) as [L|L].
  - rewrite A1 by lia. split; [intros _; exact L|intros _].
    replace (_ && _ && _) with true; [rewrite at_sod by assumption; reflexivity|]. symmetry.
    rewrite !andb_true_iff, !Z.leb_le. split; [lia|]. apply date_exists_iff. lia.
  - rewrite A2 by lia. split; [|lia]. replace (_ && _ && _) with false; [discriminate|].
    symmetry. apply andb_false_iff. right. apply not_true_iff_false. rewrite date_exists_iff. lia.
Qed.
Lemma sub_is_add_years : forall m n, dt_valid m = true -> min_year <= year m - n <= max_year ->
  calculate md (Subtraction (Moment m) (Years n)) = calculate md (Addition (Moment m) (Years (- n))) <->
  ~ (month m = 2 /\ day m = 29 /\ leap (year m - n) = false).
Proof.
  intros m n Hm Hn. destruct (valid_facts m Hm) as (Vy & Vmo & Vd & Vml & Vh & Vmi & Vs).
  rewrite sub_years by first [assumption | unfold min_year, max_year, i64_min, i64_max in *; lia | apply in_i64_iff; unfold min_year, max_year, i64_min, i64_max in *; lia].
  rewrite add_years_in_range by (try assumption; lia). change (year m + - n) with (year m - n).
  rewrite wrap32_id by (unfold min_year, max_year in *; lia). unfold built, representable.
  destruct ((month m =? 2) && (day m =? 29) && negb (leap (year m - n))) eqn:E.
  - split; [|intro K; elim K; destruct (leap (year m - n)); lia]. replace (_ && _ && _) with false; [discriminate|].
    symmetry. apply andb_false_iff. right. apply not_true_iff_false. rewrite date_exists_iff.
    assert (E2 : month m = 2) by lia. rewrite E2. change (month_length (year m - n) 2) with (if leap (year m - n) then 29 else 28).
    destruct (leap (year m - n)); lia.
  - split; [intros _ (K1 & K2 & K3); rewrite K1, K2, K3 in E; discriminate|intros _].
    replace (_ && _ && _) with true; [rewrite at_sod by assumption; reflexivity|]. symmetry.
    rewrite !andb_true_iff, !Z.leb_le. split; [lia|]. apply date_exists_iff. split; [assumption|]. split; [lia|].
    destruct (Z.eq_dec (month m) 2) as [E2|E2].
    + rewrite E2 in *. change (month_length (year m) 2) with (if leap (year m) then 29 else 28) in Vml.
      change (month_length (year m - n) 2) with (if leap (year m - n) then 29 else 28).
      destruct (leap (year m - n)), (leap (year m)); cbn in E; lia.
    + rewrite (month_length_leap (year m - n) (year m)) by auto. assumption.
Qed.
(** When both succeed they agree, but for the field hitting exactly minus a full cycle. *)
Lemma sub_add_agree : forall m u n m1 m2, dt_valid m = true -> clock_unit u = true -> 0 < n < 2147483648 ->
  (u <> UDay -> field u m - n <> - modulus u) ->
  calculate md (Subtraction (Moment m) (mk u n)) = Ok (Moment m1) -> calculate md (Addition (Moment m) (mk u (- n))) = Ok (Moment m2) -> inst m1 = inst m2.
Proof.
  intros m u n m1 m2 Hm Hu Hn Hx E1 E2. pose proof (clock_unit_secs u Hu).
  pose proof (sub_error md m u n m1 Hm Hu ltac:(lia) Hx E1) as I1.
  destruct (add_negative_complete md m u (- n) Hm Hu ltac:(lia)) as [C1 C2].
  destruct (add_negative md m u (- n) Hm Hu ltac:(lia)) as [O|(m' & E' & _ & _ & I2)]; [elim (oob_err _ O _ E2)|].
  rewrite E2 in E'. injection E' as <-.
  destruct (Z_lt_le_dec (day m + (sod m + - n * unit_secs u) / 86400) 1) as [L|L]; [elim (oob_err _ (C2 (or_intror L)) _ E2)|].
  replace (sod m - n * unit_secs u) with (sod m + - n * unit_secs u) in I1 by lia.
  replace (1 <=? day m + (sod m + - n * unit_secs u) / 86400) with true in I1 by lia. lia.
Qed.
(** Subtracting a negative amount never carries into the next field. *)
Lemma sub_negative_complete : forall m u n, dt_valid m = true -> clock_unit u = true -> -2147483648 <= n < 0 ->
  let x := field u m - n in
  let r := calculate md (Subtraction (Moment m) (mk u n)) in
  (x < (match u with UDay => month_length (year m) (month m) + 1 | _ => modulus u end) ->
     exists m', r = Ok (Moment m') /\ dt_valid m' = true /\ nano m' = 0 /\ inst m' = inst m - n * unit_secs u) /\
  ((match u with UDay => month_length (year m) (month m) + 1 | _ => modulus u end) <= x -> oob r).
Proof.
  intros m u n Hm Hu Hn x r. subst r. destruct (valid_facts m Hm) as (Vy & Vmo & Vd & Vml & Vh & Vmi & Vs).
  assert (Yi : wrap32 (year m) = year m) by (apply wrap32_id; unfold min_year, max_year in *; lia).
  pose proof (month_length_bounds (year m) (month m) Vmo) as ML.
  assert (B : calculate md (Subtraction (Moment m) (mk u n)) =
    match u with USec => build_moment (year m, month m, day m, hour m, minute m, x) | UMin => build_moment (year m, month m, day m, hour m, x, second m)
    | UHour => build_moment (year m, month m, day m, x, minute m, second m) | _ => build_moment (year m, month m, x, hour m, minute m, second m) end).
  { rewrite calc_sub_mk by (assumption || apply in_i64_iff; unfold i64_min, i64_max; lia). subst x.
    destruct u; try discriminate Hu; cbn [mk sub_from_moment field]; unfold subc; cbn [bind];
      (rewrite arith_ok by (unfold i64_min, i64_max; lia)); cbn [bind]; rewrite adjust_sub_id by lia; reflexivity. }
  rewrite B. split.
  - intro L. destruct (sub_negative md m u n Hm Hu Hn) as [O|K]; [|rewrite B in K; exact K]. exfalso. rewrite B in O.
    assert (V : exists v, match u with USec => build_moment (year m, month m, day m, hour m, minute m, x) | UMin => build_moment (year m, month m, day m, hour m, x, second m)
      | UHour => build_moment (year m, month m, day m, x, minute m, second m) | _ => build_moment (year m, month m, x, hour m, minute m, second m) end = Ok v).
    { assert (R : forall d, 1 <= d <= month_length (year m) (month m) -> representable (wrap32 (year m)) (month m) d = true).
      { intros d Hd. rewrite Yi. apply representable_iff. split; [assumption|]. apply date_exists_iff. lia. }
      subst x. destruct u; try discriminate Hu; cbn [field modulus] in L |- *; rewrite build_gen by lia; rewrite R by lia; eexists; reflexivity. }
    destruct V as [v V]. exact (oob_err _ O v V).
  - intro L.
    assert (K : forall d h mi s, 0 <= d < 4294967296 -> 0 <= h < 4294967296 -> 0 <= mi < 4294967296 -> 0 <= s < 4294967296 ->
      month_length (year m) (month m) < d \/ 24 <= h \/ 60 <= mi \/ 60 <= s -> oob (build_moment (year m, month m, d, h, mi, s))).
    { intros d h mi s Hd Hh Hmi Hs C. destruct (build_cases (year m) (month m) d h mi s) as [(C1 & C2 & C3 & C4 & _)|[-> _]]; [|repeat eexists].
      exfalso. rewrite !as_u32_id, Yi in * by lia. apply representable_iff in C1. destruct C1 as [_ C1]. apply date_exists_iff in C1. lia. }
    subst x. destruct u; try discriminate Hu; cbn [field modulus] in L |- *; apply K; lia.
Qed.
End NegMonths.
