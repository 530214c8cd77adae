(** Addition and subtraction of amounts of any size. *)
Require Import ZArith Bool List Lia ZifyBool.
From Verif Require Import Prelude Spec Chrono Util TimeType SpecTree SpecMoment SpecIter SpecSeq SpecWide PreludeProofs CalendarProofs EvalProofs AmountProofs ShapeProofs CompProofs LoopProofs
  AddProofs AddProofs2 SubProofs SubProofs2 NegProofs.
Local Open Scope Z_scope.
Ltac Zify.zify_post_hook ::= Z.div_mod_to_equations.

Section Wide.
Variable md : mode.

(** ** Building with fields of any size *)
Lemma build_low : forall y mo d h mi s, min_year <= y <= max_year -> 0 <= h < 24 -> 0 <= mi < 60 -> 0 <= s < 60 ->
  build_moment (y, mo, d, h, mi, s) = built y (low32 mo) (low32 d) (h * 3600 + mi * 60 + s).
Proof.
  intros y mo d h mi s Hy Hh Hmi Hs.
  assert (W : wrap32 y = y) by (apply wrap32_id; unfold min_year, max_year in *; lia).
  assert (E : build_moment (y, mo, d, h, mi, s) = build_moment (y, low32 mo, low32 d, h, mi, s)).
  { unfold build_moment, low32, as_u32. rewrite !(Z.mod_mod _ 4294967296) by discriminate. reflexivity. }
  rewrite E, build_gen by (try assumption; unfold low32; apply Z.mod_pos_bound; lia). rewrite W. unfold built, at_time.
  replace ((h * 3600 + mi * 60 + s) / 3600) with h by lia.
  replace ((h * 3600 + mi * 60 + s) mod 3600 / 60) with mi by lia.
  replace ((h * 3600 + mi * 60 + s) mod 60) with s by lia. reflexivity.
Qed.

(** ** Adding negative amounts *)
Lemma carry_wide : forall b k n, i64_min <= b < k -> 0 < k <= 60 -> i64_min <= n <= 60 -> (b < 0 -> 0 <= n) ->
  exists n' b', @fix_carry kek md b k n = Ok (n', b') /\ - k < b' < k /\ n' <= n /\ n + (if b <? 0 then b else 0) <= n' /\
    (whole b k = true -> n' = n + b / k /\ b' = b mod k) /\ (whole b k = false -> b' < 0).
Proof.
  intros b k n Hb Hk Hn Hbn. unfold whole. destruct (Z_lt_le_dec b 0) as [B|B].
  - exists (n - (- b) / k), (- ((- b) mod k)).
    assert (Q0 : 0 <= (- b) / k <= - b). { split; [apply Z.div_pos; lia|]. apply Z.div_le_upper_bound; nia. }
    rewrite fix_carry_eq by (unfold i64_min, i64_max in *; lia).
    assert (Q : Z.quot b k = - ((- b) / k)).
    { rewrite <- (Z.opp_involutive b) at 1. rewrite Z.quot_opp_l by lia. rewrite Z.quot_div_nonneg by lia. reflexivity. }
    assert (R : Z.rem b k = - ((- b) mod k)).
    { rewrite <- (Z.opp_involutive b) at 1. rewrite Z.rem_opp_l by lia. rewrite Z.rem_mod_nonneg by lia. reflexivity. }
    rewrite Q, R. rewrite arith_ok by (unfold i64_min, i64_max in *; lia). cbn [bind].
    pose proof (Z.div_mod (- b) k ltac:(lia)). pose proof (Z.mod_pos_bound (- b) k ltac:(lia)).
    pose proof (Z.div_mod b k ltac:(lia)). pose proof (Z.mod_pos_bound b k ltac:(lia)).
    replace (b <? 0) with true by lia. replace (0 <=? b) with false by lia. cbn [orb].
    split; [reflexivity|]. split; [lia|]. split; [lia|]. split; [lia|]. split.
    + intro W. apply Z.eqb_eq in W. assert (b = - (- b / k) * k - (- b) mod k) by lia.
      assert (b / k = - ((- b) / k)) by nia. nia.
    + intro W. apply Z.eqb_neq in W. destruct (Z.eq_dec ((- b) mod k) 0) as [Q1|Q1]; [|lia]. exfalso. apply W.
      rewrite <- (Z.opp_involutive b). apply Z.mod_opp_l_z; lia.
  - exists n, b. rewrite fix_carry_small by (unfold i64_min, i64_max in *; lia).
    rewrite Z.div_small, Z.mod_small by lia. replace (b <? 0) with false by lia. replace (0 <=? b) with true by lia.
    split; [reflexivity|]. split; [lia|]. split; [lia|]. split; [lia|]. split; [lia|discriminate].
Qed.

Lemma finish_wide : forall y mo d h mi s, min_year <= y <= max_year -> 1 <= mo <= 12 -> d <= month_length y mo ->
  -60 < s < 60 -> -60 < mi < 60 -> -24 < h < 24 ->
  let res := do f <- (do (d', mo') <- month_loop md y d mo; do (y', mo'') <- year_loop md y mo'; Ok (y', mo'', d', h, mi, s)); build_moment f in
  (0 <= s -> 0 <= mi -> 0 <= h -> res = built y mo (low32 d) (h * 3600 + mi * 60 + s)) /\
  (s < 0 \/ mi < 0 \/ h < 0 -> oob res).
Proof.
  intros y mo d h mi s Hy Hmo Hd Hs Hmi Hh res. subst res.
  assert (W : wrap32 y = y) by (apply wrap32_id; unfold min_year, max_year in *; lia).
  pose proof (gndm_wrap y mo Hmo) as G. rewrite W in G.
  rewrite month_loop_stop by lia. cbn [bind]. rewrite year_loop_small by lia. cbn [bind]. split.
  - intros S0 M0 H0. rewrite build_low by lia. replace (low32 mo) with mo; [reflexivity|]. unfold low32. rewrite Z.mod_small by lia. reflexivity.
  - intros C. apply build_neg; lia.
Qed.

(** All fields but one are those of a time; that one may be any negative number. *)
Lemma chain_wide : forall y mo d h mi s, min_year <= y <= max_year -> 1 <= mo <= 12 -> i64_min <= d <= month_length y mo ->
  i64_min <= s < 60 -> i64_min <= mi < 60 -> i64_min <= h < 24 ->
  (s < 0 -> 0 <= mi) -> (s < 0 \/ mi < 0 -> 0 <= h) -> (s < 0 \/ mi < 0 \/ h < 0 -> 0 <= d) ->
  let mi1 := mi + s / 60 in
  let h1 := h + mi1 / 60 in
  let d1 := d + h1 / 24 in
  let ok := whole s 60 && whole mi1 60 && whole h1 24 in
  let r := do f <- adjust_times_add md y mo d h mi s; build_moment f in
  (ok = true -> r = built y mo (low32 d1) (h1 mod 24 * 3600 + mi1 mod 60 * 60 + s mod 60)) /\
  (ok = false -> oob r).
Proof.
  intros y mo d h mi s Hy Hmo Hd Hs Hmi Hh B1 B2 B3 mi1 h1 d1 ok r. subst r ok. unfold adjust_times_add.
  pose proof (month_length_bounds y mo Hmo) as ML.
  destruct (carry_wide s 60 mi ltac:(lia) ltac:(lia) ltac:(lia) B1) as (a & s' & -> & R1 & L1 & G1 & W1 & X1). cbn [bind].
  assert (Ha : i64_min <= a) by (clear - G1 B1 Hs Hmi; destruct (Z.ltb_spec s 0); lia).
  destruct (carry_wide a 60 h ltac:(lia) ltac:(lia) ltac:(lia)) as (b & mi' & -> & R2 & L2 & G2 & W2 & X2).
  { clear - G1 B1 B2 L1. intro A0. apply B2. destruct (Z.ltb_spec s 0); lia. }
  cbn [bind].
  assert (Hb : i64_min <= b).
  { clear - G1 G2 B1 B2 Hh Ha. destruct (Z.ltb_spec a 0); [|lia]. destruct (Z.ltb_spec s 0); lia. }
  destruct (carry_wide b 24 d ltac:(lia) ltac:(lia) ltac:(lia)) as (c & h' & -> & R3 & L3 & G3 & W3 & X3).
  { clear - G1 G2 B1 B2 B3 L1 L2. intro A0. apply B3. destruct (Z.ltb_spec s 0), (Z.ltb_spec a 0); lia. }
  cbn [bind].
  destruct (finish_wide y mo c h' mi' s' Hy Hmo ltac:(lia) R1 R2 R3) as [F1 F2].
  destruct (whole s 60) eqn:E1; [|split; [discriminate|]; intros _; apply F2; left; apply X1; reflexivity].
  destruct (W1 eq_refl) as [-> ->]. fold mi1 in F1, F2, W2, X2, R2 |- *. cbn [andb].
  destruct (whole mi1 60) eqn:E2; [|split; [discriminate|]; intros _; apply F2; right; left; apply X2; reflexivity].
  destruct (W2 eq_refl) as [-> ->]. fold h1 in F1, F2, W3, X3, R3 |- *. cbn [andb].
  destruct (whole h1 24) eqn:E3; [|split; [discriminate|]; intros _; apply F2; right; right; apply X3; reflexivity].
  destruct (W3 eq_refl) as [-> ->]. fold d1 in F1, F2 |- *. split; [|discriminate].
  intros _. apply F1; apply Z.mod_pos_bound; lia.
Qed.

Lemma add_negative_wide : forall m u n, dt_valid m = true -> clock_unit u = true -> i64_min <= n < 0 ->
  let T := sod m + n * unit_secs u in
  let D := day m + T / 86400 in
  let r := calculate md (Addition (Moment m) (mk u n)) in
  (no_borrow u m T = true -> r = built (year m) (month m) (low32 D) (T mod 86400)) /\
  (no_borrow u m T = false -> oob r).
Proof.
  intros m u n Hm Hu Hn T D r. subst r. destruct (valid_facts m Hm) as (Vy & Vmo & Vd & Vml & Vh & Vmi & Vs).
  rewrite calc_add_mk by (assumption || apply in_i64_iff; unfold i64_min, i64_max in *; lia).
  assert (Hsod : sod m = hour m * 3600 + minute m * 60 + second m) by reflexivity.
  assert (A : forall d h mi s, T = (d - day m) * 86400 + h * 3600 + mi * 60 + s -> 
     i64_min <= d <= month_length (year m) (month m) -> i64_min <= s < 60 -> i64_min <= mi < 60 -> i64_min <= h < 24 ->
     (s < 0 -> 0 <= mi) -> (s < 0 \/ mi < 0 -> 0 <= h) -> (s < 0 \/ mi < 0 \/ h < 0 -> 0 <= d) ->
     no_borrow u m T = whole s 60 && whole (mi + s / 60) 60 && whole (h + (mi + s / 60) / 60) 24 ->
     let r := do f <- adjust_times_add md (year m) (month m) d h mi s; build_moment f in
     (no_borrow u m T = true -> r = built (year m) (month m) (low32 D) (T mod 86400)) /\
     (no_borrow u m T = false -> oob r)).
  { intros d h mi s HT B1 B2 B3 B4 B5 B6 B7 NB r. subst r. rewrite NB.
    pose proof (chain_wide (year m) (month m) d h mi s Vy Vmo B1 B2 B3 B4 B5 B6 B7) as C. cbv zeta in C.
    set (mi1 := mi + s / 60) in *. set (h1 := h + mi1 / 60) in *.
    assert (E1 : T = ((d - day m) * 24 + h1) * 3600 + (mi1 mod 60) * 60 + s mod 60) by lia.
    assert (E2 : D = d + h1 / 24) by (unfold D; rewrite E1; clear - mi1 h1; lia).
    assert (E3 : T mod 86400 = (h1 mod 24) * 3600 + (mi1 mod 60) * 60 + s mod 60) by (rewrite E1; clear - mi1 h1; lia).
    rewrite E2, E3. exact C. }
  assert (Hday : day m <= month_length (year m) (month m)) by lia.
  unfold i64_min, i64_max in *.
  destruct u; try discriminate Hu; cbn [mk add_to_moment unit_secs] in *; unfold addc; cbn [bind];
    (rewrite arith_ok by (unfold i64_min, i64_max; lia)); cbn [bind]; apply A; clear A; try lia; try iflia; unfold no_borrow, whole; cbv zeta.
  - assert (ET : T = hour m * 3600 + minute m * 60 + (second m + n)) by lia. rewrite ET, Hsod. apply nb_sec; lia.
  - assert (ET : T = hour m * 3600 + (minute m + n) * 60 + second m) by lia. rewrite ET, Hsod.
    replace (second m / 60) with 0 by lia. rewrite Z.add_0_r.
    replace (0 <=? second m) with true by lia. cbn [orb andb]. apply nb_min; lia.
  - set (x := hour m + n) in *. assert (ET : T = x * 3600 + minute m * 60 + second m) by lia. rewrite ET.
    replace (second m / 60) with 0 by lia. rewrite Z.add_0_r. replace (minute m / 60) with 0 by lia. rewrite Z.add_0_r.
    replace (0 <=? second m) with true by lia. replace (0 <=? minute m) with true by lia. cbn [orb andb].
    f_equal; lia.
  - replace (second m / 60) with 0 by lia. rewrite Z.add_0_r. replace (minute m / 60) with 0 by lia. rewrite Z.add_0_r.
    replace (0 <=? second m) with true by lia. replace (0 <=? minute m) with true by lia. replace (0 <=? hour m) with true by lia. reflexivity.
Qed.

(** Whether the month that a day of 31 leaves exists does not matter below January. *)
Lemma add_months_wide : forall m n, dt_valid m = true -> i64_min <= n -> month m + n <= 0 ->
  let M := month m + n in
  calculate md (Addition (Moment m) (Months n)) =
  if day m <=? 30 then built (year m) (low32 M) (day m) (sod m) else built (year m) (low32 (M + 1)) 1 (sod m).
Proof.
  intros m n Hm Hn HM M. destruct (valid_facts m Hm) as (Vy & Vmo & Vd & Vml & Vh & Vmi & Vs).
  change (Months n) with (mk UMonth n).
  rewrite calc_add_mk by (assumption || apply in_i64_iff; unfold i64_min, i64_max in *; lia).
  cbn [mk add_to_moment]. unfold addc. cbn [bind].
  rewrite arith_ok by (unfold i64_min, i64_max in *; lia). cbn [bind].
  rewrite adjust_add_date by lia. fold M. rewrite !bind_bind.
  assert (G' : get_num_of_days_in_month (year m) M = 30) by (apply gndm_else; lia).
  assert (Ls : forall d, 0 <= d < 4294967296 -> low32 d = d) by (intros d Hd; unfold low32; apply Z.mod_small; exact Hd).
  destruct (Z.leb_spec (day m) 30) as [Hd|Hd].
  - rewrite month_loop_stop by lia. cbn [bind]. rewrite year_loop_small by lia. cbn [bind]. rewrite build_low by assumption. rewrite (Ls (day m)) by lia. reflexivity.
  - rewrite month_loop_once by (unfold i64_min, i64_max in *; lia). cbn [bind]. rewrite year_loop_small by lia. cbn [bind].
    rewrite G'. replace (day m - 30) with 1 by lia. rewrite build_low by assumption. rewrite (Ls 1) by lia. reflexivity.
Qed.

(** ** Subtracting negative amounts *)
Lemma sub_negative_wide : forall m u n, dt_valid m = true -> u <> UYear -> i64_min <= n < 0 -> field u m - n <= i64_max ->
  let x := low32 (field u m - n) in
  let r := calculate md (Subtraction (Moment m) (mk u n)) in
  match u with
  | UDay => r = built (year m) (month m) x (sod m)
  | UMonth => r = built (year m) x (day m) (sod m)
  | _ => (x < modulus u -> r = built (year m) (month m) (day m) (sod m + (x - field u m) * unit_secs u)) /\ (modulus u <= x -> oob r)
  end.
Proof.
  intros m u n Hm Hu Hn Hx x r. subst r. destruct (valid_facts m Hm) as (Vy & Vmo & Vd & Vml & Vh & Vmi & Vs).
  rewrite calc_sub_mk by (assumption || apply in_i64_iff; unfold i64_min, i64_max in *; lia).
  assert (Hsod : sod m = hour m * 3600 + minute m * 60 + second m) by reflexivity.
  assert (Ls : forall d, 0 <= d < 4294967296 -> low32 d = d) by (intros d Hd; unfold low32; apply Z.mod_small; exact Hd).
  assert (Bad : forall y mo d h mi s, 24 <= as_u32 h \/ 60 <= as_u32 mi \/ 60 <= as_u32 s -> oob (build_moment (y, mo, d, h, mi, s))).
  { intros y mo d h mi s C. destruct (build_cases y mo d h mi s) as [(_ & C1 & C2 & C3 & _)|[-> _]]; [lia|repeat eexists]. }
  assert (Lw : forall y mo d h mi s, build_moment (y, mo, d, h, mi, s) = build_moment (y, mo, d, low32 h, low32 mi, low32 s)).
  { intros. unfold build_moment, low32, as_u32. rewrite !(Z.mod_mod _ 4294967296) by discriminate. reflexivity. }
  assert (Hx0 : 0 <= x) by (subst x; unfold low32; apply Z.mod_pos_bound; lia).
  destruct u; try (elim Hu; reflexivity); cbn [mk sub_from_moment unit_secs modulus field] in *; unfold subc; cbn [bind];
    (rewrite arith_ok by (unfold i64_min, i64_max in *; lia)); cbn [bind]; rewrite adjust_sub_id by lia; cbn [bind].
  - split; intro C; [|apply Bad; right; right; exact C]. rewrite Lw. rewrite build_low by (rewrite ?Ls by lia; try lia; fold x; lia).
    rewrite (Ls (month m)), (Ls (day m)), (Ls (hour m)), (Ls (minute m)) by lia. fold x. f_equal. lia.
  - split; intro C; [|apply Bad; right; left; exact C]. rewrite Lw. rewrite build_low by (rewrite ?Ls by lia; try lia; fold x; lia).
    rewrite (Ls (month m)), (Ls (day m)), (Ls (hour m)), (Ls (second m)) by lia. fold x. f_equal. lia.
  - split; intro C; [|apply Bad; left; exact C]. rewrite Lw. rewrite build_low by (rewrite ?Ls by lia; try lia; fold x; lia).
    rewrite (Ls (month m)), (Ls (day m)), (Ls (minute m)), (Ls (second m)) by lia. fold x. f_equal. lia.
  - rewrite build_low by assumption. rewrite (Ls (month m)) by lia. reflexivity.
  - rewrite build_low by assumption. rewrite (Ls (day m)) by lia. reflexivity.
Qed.
End Wide.
