(** Exactly when subtracting an amount undoes adding it. *)
Require Import ZArith Bool List Lia ZifyBool.
From Verif Require Import Prelude Spec Chrono Util TimeType SpecTree SpecMoment SpecExact PreludeProofs EvalProofs AmountProofs ShapeProofs CompProofs CalendarProofs
  AddProofs AddProofs2 SubProofs SubProofs2 EndProofs.
Local Open Scope Z_scope.
Local Ltac Zify.zify_post_hook ::= Z.to_euclidean_division_equations.

Section Undo.
Variable md : mode.

(** Both operations have to succeed. *)
Lemma round_inv : forall m u n v, dt_valid m = true -> in_i64 n = true ->
  calculate md (Subtraction (Addition (Moment m) (mk u n)) (mk u n)) = Ok v ->
  exists m1, calculate md (Addition (Moment m) (mk u n)) = Ok (Moment m1) /\ dt_valid m1 = true /\ calculate md (Subtraction (Moment m1) (mk u n)) = Ok v.
Proof.
  intros m u n v Hm Hn E.
  assert (Ht : tt_ok (Addition (Moment m) (mk u n)) = true) by (cbn [tt_ok]; rewrite ok_mk, Hm, Hn; reflexivity).
  pose proof (calculate_shape md (Addition (Moment m) (mk u n))) as K. pose proof (calculate_good md _ Ht) as G.
  destruct (calc_sub_comp md (Addition (Moment m) (mk u n)) (mk u n) Ht) as (_ & C).
  - rewrite ok_mk. exact Hn.
  - cbn [shape_of]. rewrite shape_mk. cbn. discriminate.
  - destruct C as [C _]. rewrite E in C. destruct (calculate md (Addition (Moment m) (mk u n))) as [w| | |] eqn:Ea; try (discriminate (C eq_refl)).
    cbn [shape_of] in K. rewrite shape_mk in K. cbn in K.
    destruct w; try discriminate K; try (exfalso; exact K).
    eexists. split; [reflexivity|]. split; [apply G|]. rewrite <- E. symmetry. apply round_comp; assumption.
Qed.
Lemma built_whole : forall m y mo d r, dt_valid m = true -> 0 <= r < 86400 ->
  (built y mo d r = Ok (Moment (whole_second m)) <-> (y, mo, d) = (year m, month m, day m) /\ r = sod m).
Proof.
  intros m y mo d r Hm Hr. destruct (valid_facts m Hm) as (_ & _ & _ & _ & Vh & Vmi & Vs). unfold built. split.
  - intro E. destruct (representable y mo d); [|discriminate]. unfold at_time, whole_second in E. injection E as E1 E2 E3 E4 E5 E6. unfold sod. split; [congruence|lia].
  - intros [E ->]. apply triple_eq in E as (-> & -> & ->). rewrite valid_rep by exact Hm. rewrite whole_at by exact Hm. reflexivity.
Qed.

(** The date [c] days after [m], as the code counts. *)
Definition reached (c : Z) (m : datetime) (Y Mo D : Z) : Prop :=
  let K := days_before (year m) (month m) + day m + c in
  (Y = year m /\ date_exists Y Mo D = true /\ days_before Y Mo + D = K) \/
  (exists e, e = K - year_length (year m) - 1 /\ 0 <= e /\ Y = year m + 1 + e / 360 /\ Mo = e mod 360 / 30 + 1 /\ D = e mod 30 + 1).
Definition next_length (m : datetime) : Z := if month m =? 12 then 30 else month_length (year m) (month m + 1).
Lemma back_iff : forall c m Y Mo D, dt_valid m = true -> 0 <= c -> reached c m Y Mo D ->
  (back_day Y Mo (D - c) = (year m, month m, day m) <->
   day m + c <= month_length (year m) (month m) \/ (month_length (year m) (month m) = 31 /\ day m + c <= 31 + next_length m)).
Proof.
  intros c m Y Mo D Hm Hc R. destruct (valid_facts m Hm) as (Vy & Vmo & Vd & Vml & _). unfold next_length.
  pose proof (days_before_succ (year m) (month m) Vmo) as S1. pose proof (month_length_bounds (year m) (month m) Vmo) as L1.
  set (len := month_length (year m) (month m)) in *.
  destruct R as [(-> & Ex & Eq)|(e & Ee & He & -> & -> & ->)].
  - apply date_exists_iff in Ex as [Mb Db]. pose proof (days_before_succ (year m) Mo Mb) as S2.
    destruct (Z_lt_ge_dec Mo (month m)) as [L|G].
    { pose proof (days_before_mono (year m) (Mo + 1) (month m) ltac:(lia) ltac:(lia) ltac:(lia)). lia. }
    destruct (Z.eq_dec Mo (month m)) as [->|Ne].
    { fold len in Db. assert (D = day m + c) by lia. subst D. unfold back_day. replace (day m + c - c) with (day m) by ring. replace (1 <=? day m) with true by lia.
      split; [intros _; left; lia|reflexivity]. }
    replace (month m =? 12) with false by lia.
    destruct (Z.eq_dec Mo (month m + 1)) as [->|Ne2].
    { assert (D = day m + c - len) by lia. unfold back_day. replace (1 <=? D - c) with false by lia. unfold prev_month. replace (month m + 1 =? 1) with false by lia.
      replace (month m + 1 - 1) with (month m) by ring. split.
      - intro E. apply triple_eq in E as (_ & _ & E). right. lia.
      - intros [C|[C1 C2]]; [lia|]. f_equal. lia. }
    pose proof (days_before_succ (year m) (month m + 1) ltac:(lia)) as S3. pose proof (month_length_bounds (year m) (month m + 1) ltac:(lia)) as L2.
    pose proof (days_before_mono (year m) (month m + 1 + 1) Mo ltac:(lia) ltac:(lia) ltac:(lia)) as M3.
    split; [|lia]. intro E. unfold back_day in E. replace (1 <=? D - c) with false in E by lia. unfold prev_month in E. replace (Mo =? 1) with false in E by lia.
    apply triple_eq in E as (_ & E & _). lia.
  - pose proof (days_before_13 (year m)) as Y13.
    split.
    + intro E. unfold back_day in E. destruct (1 <=? e mod 30 + 1 - c); [apply triple_eq in E as (E & _ & _); lia|].
      unfold prev_month in E. destruct (Z.eqb_spec (e mod 360 / 30 + 1) 1) as [E1|E1]; apply triple_eq in E as (E2 & E3 & E4); [|lia].
      assert (M12 : month m = 12) by lia. rewrite M12 in *. change (12 + 1) with 13 in S1. rewrite Y13 in S1. right. change (len = 31 /\ day m + c <= 31 + 30).
      subst len. rewrite M12 in *. change (month_length (year m) 12) with 31 in *. lia.
    + intros C. destruct (Z.eqb_spec (month m) 12) as [M12|N12].
      * rewrite M12 in *. change (12 + 1) with 13 in S1. rewrite Y13 in S1. change (month_length (year m) 12) with 31 in *. subst len.
        assert (e = day m + c - 32) by lia. assert (0 <= e < 30) by lia.
        unfold back_day. replace (e mod 30) with e by lia. replace (1 <=? e + 1 - c) with false by lia. replace (e mod 360 / 30 + 1) with 1 by lia.
        unfold prev_month. cbn [Z.eqb Pos.eqb]. replace (e / 360) with 0 by lia. f_equal; [f_equal; lia|lia].
      * exfalso. pose proof (days_before_succ (year m) (month m + 1) ltac:(lia)) as S3.
        pose proof (days_before_mono (year m) (month m + 1 + 1) 13 ltac:(lia) ltac:(lia) ltac:(lia)) as M3. pose proof (month_length_bounds (year m) (month m + 1) ltac:(lia)). lia.
Qed.
Lemma reached_again : forall c m Y Mo D, dt_valid m = true -> 0 <= c -> reached c m Y Mo D ->
  (representable Y Mo D = true /\ back_day Y Mo (D - c) = (year m, month m, day m) <-> back_again c m).
Proof.
  intros c m Y Mo D Hm Hc R. rewrite (back_iff c m Y Mo D Hm Hc R). destruct (valid_facts m Hm) as (Vy & Vmo & Vd & Vml & _). unfold back_again, next_length.
  pose proof (days_before_succ (year m) (month m) Vmo) as S1. pose proof (days_before_13 (year m)) as Y13.
  destruct R as [(-> & Ex & Eq)|(e & Ee & He & -> & -> & ->)].
  - assert (Rp : representable (year m) Mo D = true) by (apply representable_iff; auto). rewrite Rp.
    apply date_exists_iff in Ex as [Mb Db]. pose proof (days_before_succ (year m) Mo Mb) as S2. pose proof (days_before_mono (year m) (Mo + 1) 13 ltac:(lia) ltac:(lia) ltac:(lia)) as M2.
    split.
    + intros [_ [C|[C1 C2]]]; [left; exact C|]. destruct (Z_le_gt_dec (day m + c) (month_length (year m) (month m))) as [L|G]; [left; exact L|].
      right. split; [exact C1|]. split; [exact C2|]. intro M12. rewrite M12 in *. change (12 + 1) with 13 in S1. lia.
    + tauto.
  - assert (Big : month_length (year m) (month m) < day m + c).
    { pose proof (days_before_mono (year m) (month m + 1) 13 ltac:(lia) ltac:(lia) ltac:(lia)). lia. }
    assert (Only : month_length (year m) (month m) = 31 /\ day m + c <= 31 + (if month m =? 12 then 30 else month_length (year m) (month m + 1)) -> month m = 12 /\ e < 30).
    { intros [C1 C2]. destruct (Z.eqb_spec (month m) 12) as [M12|N12].
      - split; [exact M12|]. rewrite M12 in *. change (12 + 1) with 13 in S1. lia.
      - exfalso. pose proof (days_before_succ (year m) (month m + 1) ltac:(lia)) as S3. pose proof (days_before_mono (year m) (month m + 1 + 1) 13 ltac:(lia) ltac:(lia) ltac:(lia)). lia. }
    split.
    + intros [Rp [C|C]]; [lia|]. right. destruct (Only C) as [M12 E30]. destruct C as [C1 C2]. split; [exact C1|]. split; [exact C2|]. intros _.
      apply representable_iff in Rp as [Rp _]. lia.
    + intros [C|(C1 & C2 & C3)]; [lia|]. destruct (Only (conj C1 C2)) as [M12 E30]. split; [|right; auto].
      specialize (C3 M12). apply representable_iff. replace (e / 360) with 0 by lia. replace (e mod 360 / 30) with 0 by lia. split; [lia|].
      apply date_exists_iff. change (month_length (year m + 1 + 0) (0 + 1)) with 31. lia.
Qed.
Lemma add_reached : forall m u n, dt_valid m = true -> clock_unit u = true -> 0 <= n < 2147483648 ->
  let T := sod m + n * unit_secs u in
  exists Y Mo D, reached (T / 86400) m Y Mo D /\ calculate md (Addition (Moment m) (mk u n)) = built Y Mo D (T mod 86400).
Proof.
  intros m u n Hm Hu Hn T. pose proof (field_bnd m u Hm) as Fb. pose proof (clock_unit_secs u Hu) as Us. pose proof (sod_range m Hm) as Sr.
  destruct (valid_facts m Hm) as (Vy & Vmo & Vd & Vml & _). pose proof (doy_bounds _ _ _ (valid_date m Hm)) as Dy. pose proof (year_length_bounds (year m)) as Yb.
  destruct (add_clock md m u n Hm Hu ltac:(lia) ltac:(unfold max_year, i64_max in *; lia)) as [A B]. cbv zeta in A, B. fold T in A, B.
  assert (Tb : 0 <= T / 86400 <= 2147483649).
  { split; [apply Z.div_pos; subst T; nia|]. apply Z.lt_succ_r. apply Z.div_lt_upper_bound; subst T; nia. }
  destruct (Z_le_gt_dec (days_before (year m) (month m) + day m + T / 86400) (year_length (year m))) as [L|G].
  - destruct (A L) as (mo' & d' & Ex & Eq & ->). exists (year m), mo', d'. split; [left; auto|].
    unfold built. replace (representable (year m) mo' d') with true; [reflexivity|]. symmetry. apply representable_iff. auto.
  - rewrite (B ltac:(lia)). set (e := days_before (year m) (month m) + day m + T / 86400 - year_length (year m) - 1) in *.
    exists (year m + 1 + e / 360), (e mod 360 / 30 + 1), (e mod 30 + 1). split; [right; exists e; repeat split; lia|].
    rewrite wrap32_id; [reflexivity|]. unfold min_year, max_year in *. assert (0 <= e <= 2147484100) by lia. clearbody e. lia.
Qed.
Lemma sod_at : forall Y Mo D r, 0 <= r < 86400 -> sod (at_time Y Mo D r) = r.
Proof. intros Y Mo D r H. unfold sod, at_time. cbn. lia. Qed.
Lemma undo_days : forall m n, dt_valid m = true -> 0 <= n < 2147483648 ->
  (calculate md (Subtraction (Addition (Moment m) (Days n)) (Days n)) = Ok (Moment (whole_second m)) <-> back_again n m).
Proof.
  intros m n Hm Hn. assert (Hi : in_i64 n = true) by (apply in_i64_iff; unfold i64_min, i64_max; lia). pose proof (sod_range m Hm) as Sr.
  destruct (valid_facts m Hm) as (Vy & Vmo & Vd & Vml & _).
  destruct (add_reached m UDay n Hm eq_refl Hn) as (Y & Mo & D & R & E). cbn [unit_secs] in R, E.
  replace ((sod m + n * 86400) / 86400) with n in R by lia. replace ((sod m + n * 86400) mod 86400) with (sod m) in E by lia.
  rewrite <- (reached_again n m Y Mo D Hm ltac:(lia) R). change (Days n) with (mk UDay n).
  assert (S : representable Y Mo D = true -> (calculate md (Subtraction (Moment (at_time Y Mo D (sod m))) (mk UDay n)) = Ok (Moment (whole_second m)) <->
     back_day Y Mo (D - n) = (year m, month m, day m))).
  { intro Rp. pose proof (at_valid Y Mo D (sod m) Sr Rp) as V1. destruct (sub_days md _ n V1 Hn) as [S1 S2]. cbv zeta in S1, S2.
    rewrite sod_at in S1 by exact Sr. change (day (at_time Y Mo D (sod m))) with D in *. change (year (at_time Y Mo D (sod m))) with Y in *. change (month (at_time Y Mo D (sod m))) with Mo in *.
    destruct (Z_le_gt_dec (-30) (D - n)) as [L|G].
    - cbn [mk]. rewrite (S1 L). destruct (back_day Y Mo (D - n)) as [[y mo] d]. unfold built3. rewrite built_whole by assumption. tauto.
    - split; intro C.
      + exfalso. exact (oob_err _ (S2 ltac:(lia)) _ C).
      + unfold back_day in C. replace (1 <=? D - n) with false in C by lia. destruct (prev_month Y Mo). apply triple_eq in C as (_ & _ & C). lia. }
  split.
  - intro C. destruct (round_inv m UDay n _ Hm Hi C) as (m1 & E1 & _ & E2). rewrite E in E1. apply built_ok in E1 as [Rp [= ->]]. split; [exact Rp|]. apply S; assumption.
  - intros [Rp C]. assert (E1 : calculate md (Addition (Moment m) (mk UDay n)) = Ok (Moment (at_time Y Mo D (sod m)))) by (rewrite E; unfold built; rewrite Rp; reflexivity).
    rewrite (round_comp md m UDay n _ Hm Hi E1). apply S; assumption.
Qed.
Lemma field_carry : forall m u n Y Mo D, dt_valid m = true -> clock_unit u = true -> u <> UDay -> 0 <= n ->
  field u (at_time Y Mo D ((sod m + n * unit_secs u) mod 86400)) = (field u m + n) mod modulus u.
Proof.
  intros m u n Y Mo D Hm Hu Hd Hn. destruct (valid_facts m Hm) as (_ & _ & _ & _ & Vh & Vmi & Vs). unfold sod, at_time.
  destruct u; try discriminate Hu; try contradiction; cbn [field second minute hour modulus unit_secs].
  - rewrite <- Znumtheory.Zmod_div_mod by (try lia; exists 1440; reflexivity).
    replace (hour m * 3600 + minute m * 60 + second m + n * 1) with (second m + n + (hour m * 60 + minute m) * 60) by ring. apply Z.mod_add. discriminate.
  - rewrite <- Znumtheory.Zmod_div_mod by (try lia; exists 24; reflexivity).
    replace (hour m * 3600 + minute m * 60 + second m + n * 60) with (second m + (minute m + n) * 60 + hour m * 3600) by ring. rewrite Z.mod_add by discriminate.
    clear - Vs Vmi Hn. remember (minute m + n) as q. lia.
  - replace (hour m * 3600 + minute m * 60 + second m + n * 3600) with (minute m * 60 + second m + (hour m + n) * 3600) by ring.
    clear - Vs Vmi Vh Hn. remember (hour m + n) as q. remember (minute m * 60 + second m) as z. assert (0 <= z < 3600) by lia. clear - H. lia.
Qed.
Lemma undo_clock : forall m u n, dt_valid m = true -> clock_unit u = true -> u <> UDay -> 0 <= n < 2147483648 ->
  (calculate md (Subtraction (Addition (Moment m) (mk u n)) (mk u n)) = Ok (Moment (whole_second m)) <->
   ((field u m + n < modulus u \/ (field u m + n < 2 * modulus u /\ 0 < field u m)) /\ back_again ((sod m + n * unit_secs u) / 86400) m) \/
   (u = UHour /\ hour m = 0 /\ 24 <= n < 48 /\ day m = 30 /\ month_length (year m) (month m) = 30)).
Proof.
  intros m u n Hm Hu Hd Hn. assert (Hi : in_i64 n = true) by (apply in_i64_iff; unfold i64_min, i64_max; lia). pose proof (sod_range m Hm) as Sr.
  destruct (valid_facts m Hm) as (Vy & Vmo & Vd & Vml & Vh & Vmi & Vs). pose proof (clock_unit_secs u Hu) as Us.
  destruct (add_reached m u n Hm Hu Hn) as (Y & Mo & D & R & E). set (T := sod m + n * unit_secs u) in *.
  assert (Tc : 0 <= T / 86400) by (apply Z.div_pos; subst T; nia). pose proof (Z.mod_pos_bound T 86400 ltac:(lia)) as Tr. pose proof (Z.div_mod T 86400 ltac:(lia)) as Td.
  pose proof (reached_again _ m Y Mo D Hm Tc R) as Ra. pose proof (back_iff _ m Y Mo D Hm Tc R) as Bi.
  assert (Mp : 24 <= modulus u <= 60 /\ 0 <= field u m < modulus u) by (destruct u; try discriminate Hu; try contradiction; cbn; lia).
  assert (Mu : modulus u * unit_secs u = match u with UHour => 86400 | UMin => 3600 | _ => 60 end) by (destruct u; try discriminate Hu; try contradiction; reflexivity).
  assert (Fc : field u (at_time Y Mo D (T mod 86400)) = (field u m + n) mod modulus u) by (apply field_carry; try assumption; lia).
  set (q := (field u m + n) / modulus u). assert (Eq : field u (at_time Y Mo D (T mod 86400)) - n = field u m - modulus u * q).
  { rewrite Fc. pose proof (Z.div_mod (field u m + n) (modulus u) ltac:(lia)). subst q. lia. }
  assert (Hq : 0 <= q) by (apply Z.div_pos; lia).
  assert (Q0 : field u m + n < modulus u <-> q = 0).
  { subst q. split; intro C; [apply Z.div_small; lia|]. pose proof (Z.div_mod (field u m + n) (modulus u) ltac:(lia)). pose proof (Z.mod_pos_bound (field u m + n) (modulus u) ltac:(lia)). nia. }
  assert (Q1 : field u m + n < 2 * modulus u <-> q <= 1).
  { subst q. pose proof (Z.div_mod (field u m + n) (modulus u) ltac:(lia)). pose proof (Z.mod_pos_bound (field u m + n) (modulus u) ltac:(lia)). split; intro C; nia. }
  assert (St : representable Y Mo D = true -> (calculate md (Subtraction (Moment (at_time Y Mo D (T mod 86400))) (mk u n)) = Ok (Moment (whole_second m)) <->
     ((field u m + n < modulus u \/ (field u m + n < 2 * modulus u /\ 0 < field u m)) /\ back_day Y Mo (D - T / 86400) = (year m, month m, day m)) \/
     (u = UHour /\ hour m = 0 /\ q = 1 /\ back_day Y Mo (D - T / 86400 - 1) = (year m, month m, day m)))).
  { intro Rp. pose proof (at_valid Y Mo D _ Tr Rp) as V1. destruct (sub_clock md _ u n V1 Hu Hd Hn) as (S1 & S2 & S3). cbv zeta in S1, S2, S3.
    rewrite sod_at in S1, S2 by exact Tr. rewrite Eq in S1, S2, S3.
    change (day (at_time Y Mo D (T mod 86400))) with D in *. change (year (at_time Y Mo D (T mod 86400))) with Y in *. change (month (at_time Y Mo D (T mod 86400))) with Mo in *.
    assert (T1 : T mod 86400 - n * unit_secs u = sod m + (- (T / 86400)) * 86400) by (subst T; lia).
    assert (T1d : (T mod 86400 - n * unit_secs u) / 86400 = - (T / 86400)) by (rewrite T1, Z.div_add, Z.div_small by lia; lia).
    assert (T1m : (T mod 86400 - n * unit_secs u) mod 86400 = sod m) by (rewrite T1, Z.mod_add, Z.mod_small by lia; lia).
    destruct (Z_lt_le_dec (- modulus u) (field u m - modulus u * q)) as [L|G].
    - rewrite (S1 L). rewrite T1d, T1m. replace (D + - (T / 86400)) with (D - T / 86400) by ring.
      assert (C1 : q = 0 \/ (q = 1 /\ 0 < field u m)) by nia.
      destruct (back_day Y Mo (D - T / 86400)) as [[y mo] d]. unfold built3. rewrite built_whole by assumption. split.
      + intros [C _]. left. split; [|exact C]. rewrite Q0, Q1. lia.
      + intros [[_ C]|(-> & C & C3 & _)]; [tauto|]. cbn [field] in C1. lia.
    - destruct (Z.eq_dec (field u m - modulus u * q) (- modulus u)) as [Ee|Ne].
      + assert (C1 : q = 1 /\ field u m = 0) by nia. destruct C1 as [C1 C2]. rewrite (S2 Ee).
        assert (Hc : u = UHour \/ (u <> UHour /\ (T mod 86400 - n * unit_secs u - modulus u * unit_secs u) mod 86400 <> sod m)).
        { destruct u; try discriminate Hu; try contradiction; [right|right|left; reflexivity]; (split; [discriminate|]); rewrite T1, Mu; clear - Sr; lia. }
        destruct Hc as [->|[Nh Nm]].
        * rewrite Mu. replace (T mod 86400 - n * unit_secs UHour - 86400) with (sod m + (- (T / 86400) - 1) * 86400) by lia.
          rewrite Z.div_add, Z.div_small, Z.mod_add, Z.mod_small by lia. replace (D + (0 + (- (T / 86400) - 1))) with (D - T / 86400 - 1) by ring.
          destruct (back_day Y Mo (D - T / 86400 - 1)) as [[y mo] d]. unfold built3. rewrite built_whole by assumption. cbn [field] in C2. split.
          -- intros [C _]. right. auto.
          -- intros [[C _]|(_ & _ & _ & C)]; [rewrite Q0 in C; cbn [field] in C; lia|auto].
        * set (B := back_day Y Mo _). destruct B as [[y mo] d]. unfold built3.
          rewrite built_whole by (assumption || apply Z.mod_pos_bound; lia). split; [intros [_ C]; contradiction|].
          intros [[C _]|(C & _)]; [rewrite Q0 in C; lia|contradiction].
      + split; intro C.
        * exfalso. exact (oob_err _ (S3 ltac:(lia)) _ C).
        * exfalso. destruct C as [[C _]|(-> & C & C3 & _)]; [rewrite Q0, Q1 in C; nia|]. cbn [field modulus] in *. lia. }
  (* the case of hours at midnight *)
  assert (Sp : u = UHour -> hour m = 0 -> q = 1 -> (representable Y Mo D = true /\ back_day Y Mo (D - T / 86400 - 1) = (year m, month m, day m) <->
     day m = 30 /\ month_length (year m) (month m) = 30)).
  { intros -> H0 H1. cbn [field modulus unit_secs] in *. assert (T1 : T / 86400 = 1).
    { clear - H0 H1 Vmi Vs Hn. subst q T. unfold sod. rewrite H0 in *. cbn [unit_secs]. lia. }
    rewrite T1 in *. pose proof (days_before_succ (year m) (month m) Vmo) as S1. pose proof (days_before_13 (year m)) as Y13.
    destruct R as [(-> & Ex & De)|(e & Ee & He & -> & -> & ->)].
    - assert (Rp : representable (year m) Mo D = true) by (apply representable_iff; auto). rewrite Rp.
      apply date_exists_iff in Ex as [Mb Db]. pose proof (days_before_succ (year m) Mo Mb) as S2.
      destruct (Z_lt_ge_dec Mo (month m)) as [L|G]; [pose proof (days_before_mono (year m) (Mo + 1) (month m) ltac:(lia) ltac:(lia) ltac:(lia)); lia|].
      destruct (Z.eq_dec Mo (month m)) as [->|Ne].
      + assert (D = day m + 1) by lia. subst D. unfold back_day. split.
        * intros [_ C]. destruct (1 <=? day m + 1 - 1 - 1); [apply triple_eq in C; lia|]. unfold prev_month in C.
          destruct (month m =? 1) eqn:M1; apply triple_eq in C; lia.
        * intros [C1 C2]. lia.
      + pose proof (days_before_mono (year m) (month m + 1) Mo ltac:(lia) ltac:(lia) ltac:(lia)) as M2. assert (Mo = month m + 1) by lia. subst Mo.
        assert (D = 1 /\ day m = month_length (year m) (month m)) by lia. destruct H as [-> Hl].
        unfold back_day. cbn [Z.leb Z.sub Z.add Z.opp Z.pos_sub Z.compare]. unfold prev_month. replace (month m + 1 =? 1) with false by lia. replace (month m + 1 - 1) with (month m) by ring.
        split; [intros [_ C]; apply triple_eq in C; lia|]. intros [C1 C2]. split; [reflexivity|]. rewrite C1. reflexivity.
    - pose proof (doy_bounds _ _ _ (valid_date m Hm)) as Dy. assert (e0 : e = 0) by lia. rewrite e0 in *.
      assert (M12 : month m = 12).
      { destruct (Z.eq_dec (month m) 12); [assumption|]. pose proof (days_before_mono (year m) (month m + 1) 13 ltac:(lia) ltac:(lia) ltac:(lia)) as Mn. clear - Ee S1 Y13 Vml Vmo n0 Mn. lia. }
      rewrite M12 in *. change (12 + 1) with 13 in S1. change (month_length (year m) 12) with 31 in *. split; [|lia]. intros [_ C]. unfold back_day in C. cbn in C. apply triple_eq in C. lia. }
  assert (Qn : u = UHour -> hour m = 0 -> (q = 1 <-> 24 <= n < 48)).
  { intros -> H0. cbn [field modulus] in *. subst q. rewrite H0. clear. lia. }
  split.
  - intro C. destruct (round_inv m u n _ Hm Hi C) as (m1 & E1 & _ & E2). rewrite E in E1. apply built_ok in E1 as [Rp [= ->]]. apply St in E2; [|exact Rp].
    destruct E2 as [[E2 E3]|(Hh & H0 & H1 & E3)]; [left; split; [exact E2|]; apply Ra; auto|right].
    split; [exact Hh|]. split; [exact H0|]. split; [apply Qn; assumption|]. apply (Sp Hh H0 H1). auto.
  - intro C.
    assert (C' : representable Y Mo D = true /\ (((field u m + n < modulus u \/ (field u m + n < 2 * modulus u /\ 0 < field u m)) /\ back_day Y Mo (D - T / 86400) = (year m, month m, day m)) \/
     (u = UHour /\ hour m = 0 /\ q = 1 /\ back_day Y Mo (D - T / 86400 - 1) = (year m, month m, day m)))).
    { destruct C as [[C1 C2]|(Hh & H0 & H1 & C)].
      - apply Ra in C2 as [C2 C3]. split; [exact C2|]. left. auto.
      - apply (Qn Hh H0) in H1. apply (Sp Hh H0 H1) in C as [C2 C3]. split; [exact C2|]. right. auto. }
    destruct C' as [Rp C']. apply (St Rp) in C'.
    rewrite (round_comp md m u n (at_time Y Mo D (T mod 86400)) Hm Hi); [exact C'|]. rewrite E. unfold built. rewrite Rp. reflexivity.
Qed.
Lemma undo_years : forall m n, dt_valid m = true -> 0 <= n < 2147483648 ->
  (calculate md (Subtraction (Addition (Moment m) (Years n)) (Years n)) = Ok (Moment (whole_second m)) <-> undone UYear n m).
Proof.
  intros m n Hm Hn. assert (Hi : in_i64 n = true) by (apply in_i64_iff; unfold i64_min, i64_max; lia). pose proof (sod_range m Hm) as Sr.
  destruct (valid_facts m Hm) as (Vy & Vmo & Vd & Vml & _). cbn [undone]. split.
  - intro C. destruct (round_inv m UYear n _ Hm Hi C) as (m1 & E1 & V1 & E2). cbn [mk] in E1, E2.
    rewrite add_years in E1 by (assumption || unfold i64_min, i64_max, min_year, max_year in *; lia).
    assert (Yx : year m + n <= max_year).
    { destruct (Z_le_gt_dec (year m + n) max_year); [assumption|exfalso]. assert (W : wrap32 (year m + n) < min_year \/ max_year < wrap32 (year m + n)) by (unfold wrap32, min_year, max_year in *; lia).
      unfold in_year in E1. destruct (_ && _ && _); apply built_ok in E1 as [Rp _]; apply representable_iff in Rp as [Rp _]; lia. }
    split; [exact Yx|]. intros (M2 & D29 & Lp). rewrite wrap32_id in E1 by (unfold min_year, max_year in *; lia).
    unfold in_year in E1. rewrite M2, D29, Lp in E1. cbn [Z.eqb Pos.eqb andb negb] in E1. apply built_ok in E1 as [Rp [= ->]].
    rewrite sub_years in E2; [|exact V1|exact Hi|cbn; unfold i64_min, i64_max, min_year, max_year in *; lia]. rewrite sod_at in E2 by exact Sr.
    apply built_whole in E2 as [E2 _]; [|assumption|assumption]. apply triple_eq in E2. cbn in E2. lia.
  - intros [Yx Nf]. apply (round_years md m n Hm); [lia|exact Nf].
Qed.
Lemma undo_months : forall m n, dt_valid m = true -> 0 <= n < 2147483648 ->
  (calculate md (Subtraction (Addition (Moment m) (Months n)) (Months n)) = Ok (Moment (whole_second m)) <-> undone UMonth n m).
Proof.
  intros m n Hm Hn. assert (Hi : in_i64 n = true) by (apply in_i64_iff; unfold i64_min, i64_max; lia). pose proof (sod_range m Hm) as Sr.
  destruct (valid_facts m Hm) as (Vy & Vmo & Vd & Vml & _).
  pose proof (add_months md m n Hm ltac:(lia) ltac:(unfold i64_max; lia)) as A.
  destruct (plus_months (year m) (month m) (day m) n) as [[Y Mo] D] eqn:P.
  assert (Yb : -2147483648 <= Y < 2147483648).
  { unfold plus_months in P. unfold min_year, max_year in *. destruct (month m + n <=? 12); [destruct (day m <=? month_length (year m) (month m + n))|destruct (day m <=? 30)]; apply triple_eq in P as (<- & _ & _); lia. }
  rewrite wrap32_id in A by exact Yb.
  assert (St : representable Y Mo D = true -> (calculate md (Subtraction (Moment (at_time Y Mo D (sod m))) (Months n)) = Ok (Moment (whole_second m)) <->
     D = day m /\ ((1 <= Mo - n /\ Y = year m /\ Mo - n = month m) \/ (-11 <= Mo - n <= 0 /\ Y - 1 = year m /\ Mo - n + 12 = month m)))).
  { intro Rp. pose proof (at_valid Y Mo D _ Sr Rp) as V1. destruct (sub_months md _ n V1 Hn) as (S1 & S2 & S3). cbv zeta in S1, S2, S3. rewrite sod_at in S1, S2 by exact Sr.
    change (day (at_time Y Mo D (sod m))) with D in *. change (year (at_time Y Mo D (sod m))) with Y in *. change (month (at_time Y Mo D (sod m))) with Mo in *.
    destruct (Z_le_gt_dec 1 (Mo - n)) as [L|G]; [|destruct (Z_le_gt_dec (-11) (Mo - n)) as [L|G2]].
    - rewrite (S1 L), built_whole by assumption. split; [intros [C _]; apply triple_eq in C; lia|]. intros (-> & [C|C]); [|lia]. destruct C as (_ & -> & ->). auto.
    - rewrite (S2 ltac:(lia)), built_whole by assumption. split; [intros [C _]; apply triple_eq in C; lia|]. intros (-> & [C|C]); [lia|]. destruct C as (_ & -> & ->). auto.
    - split; intro C; [exfalso; exact (oob_err _ (S3 ltac:(lia)) _ C)|lia]. }
  assert (Main : calculate md (Subtraction (Addition (Moment m) (Months n)) (Months n)) = Ok (Moment (whole_second m)) <->
     representable Y Mo D = true /\ D = day m /\ ((1 <= Mo - n /\ Y = year m /\ Mo - n = month m) \/ (-11 <= Mo - n <= 0 /\ Y - 1 = year m /\ Mo - n + 12 = month m))).
  { change (Months n) with (mk UMonth n) in *. split.
    - intro C. destruct (round_inv m UMonth n _ Hm Hi C) as (m1 & E1 & _ & E2). rewrite A in E1. apply built_ok in E1 as [Rp [= ->]]. split; [exact Rp|]. apply St; assumption.
    - intros [Rp C]. apply (St Rp) in C. rewrite (round_comp md m UMonth n (at_time Y Mo D (sod m)) Hm Hi); [exact C|]. rewrite A. unfold built. rewrite Rp. reflexivity. }
  rewrite Main. clear Main St A. cbn [undone]. cbv zeta. rewrite representable_iff, date_exists_iff. unfold plus_months in P. set (M := month m + n) in *.
  destruct (Z.leb_spec M 12) as [L|G].
  - destruct (Z.leb_spec (day m) (month_length (year m) M)) as [Lf|Gf]; apply triple_eq in P as (<- & <- & <-); subst M; lia.
  - destruct (Z.leb_spec (day m) 30) as [Lf|Gf]; apply triple_eq in P as (<- & <- & <-).
    + destruct (Z_le_gt_dec M 24) as [L24|G24].
      * replace ((M - 1) / 12) with 1 by lia. replace ((M - 1) mod 12 + 1) with (M - 12) by lia. subst M. lia.
      * split; [|lia]. intros (_ & _ & C). exfalso. subst M. lia.
    + lia.
Qed.
Lemma undo_exact : forall m u n, dt_valid m = true -> 0 <= n < 2147483648 ->
  (calculate md (Subtraction (Addition (Moment m) (mk u n)) (mk u n)) = Ok (Moment (whole_second m)) <-> undone u n m).
Proof.
  intros m u n Hm Hn. destruct u.
  - apply (undo_clock m USec n Hm eq_refl ltac:(discriminate) Hn).
  - apply (undo_clock m UMin n Hm eq_refl ltac:(discriminate) Hn).
  - apply (undo_clock m UHour n Hm eq_refl ltac:(discriminate) Hn).
  - apply (undo_days m n Hm Hn).
  - apply (undo_months m n Hm Hn).
  - apply (undo_years m n Hm Hn).
Qed.
End Undo.
