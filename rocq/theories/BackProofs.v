(** The moments subtractions can reach (C116). *)
Require Import ZArith Bool List Lia ZifyBool.
From Verif Require Import Prelude Spec Chrono Util TimeType SpecTree SpecMoment SpecExact SpecBack PreludeProofs EvalProofs AmountProofs
  ShapeProofs CompProofs CalendarProofs OrdProofs AddProofs AddProofs2 SubProofs SubProofs2 ExactProofs4 FarProofs SeqProofs FurtherProofs ReachProofs.
Import ListNotations.
Local Open Scope Z_scope.
Local Ltac Zify.zify_post_hook ::= Z.to_euclidean_division_equations.

Section Back.
Variable md : mode.

(** Step by step. *)
Fixpoint steps (m : datetime) (l : list (tunit * Z)) (m' : datetime) : Prop :=
  match l with
  | [] => m' = m
  | s :: r => exists x, calculate md (Subtraction (Moment m) (mk (fst s) (snd s))) = Ok (Moment x) /\ steps x r m'
  end.

Lemma small_ok : forall s, small s -> tt_ok (mk (fst s) (snd s)) = true.
Proof. intros s H. rewrite ok_mk. apply in_i64_iff. unfold small, i64_min, i64_max in *. lia. Qed.

Lemma less_steps : forall l a m', Forall small l -> tt_ok a = true -> shape_of a = SMoment -> is_end a = false ->
  (calculate md (less a l) = Ok (Moment m') <-> exists x, calculate md a = Ok (Moment x) /\ steps x l m').
Proof.
  induction l as [|s l IH]; intros a m' Fl Ha Sa Ea; cbn [less fold_left steps].
  - split; [intro H; exists m'; auto|]. intros (x & H & ->). exact H.
  - inversion Fl as [|? ? Fs Fr]; subst. change (fold_left _ l _) with (less (Subtraction a (mk (fst s) (snd s))) l).
    pose proof (small_ok s Fs) as Hs.
    assert (Sh : shape_of (Subtraction a (mk (fst s) (snd s))) = SMoment) by (cbn [shape_of]; rewrite Sa, shape_mk, Ea; reflexivity).
    rewrite IH; [|exact Fr|cbn [tt_ok]; rewrite Ha, Hs; reflexivity|exact Sh|reflexivity].
    destruct (calc_sub_comp md a (mk (fst s) (snd s)) Ha Hs ltac:(rewrite Sh; discriminate)) as (C1 & C2 & _).
    assert (Cm : calculate md (mk (fst s) (snd s)) = Ok (mk (fst s) (snd s))) by (destruct (fst s); reflexivity).
    split.
    + intros (y & Ey & St). pose proof (calculate_shape md a) as K. rewrite Sa in K.
      destruct (calculate md a) as [x| | |] eqn:Ex; try (rewrite Ey in C2; discriminate (C2 eq_refl)). destruct x; try discriminate K.
      rewrite (C1 _ _ eq_refl Cm) in Ey. eauto.
    + intros (x & Ex & y & Ey & St). exists y. split; [|exact St]. rewrite (C1 _ _ Ex Cm). exact Ey.
Qed.

Definition by_steps (k : nat) (m m' : datetime) : Prop := exists l, (length l <= k)%nat /\ l <> [] /\ Forall small l /\ steps m l m'.
Lemma steps_app : forall l r a b c, steps a l b -> steps b r c -> steps a (l ++ r) c.
Proof. induction l as [|s l IH]; intros r a b c H1 H2; cbn [steps app] in *; [subst; exact H2|]. destruct H1 as (x & E & H1). exists x. split; [exact E|]. eapply IH; eassumption. Qed.
Lemma by_app : forall j k a b c, by_steps j a b -> by_steps k b c -> by_steps (j + k) a c.
Proof.
  intros j k a b c (l & L1 & L2 & L3 & L4) (r & R1 & R2 & R3 & R4). exists (l ++ r). rewrite app_length. split; [lia|]. split; [destruct l; [contradiction|discriminate]|].
  split; [apply Forall_app; auto|]. eapply steps_app; eassumption.
Qed.
Lemma by_more : forall j k a b, by_steps j a b -> (j <= k)%nat -> by_steps k a b.
Proof. intros j k a b (l & L1 & L) H. exists l. split; [lia|exact L]. Qed.
Lemma by_one : forall m u n x, 0 <= n < 2147483648 -> calculate md (Subtraction (Moment m) (mk u n)) = Ok (Moment x) -> by_steps 1 m x.
Proof. intros m u n x Hn E. exists [(u, n)]. split; [cbn; lia|]. split; [discriminate|]. split; [repeat constructor; apply Hn|]. cbn [steps fst snd]. eauto. Qed.

Lemma built_self : forall y mo d r, representable y mo d = true -> built y mo d r = Ok (Moment (at_time y mo d r)).
Proof. intros y mo d r H. unfold built. rewrite H. reflexivity. Qed.
Lemma lower_day : forall m d, dt_valid m = true -> 1 <= d <= day m -> representable (year m) (month m) d = true.
Proof. intros m d Hm Hd. destruct (valid_facts m Hm) as (Vy & Vmo & Vd & Vml & _). apply representable_iff. split; [exact Vy|]. apply date_exists_iff. lia. Qed.

Lemma step_days : forall m d, dt_valid m = true -> 1 <= d <= day m -> by_steps 1 m (at_time (year m) (month m) d (sod m)).
Proof.
  intros m d Hm Hd. destruct (valid_facts m Hm) as (Vy & Vmo & Vd & Vml & _). pose proof (month_length_bounds (year m) (month m) Vmo).
  apply (by_one m UDay (day m - d)); [lia|]. destruct (sub_days md m (day m - d) Hm ltac:(lia)) as [X _]. cbv zeta in X. cbn [mk]. rewrite X by lia.
  replace (day m - (day m - d)) with d by lia. unfold back_day. replace (1 <=? d) with true by lia. apply built_self, lower_day; assumption.
Qed.
Lemma step_cross : forall m y mo d, dt_valid m = true -> day m = 1 -> representable y mo d = true -> 12 * y + mo = 12 * year m + month m - 1 -> by_steps 1 m (at_time y mo d (sod m)).
Proof.
  intros m y mo d Hm D1 P I. destruct (valid_facts m Hm) as (Vy & Vmo & _). pose proof P as P'. apply representable_iff in P' as [Py Pd]. apply date_exists_iff in Pd as [Pm Pd]. pose proof (month_length_bounds y mo ltac:(lia)).
  apply (by_one m UDay (32 - d)); [lia|]. destruct (sub_days md m (32 - d) Hm ltac:(lia)) as [X _]. cbv zeta in X. cbn [mk]. rewrite X by lia.
  unfold back_day, prev_month. replace (1 <=? day m - (32 - d)) with false by lia.
  assert (Q : (if month m =? 1 then (year m - 1, 12) else (year m, month m - 1)) = (y, mo)) by (destruct (month m =? 1) eqn:M1; apply (f_equal2 pair); lia).
  rewrite Q. cbn [built3]. replace (31 + (day m - (32 - d))) with d by lia. apply built_self, P.
Qed.

(** [T] seconds after midnight of the day of [m]. *)
Definition after (m : datetime) (T : Z) : datetime := at_time (year m) (month m) (day m + T / 86400) (T mod 86400).
Lemma after_valid : forall m T, dt_valid m = true -> T <= sod m -> 1 <= day m + T / 86400 -> dt_valid (after m T) = true.
Proof. intros m T Hm HT HD. pose proof (sod_range m Hm). apply at_valid; [lia|]. apply lower_day; [exact Hm|lia]. Qed.
Lemma after_inst : forall m T, inst (after m T) = inst m - sod m + T.
Proof. intros m T. unfold after. rewrite inst_at by lia. rewrite (inst_sod m). unfold day_number. lia. Qed.
Lemma field_range : forall m u, dt_valid m = true -> u = UHour \/ u = UMin \/ u = USec -> 0 <= field u m < modulus u.
Proof. intros m u Hm Hu. destruct (valid_facts m Hm) as (Vy & Vmo & Vd & Vml & Vh & Vmi & Vs). destruct Hu as [->|[->| ->]]; cbn [field modulus]; lia. Qed.
Lemma step_clock : forall m u n, dt_valid m = true -> u = UHour \/ u = UMin \/ u = USec -> 0 <= n < modulus u -> 1 <= day m + (sod m - n * unit_secs u) / 86400 ->
  by_steps 1 m (after m (sod m - n * unit_secs u)).
Proof.
  intros m u n Hm Hu Hn HD. pose proof (field_range m u Hm Hu) as F. pose proof (sod_range m Hm) as R.
  assert (Cu : clock_unit u = true) by (destruct Hu as [->|[->| ->]]; reflexivity). assert (Nu : u <> UDay) by (destruct Hu as [->|[->| ->]]; discriminate).
  assert (Mu : modulus u <= 60) by (destruct Hu as [->|[->| ->]]; cbn [modulus]; lia). assert (Pu : 0 <= n * unit_secs u) by (destruct Hu as [->|[->| ->]]; cbn [unit_secs]; lia).
  apply (by_one m u n); [lia|]. destruct (sub_clock md m u n Hm Cu Nu ltac:(lia)) as (X & _). cbv zeta in X. rewrite X by lia.
  unfold back_day. replace (1 <=? _) with true by lia. apply built_self, lower_day; [exact Hm|lia].
Qed.
Lemma step_after : forall m T u n, dt_valid m = true -> T <= sod m -> u = UHour \/ u = UMin \/ u = USec -> 0 <= n < modulus u -> 1 <= day m + (T - n * unit_secs u) / 86400 ->
  by_steps 1 (after m T) (after m (T - n * unit_secs u)).
Proof.
  intros m T u n Hm HT Hu Hn HD. assert (Pu : 0 <= n * unit_secs u) by (destruct Hu as [->|[->| ->]]; cbn [unit_secs]; lia).
  assert (D : 1 <= day m + T / 86400) by lia. pose proof (after_valid m T Hm HT D) as V.
  assert (S : sod (after m T) = T mod 86400) by (apply at_facts; lia).
  pose proof (step_clock (after m T) u n V Hu Hn) as X. rewrite S in X. unfold after in X at 1 3. cbn [at_time day] in X.
  specialize (X ltac:(lia)). replace (after m (T - n * unit_secs u)) with (after (after m T) (T mod 86400 - n * unit_secs u)); [exact X|].
  unfold after at 1 3. unfold after. cbn [at_time year month day]. f_equal; lia.
Qed.

(** Within a month. *)
Lemma same_month : forall m w, dt_valid m = true -> dt_valid w = true -> nano w = 0 -> year w = year m -> month w = month m -> inst w <= inst m -> by_steps 4 m w.
Proof.
  intros m w Hm Hw N Y M I. pose proof (sod_range m Hm) as R. pose proof (sod_range w Hw) as R'. destruct (valid_facts w Hw) as (_ & _ & Vd & _).
  set (T := sod m - (inst m - inst w)).
  assert (HT : T = sod w + 86400 * (day w - day m)) by (subst T; rewrite !inst_sod; unfold day_number; rewrite Y, M; lia).
  assert (W : w = after m T).
  { apply same_moment; [exact Hw|apply after_valid; [exact Hm|lia|lia]|exact N|reflexivity|]. rewrite after_inst. subst T. lia. }
  set (q := (sod m - T) / 86400). set (r := (sod m - T) mod 86400).
  assert (A0 : by_steps 1 m (after m (sod m - 86400 * q))).
  { pose proof (step_days m (day m - q) Hm ltac:(subst q; lia)) as X. unfold after. replace (day m + (sod m - 86400 * q) / 86400) with (day m - q) by lia. replace ((sod m - 86400 * q) mod 86400) with (sod m) by lia. exact X. }
  assert (Q0 : 0 <= q /\ 0 <= r < 86400 /\ sod m - T = 86400 * q + r) by (subst q r; lia). clearbody q r.
  set (T0 := sod m - 86400 * q) in *.
  pose proof (step_after m T0 UHour (r / 3600) Hm ltac:(lia) ltac:(auto) ltac:(cbn [modulus]; lia) ltac:(cbn [unit_secs]; lia)) as A1. cbn [unit_secs] in A1.
  set (T1 := T0 - r / 3600 * 3600) in *.
  pose proof (step_after m T1 UMin (r mod 3600 / 60) Hm ltac:(lia) ltac:(auto) ltac:(cbn [modulus]; lia) ltac:(cbn [unit_secs]; lia)) as A2. cbn [unit_secs] in A2.
  set (T2 := T1 - r mod 3600 / 60 * 60) in *.
  pose proof (step_after m T2 USec (r mod 60) Hm ltac:(lia) ltac:(auto) ltac:(cbn [modulus]; lia) ltac:(cbn [unit_secs]; lia)) as A3. cbn [unit_secs] in A3.
  replace (T2 - r mod 60 * 1) with T in A3 by lia. rewrite <- W in A3.
  exact (by_app 3 1 _ _ _ (by_app 2 1 _ _ _ (by_app 1 1 _ _ _ A0 A1) A2) A3).
Qed.

(** To the first of an earlier month. *)
Lemma step_years : forall m y, dt_valid m = true -> day m = 1 -> min_year <= y <= year m -> by_steps 1 m (at_time y (month m) 1 (sod m)).
Proof.
  intros m y Hm D Hy. destruct (valid_facts m Hm) as (Vy & Vmo & _). unfold min_year, max_year in *.
  apply (by_one m UYear (year m - y)); [lia|]. cbn [mk]. rewrite sub_years by first [assumption | apply in_i64_iff; unfold i64_min, i64_max; lia | unfold i64_min, i64_max; lia].
  replace (year m - (year m - y)) with y by lia. rewrite wrap32_id by lia. rewrite D. apply built_self. apply representable_iff. unfold min_year, max_year. split; [lia|]. apply date_exists_iff. pose proof (month_length_bounds y (month m) Vmo). lia.
Qed.
Lemma first_ok : forall y mo, min_year <= y <= max_year -> 1 <= mo <= 12 -> representable y mo 1 = true.
Proof. intros y mo Hy Hmo. apply representable_iff. split; [exact Hy|]. apply date_exists_iff. pose proof (month_length_bounds y mo Hmo). lia. Qed.
Lemma step_months : forall m n, dt_valid m = true -> day m = 1 -> 0 <= n <= 11 -> min_year <= (month_index m - n) / 12 ->
  by_steps 1 m (at_time ((month_index m - n) / 12) ((month_index m - n) mod 12 + 1) 1 (sod m)).
Proof.
  intros m n Hm D Hn Hy. destruct (valid_facts m Hm) as (Vy & Vmo & _). unfold month_index in *.
  apply (by_one m UMonth n); [lia|]. cbn [mk]. destruct (sub_months md m n Hm ltac:(lia)) as (X & Y & _). cbv zeta in X, Y.
  destruct (Z_le_gt_dec 1 (month m - n)) as [L|L].
  - rewrite (X L), D. replace ((12 * year m + month m - 1 - n) / 12) with (year m) in * by lia. replace ((12 * year m + month m - 1 - n) mod 12 + 1) with (month m - n) by lia.
    apply built_self, first_ok; lia.
  - rewrite (Y ltac:(lia)), D. replace ((12 * year m + month m - 1 - n) / 12) with (year m - 1) in * by lia. replace ((12 * year m + month m - 1 - n) mod 12 + 1) with (month m - n + 12) by lia.
    apply built_self, first_ok; lia.
Qed.
Lemma first_month : forall m i, dt_valid m = true -> day m = 1 -> i <= month_index m -> min_year <= i / 12 -> by_steps 2 m (at_time (i / 12) (i mod 12 + 1) 1 (sod m)).
Proof.
  intros m i Hm D Hi Hy. destruct (valid_facts m Hm) as (Vy & Vmo & _). pose proof (sod_range m Hm) as R.
  set (k := (month_index m - i) / 12).
  assert (Yk : min_year <= year m - k <= year m) by (subst k; unfold month_index in *; lia).
  pose proof (step_years m (year m - k) Hm D Yk) as A.
  assert (V : dt_valid (at_time (year m - k) (month m) 1 (sod m)) = true) by (apply at_valid; [exact R|]; apply first_ok; lia).
  assert (I : month_index (at_time (year m - k) (month m) 1 (sod m)) = month_index m - 12 * k) by (unfold month_index; cbn [at_time year month]; lia).
  pose proof (step_months _ (month_index m - i - 12 * k) V eq_refl ltac:(subst k; lia)) as B. rewrite I in B.
  replace (month_index m - 12 * k - (month_index m - i - 12 * k)) with i in B by lia. rewrite at_facts in B by exact R.
  exact (by_app 1 1 _ _ _ A (B Hy)).
Qed.

(** To the month before. *)
Lemma index_same : forall a b, dt_valid a = true -> dt_valid b = true -> month_index a = month_index b -> year a = year b /\ month a = month b.
Proof. intros a b Ha Hb H. destruct (valid_facts a Ha) as (_ & Ma & _). destruct (valid_facts b Hb) as (_ & Mb & _). unfold month_index in H. lia. Qed.

Lemma month_before : forall m w, dt_valid m = true -> dt_valid w = true -> nano w = 0 -> month_index m = month_index w + 1 -> ~ (day m = 1 /\ sod m < sod w) -> by_steps 5 m w.
Proof.
  intros m w Hm Hw N I H. destruct (valid_facts m Hm) as (Vy & Vmo & Vd & _). destruct (valid_facts w Hw) as (Wy & Wmo & _). pose proof (sod_range m Hm) as R. pose proof (sod_range w Hw) as R'.
  assert (V : dt_valid (at_time (year m) (month m) 1 (sod w)) = true) by (apply at_valid; [exact R'|]; apply first_ok; lia).
  assert (A : by_steps 4 m (at_time (year m) (month m) 1 (sod w))).
  { apply same_month; try assumption; try reflexivity. rewrite inst_at, (inst_sod m) by exact R'. unfold day_number. lia. }
  pose proof (step_cross _ (year w) (month w) (day w) V eq_refl (self_repr w Hw) ltac:(cbn [at_time year month]; unfold month_index in I; lia)) as B.
  rewrite at_facts in B by exact R'. rewrite <- (at_self w Hw N) in B. exact (by_app 4 1 _ _ _ A B).
Qed.
Lemma month_before_first : forall m w, dt_valid m = true -> dt_valid w = true -> nano w = 0 -> month_index m = month_index w + 1 -> day m = 1 ->
  day w < month_length (year w) (month w) -> by_steps 5 m w.
Proof.
  intros m w Hm Hw N I D H. destruct (valid_facts w Hw) as (Wy & Wmo & Wd & _). pose proof (sod_range m Hm) as R. pose proof (sod_range w Hw) as R'.
  assert (P : representable (year w) (month w) (day w + 1) = true) by (apply representable_iff; split; [exact Wy|]; apply date_exists_iff; lia).
  pose proof (step_cross m (year w) (month w) (day w + 1) Hm D P ltac:(unfold month_index in I; lia)) as A.
  pose proof (at_valid _ _ _ (sod m) R P) as V.
  assert (B : by_steps 4 (at_time (year w) (month w) (day w + 1) (sod m)) w).
  { apply same_month; try assumption; try reflexivity. rewrite inst_at, (inst_sod w) by exact R. unfold day_number. lia. }
  exact (by_app 1 4 _ _ _ A B).
Qed.
Lemma month_before_31 : forall m w, dt_valid m = true -> dt_valid w = true -> nano w = 0 -> month_index m = month_index w + 1 -> month_length (year w) (month w) = 31 -> by_steps 9 m w.
Proof.
  intros m w Hm Hw N I L. destruct (valid_facts m Hm) as (Vy & Vmo & Vd & _). destruct (valid_facts w Hw) as (Wy & Wmo & Wd & Wml & _). pose proof (sod_range m Hm) as R. pose proof (sod_range w Hw) as R'.
  assert (V : dt_valid (at_time (year m) (month m) 1 0) = true) by (apply at_valid; [lia|]; apply first_ok; lia).
  assert (A : by_steps 4 m (at_time (year m) (month m) 1 0)).
  { apply same_month; try assumption; try reflexivity. rewrite inst_at, (inst_sod m) by lia. unfold day_number. lia. }
  assert (P : representable (year w) (month w) 31 = true) by (apply representable_iff; split; [exact Wy|]; apply date_exists_iff; lia).
  assert (B : by_steps 1 (at_time (year m) (month m) 1 0) (at_time (year w) (month w) 31 86399)).
  { apply (by_one _ USec 1); [lia|]. destruct (sub_clock md _ USec 1 V eq_refl ltac:(discriminate) ltac:(lia)) as (X & _). cbv zeta in X. rewrite X by (cbn; lia).
    rewrite at_facts by lia. cbn [at_time year month day]. unfold back_day, prev_month. cbn [unit_secs].
    assert (Q : (if month m =? 1 then (year m - 1, 12) else (year m, month m - 1)) = (year w, month w)) by (unfold month_index in I; destruct (month m =? 1) eqn:M1; apply (f_equal2 pair); lia).
    change (1 <=? 1 + (0 - 1 * 1) / 86400) with false. cbv iota. rewrite Q. cbn [built3]. change (31 + (1 + (0 - 1 * 1) / 86400)) with 31. change ((0 - 1 * 1) mod 86400) with 86399. apply built_self, P. }
  pose proof (at_valid _ _ _ 86399 ltac:(lia) P) as V2.
  assert (C : by_steps 4 (at_time (year w) (month w) 31 86399) w).
  { apply same_month; try assumption; try reflexivity. rewrite inst_at, (inst_sod w) by lia. unfold day_number. lia. }
  exact (by_app 5 4 _ _ _ (by_app 4 1 _ _ _ A B) C).
Qed.

Lemma not_stuck : forall m w, dt_valid m = true -> dt_valid w = true -> nano w = 0 -> inst w <= inst m -> ~ stuck m w -> by_steps 9 m w.
Proof.
  intros m w Hm Hw N I H. destruct (valid_facts m Hm) as (Vy & Vmo & Vd & Vml & _). destruct (valid_facts w Hw) as (Wy & Wmo & Wd & Wml & _). pose proof (sod_range m Hm) as R. pose proof (sod_range w Hw) as R'.
  pose proof (month_length_bounds (year w) (month w) Wmo) as LB.
  assert (L : month_index w <= month_index m) by (destruct (month_index_le w m Hw Hm I) as [?|(? & ? & _)]; unfold month_index; lia).
  destruct (Z.eq_dec (month_index m) (month_index w)) as [E|E].
  - destruct (index_same w m Hw Hm ltac:(lia)) as [Y M]. apply (by_more 4); [|lia]. apply same_month; assumption.
  - destruct (Z.eq_dec (month_index m) (month_index w + 1)) as [F|F].
    + destruct (Z.eq_dec (month_length (year w) (month w)) 31) as [G|G]; [apply month_before_31; assumption|].
      destruct (Z.eq_dec (day m) 1) as [D|D].
      * destruct (Z_lt_le_dec (sod m) (sod w)) as [S|S].
        -- apply (by_more 5); [|lia]. apply month_before_first; try assumption. unfold stuck in H. lia.
        -- apply (by_more 5); [|lia]. apply month_before; try assumption. lia.
      * apply (by_more 5); [|lia]. apply month_before; try assumption. lia.
    + set (i := month_index w + 2).
      assert (Yi : min_year <= i / 12 <= max_year) by (subst i; unfold month_index in *; lia).
      pose proof (step_days m 1 Hm ltac:(lia)) as A.
      assert (V1 : dt_valid (at_time (year m) (month m) 1 (sod m)) = true) by (apply at_valid; [exact R|]; apply first_ok; lia).
      pose proof (first_month _ i V1 eq_refl ltac:(unfold month_index in *; cbn [at_time year month]; lia) ltac:(lia)) as B. rewrite at_facts in B by exact R.
      assert (V2 : dt_valid (at_time (i / 12) (i mod 12 + 1) 1 (sod m)) = true) by (apply at_valid; [exact R|]; apply first_ok; lia).
      set (j := month_index w + 1). assert (Yj : min_year <= j / 12 <= max_year) by (subst j; unfold month_index in *; lia).
      assert (P : representable (j / 12) (j mod 12 + 1) 2 = true).
      { apply representable_iff. split; [exact Yj|]. apply date_exists_iff. pose proof (month_length_bounds (j / 12) (j mod 12 + 1) ltac:(lia)). lia. }
      pose proof (step_cross _ (j / 12) (j mod 12 + 1) 2 V2 eq_refl P ltac:(cbn [at_time year month]; lia)) as C. rewrite at_facts in C by exact R.
      pose proof (at_valid _ _ _ (sod m) R P) as V3.
      assert (D : by_steps 5 (at_time (j / 12) (j mod 12 + 1) 2 (sod m)) w).
      { apply month_before; try assumption; [unfold month_index at 1; cbn [at_time year month]; lia|]. cbn [at_time day]. lia. }
      exact (by_app 4 5 _ _ _ (by_app 3 1 _ _ _ (by_app 1 2 _ _ _ A B) C) D).
Qed.

(** Where there is no way. *)
Lemma step_down : forall m u n x, dt_valid m = true -> 0 <= n < 2147483648 -> calculate md (Subtraction (Moment m) (mk u n)) = Ok (Moment x) -> inst x <= inst m.
Proof.
  intros m u n x Hm Hn E. destruct (add_zero_unit md m u Hm) as [_ Z0]. destruct (Z.eq_dec n 0) as [->|H].
  - rewrite Z0 in E. injection E as <-. reflexivity.
  - pose proof (sub_further md m u 0 n _ x Hm ltac:(lia) ltac:(lia) Z0 E) as Q. change (inst (whole_second m)) with (inst m) in Q. lia.
Qed.
Lemma sub_valid : forall m u n x, dt_valid m = true -> 0 <= n < 2147483648 -> calculate md (Subtraction (Moment m) (mk u n)) = Ok (Moment x) -> dt_valid x = true.
Proof.
  intros m u n x Hm Hn E. refine (moment_valid md _ _ _ E). cbn [tt_ok]. rewrite Hm, ok_mk. apply in_i64_iff. unfold i64_min, i64_max. lia.
Qed.

Definition held (m w x : datetime) : Prop := (month_index x = month_index w + 1 /\ day x = 1 /\ sod x <= sod m) \/ inst x < inst w.
Lemma held_step : forall m w x u n y, dt_valid w = true -> stuck m w -> dt_valid x = true -> held m w x -> 0 <= n < 2147483648 ->
  calculate md (Subtraction (Moment x) (mk u n)) = Ok (Moment y) -> held m w y.
Proof.
  intros m w x u n y Hw (_ & _ & Sm & Dw & Lw) Hx [(I & D & S)|H] Hn E; [|right; pose proof (step_down x u n y Hx Hn E); lia].
  destruct (valid_facts x Hx) as (Vy & Vmo & _). destruct (valid_facts w Hw) as (Wy & Wmo & Wd & _). pose proof (sod_range x Hx) as R. pose proof (sod_range w Hw) as Rw.
  assert (Early : forall yy mm dd r, 0 <= r <= sod x -> representable yy mm dd = true -> 12 * yy + mm - 1 <= month_index w -> (12 * yy + mm - 1 = month_index w -> dd <= day w) -> y = at_time yy mm dd r -> held m w y).
  { intros yy mm dd r Hr P J K ->. right. apply representable_iff in P as [P1 P2]. rewrite inst_at, inst_sod by lia.
    pose proof P2 as P3. apply date_exists_iff in P3 as [P3 _]. unfold month_index in *.
    destruct (Z.eq_dec (12 * yy + mm - 1) (12 * year w + month w - 1)) as [Q|Q].
    - assert (yy = year w /\ mm = month w) as [-> ->] by lia. specialize (K Q). unfold day_number. lia.
    - pose proof (proj2 (day_number_lt_iff _ _ _ _ _ _ P2 (valid_date w Hw)) ltac:(lia)). lia. }
  assert (Dd : forall yy mm dd r, built yy mm dd r = Ok (Moment y) -> representable yy mm dd = true /\ y = at_time yy mm dd r).
  { intros yy mm dd r Q. apply built_ok in Q as [P Q]. injection Q as ->. auto. }
  assert (Same : forall r, 0 <= r <= sod x -> y = at_time (year x) (month x) 1 r -> held m w y).
  { intros r Hr ->. left. rewrite at_facts by lia. unfold month_index in *. cbn [at_time year month day]. lia. }
  assert (Prev : exists py pm, prev_month (year x) (month x) = (py, pm) /\ py = year w /\ pm = month w).
  { unfold prev_month. unfold month_index in I. destruct (month x =? 1) eqn:M1; eexists; eexists; (split; [reflexivity|lia]). }
  destruct Prev as (py & pm & Pv & -> & ->).
  assert (Back : forall D' r, 0 <= r < 86400 -> built3 (back_day (year x) (month x) D') r = Ok (Moment y) -> D' <= 1 -> (D' = 1 -> r <= sod x) -> (D' < 0 -> r <= sod x) -> held m w y).
  { intros D' r Hr Q B1 B2 B3. unfold back_day in Q. destruct (1 <=? D') eqn:L.
    - replace D' with 1 in Q by lia. cbn [built3] in Q. apply Dd in Q as [_ Q]. apply (Same r); [lia|exact Q].
    - rewrite Pv in Q. cbn [built3] in Q. apply Dd in Q as [P Q]. pose proof P as P'. apply representable_iff in P' as [_ P']. apply date_exists_iff in P' as [_ P'].
      apply (Early _ _ _ r ltac:(lia) P ltac:(unfold month_index; lia) ltac:(lia) Q). }
  destruct (clock_unit u) eqn:Cu; [destruct (match u with UDay => true | _ => false end) eqn:Du|].
  - destruct u; try discriminate Du. cbn [mk] in E. destruct (sub_days md x n Hx Hn) as [X Y]. cbv zeta in X, Y.
    destruct (Z_lt_le_dec (day x - n) (-30)) as [L|L]; [exfalso; exact (not_oob _ _ (Y L) E)|]. rewrite (X L) in E. apply (Back _ _ R E); lia.
  - assert (Nu : u <> UDay) by (intros ->; discriminate Du). assert (Hu : u = UHour \/ u = UMin \/ u = USec) by (destruct u; try discriminate Cu; auto; discriminate Du).
    pose proof (field_range x u Hx Hu) as F. destruct (valid_facts x Hx) as (_ & _ & _ & _ & Vh & Vmi & Vs).
    assert (Pn : 0 <= n * unit_secs u) by (destruct Hu as [->|[->| ->]]; cbn [unit_secs]; lia).
    destruct (sub_clock md x u n Hx Cu Nu Hn) as (X & Y & Z). cbv zeta in X, Y, Z.
    destruct (Z_lt_le_dec (field u x - n) (- modulus u)) as [L|L]; [exfalso; exact (not_oob _ _ (Z L) E)|].
    destruct (Z.eq_dec (field u x - n) (- modulus u)) as [Q|Q].
    + rewrite (Y Q) in E. unfold sod in *. refine (Back _ _ (Z.mod_pos_bound _ 86400 eq_refl) E _ _ _); clear E X Y Z Back Early Same Dd; destruct Hu as [->|[->| ->]]; cbn [unit_secs modulus field] in *; lia.
    + rewrite (X ltac:(lia)) in E. unfold sod in *. refine (Back _ _ (Z.mod_pos_bound _ 86400 eq_refl) E _ _ _); clear E X Y Z Back Early Same Dd; destruct Hu as [->|[->| ->]]; cbn [unit_secs modulus field] in *; lia.
  - destruct u; try discriminate Cu; cbn [mk] in E.
    + destruct (sub_months md x n Hx Hn) as (X & Y & Z). cbv zeta in X, Y, Z. unfold month_index in *.
      destruct (Z_lt_le_dec (month x - n) (-11)) as [L|L]; [exfalso; exact (not_oob _ _ (Z L) E)|].
      destruct (Z.eq_dec n 0) as [->|N0].
      * rewrite X in E by lia. rewrite Z.sub_0_r, D in E. apply Dd in E as [_ E]. apply (Same (sod x)); [lia|exact E].
      * destruct (Z_le_gt_dec 1 (month x - n)) as [L'|L']; [rewrite (X L') in E|rewrite (Y ltac:(lia)) in E]; apply Dd in E as [P E]; (refine (Early _ _ _ _ _ P _ _ E); lia).
    + rewrite sub_years in E by first [assumption | apply in_i64_iff; unfold i64_min, i64_max; lia | unfold i64_min, i64_max, min_year, max_year in *; lia].
      apply Dd in E as [P E]. pose proof P as P'. apply representable_iff in P' as [P' _]. replace (year x - n) with (year x + - n) in * by lia. rewrite (year_near x (- n) Hx ltac:(lia) P') in *.
      destruct (Z.eq_dec n 0) as [->|N0].
      * rewrite Z.add_0_r, D in E. apply (Same (sod x)); [lia|exact E].
      * unfold month_index in *. refine (Early _ _ _ _ _ P _ _ E); lia.
Qed.
Lemma held_steps : forall m w l x, dt_valid w = true -> stuck m w -> Forall small l -> dt_valid x = true -> held m w x -> ~ steps x l w.
Proof.
  intros m w l x Hw S. revert x. induction l as [|[u n] l IH]; intros x Fl Hx H; cbn [steps].
  - intros <-. destruct H as [(H & _)|H]; lia.
  - intros (y & E & St). inversion Fl as [|? ? Fs Fr]; subst. unfold small in Fs. cbn [fst snd] in *.
    apply (IH y Fr (sub_valid x u n y Hx Fs E) (held_step m w x u n y Hw S Hx H Fs E) St).
Qed.

Lemma back_iff : forall m w, dt_valid m = true -> dt_valid w = true -> nano w = 0 -> inst w <= inst m ->
  ((exists l, Forall small l /\ calculate md (less (Moment m) l) = Ok (Moment w)) <-> ~ stuck m w).
Proof.
  intros m w Hm Hw N I. split.
  - intros (l & Fl & E) S. apply less_steps in E as (x & E & St); [|exact Fl|exact Hm|reflexivity|reflexivity].
    injection E as <-. refine (held_steps m w l m Hw S Fl Hm _ St). left. destruct S as (S1 & S2 & _). repeat split; try assumption. lia.
  - intro S. destruct (not_stuck m w Hm Hw N I S) as (l & _ & _ & Fl & St). exists l. split; [exact Fl|].
    apply less_steps; [exact Fl|exact Hm|reflexivity|reflexivity|]. exists m. split; [reflexivity|exact St].
Qed.
Lemma back_nine : forall m w, dt_valid m = true -> dt_valid w = true -> nano w = 0 -> inst w <= inst m -> ~ stuck m w ->
  exists l, (length l <= 9)%nat /\ Forall small l /\ calculate md (less (Moment m) l) = Ok (Moment w).
Proof.
  intros m w Hm Hw N I S. destruct (not_stuck m w Hm Hw N I S) as (l & L & _ & Fl & St). exists l. split; [exact L|]. split; [exact Fl|].
  apply less_steps; [exact Fl|exact Hm|reflexivity|reflexivity|]. exists m. split; [reflexivity|exact St].
Qed.
End Back.
