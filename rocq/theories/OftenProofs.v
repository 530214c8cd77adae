(** How often filters by weekday and month match. *)
Require Import ZArith Znumtheory Bool List Lia ZifyBool.
From Verif Require Import Prelude Spec PreludeProofs CalendarProofs Chrono TimeType Matcher Iter SpecTree SpecMoment SpecIter SpecAdapt SpecExact SpecHang
  EvalProofs ShapeProofs CompProofs AmountProofs AddProofs AddProofs2 OrdProofs IterProofs IterProofs2 AdapterProofs AdapterProofs2 AdapterProofs3 VisitProofs SoonerProofs ForeverProofs.
Import ListNotations.
Local Open Scope Z_scope.
Local Ltac Zify.zify_post_hook ::= Z.to_euclidean_division_equations.

(** ** Multiples of [n] on a circle of [c] *)
Definition period_of (c n : Z) : Z := c / Z.gcd n c.
Definition hit_at (c n e g : Z) : bool := all (fun q => Bool.eqb ((q * n) mod c =? e) (q mod period_of c n =? g)) (upto 0 c).
Definition hit_table (c : Z) : bool :=
  all (fun n => all (fun e => if e mod Z.gcd n c =? 0 then some (hit_at c n e) (upto 0 (period_of c n)) else all (fun q => negb ((q * n) mod c =? e)) (upto 0 c)) (upto 0 c)) (upto 0 c).
Lemma hit_7 : hit_table 7 = true.
Proof. vm_compute. reflexivity. Qed.
Lemma hit_12 : hit_table 12 = true.
Proof. vm_compute. reflexivity. Qed.

Section Circle.
Variable c : Z.
Hypothesis Hc : 0 < c.
Hypothesis Table : hit_table c = true.
Lemma gcd_round : forall n, Z.gcd (n mod c) c = Z.gcd n c.
Proof.
  intro n. rewrite (Z.div_mod n c) at 2 by lia. rewrite !(Z.gcd_comm _ c). replace (c * (n / c) + n mod c) with (n mod c + (n / c) * c) by ring.
  symmetry. apply Z.gcd_add_mult_diag_r.
Qed.
Lemma gcd_divides : forall n e, (Z.gcd n c | e) <-> (e mod c) mod Z.gcd n c = 0.
Proof.
  intros n e. pose proof (gcd_pos n c Hc) as G. destruct (Z.gcd_divide_r n c) as [b Eb]. set (g := Z.gcd n c) in *. clearbody g.
  assert (E : e = g * (b * (e / c)) + e mod c). { rewrite (Z.div_mod e c) at 1 by lia. rewrite Eb at 1. ring. }
  split.
  - intros [z Z0]. apply Z.mod_divide; [lia|]. exists (z - b * (e / c)). rewrite Z.mul_sub_distr_r, <- Z0. lia.
  - intro M. apply Z.mod_divide in M; [|lia]. destruct M as [z Z0]. exists (z + b * (e / c)). rewrite Z.mul_add_distr_r, <- Z0. lia.
Qed.
Lemma period_pos : forall n, 0 < period_of c n <= c /\ exists b, c = b * period_of c n.
Proof.
  intro n. unfold period_of. pose proof (gcd_pos n c Hc) as G. destruct (Z.gcd_divide_r n c) as [b Eb]. set (g := Z.gcd n c) in *. clearbody g.
  assert (D : c / g = b) by (rewrite Eb; apply Z.div_mul; lia). rewrite D. split; [nia|]. exists g. lia.
Qed.
Lemma round_mul : forall q n, (q * n) mod c = (q mod c * (n mod c)) mod c.
Proof. intros. apply Z.mul_mod. lia. Qed.
Lemma hits : forall n e, (Z.gcd n c | e) -> exists g, 0 <= g < period_of c n /\ forall q, 0 <= q -> ((q * n) mod c = e mod c <-> q mod period_of c n = g).
Proof.
  intros n e D. apply gcd_divides in D. pose proof Table as T. unfold hit_table in T.
  apply (proj1 (all_forall _ _)) with (x := n mod c) in T; [|apply in_upto, Z.mod_pos_bound; lia].
  apply (proj1 (all_forall _ _)) with (x := e mod c) in T; [|apply in_upto, Z.mod_pos_bound; lia].
  rewrite gcd_round, (proj2 (Z.eqb_eq _ _) D) in T. apply some_exists in T. destruct T as (g & Ig & T). apply in_upto in Ig.
  assert (Ep : period_of c (n mod c) = period_of c n) by (unfold period_of; rewrite gcd_round; reflexivity).
  rewrite Ep in Ig. exists g. split; [exact Ig|]. intros q Hq. unfold hit_at in T. rewrite Ep in T.
  apply (proj1 (all_forall _ _)) with (x := q mod c) in T; [|apply in_upto, Z.mod_pos_bound; lia]. apply Bool.eqb_prop in T.
  rewrite <- round_mul in T.
  assert (Eq : (q mod c) mod period_of c n = q mod period_of c n).
  { destruct (period_pos n) as [Pp [b Eb]]. set (p := period_of c n) in *. clearbody p. rewrite (Z.div_mod q c) at 2 by lia.
    replace (c * (q / c) + q mod c) with (q mod c + (b * (q / c)) * p) by (rewrite Eb at 3; ring). rewrite Z.mod_add by lia. reflexivity. }
  rewrite Eq in T. rewrite <- !Z.eqb_eq. rewrite T. reflexivity.
Qed.
Lemma misses : forall n e q, ~ (Z.gcd n c | e) -> (q * n) mod c <> e mod c.
Proof.
  intros n e q D H. apply D. exists (q * (n / Z.gcd n c) - (c / Z.gcd n c) * ((q * n) / c - e / c)).
  destruct (Z.gcd_divide_r n c) as [b Eb]. destruct (Z.gcd_divide_l n c) as [a Ea]. pose proof (gcd_pos n c Hc) as G. set (g := Z.gcd n c) in *. clearbody g.
  assert (D1 : n / g = a) by (rewrite Ea; apply Z.div_mul; lia). assert (D2 : c / g = b) by (rewrite Eb; apply Z.div_mul; lia). rewrite D1, D2.
  pose proof (Z.div_mod (q * n) c ltac:(lia)) as M1. pose proof (Z.div_mod e c ltac:(lia)) as M2. rewrite H in M1.
  replace ((q * a - b * (q * n / c - e / c)) * g) with (q * (a * g) - (b * g) * (q * n / c - e / c)) by ring. rewrite <- Ea, <- Eb. lia.
Qed.
End Circle.

Section Often.
Variable md : mode.

Lemma nat_mod : forall i p g, 0 < p -> 0 <= g -> (Nat.eqb (i mod Z.to_nat p) (Z.to_nat g)) = (Z.of_nat i mod p =? g).
Proof.
  intros i p g Hp Hg. assert (E : Z.of_nat (i mod Z.to_nat p) = Z.of_nat i mod p) by (rewrite Nat2Z.inj_mod, Z2Nat.id by lia; reflexivity).
  destruct (Z.eqb_spec (Z.of_nat i mod p) g) as [Q|Q].
  - apply Nat.eqb_eq. apply Nat2Z.inj. rewrite E, Z2Nat.id by lia. exact Q.
  - apply Nat.eqb_neq. intro C. apply Q. rewrite <- E, C, Z2Nat.id; lia.
Qed.

(** ** Weekdays *)
Lemma day_items : forall m u n c it i, build m (mk u n) = Ok it -> dt_valid m = true -> clock_unit u = true -> n * unit_secs u = c * 86400 -> 0 <= c <= 30 ->
  inst m + Z.of_nat i * (c * 86400) < instant (max_year + 1) 1 1 0 0 0 ->
  exists x, nth_item (iter_next md) i it = Some (Ok (Moment x)) /\ dt_valid x = true /\ inst x = inst m + Z.of_nat i * (c * 86400) /\ (nano m = 0 -> nano x = 0).
Proof.
  intros m u n c it [|i] B Hm Hu Ec Hc R.
  - exists m. rewrite (build_first md _ _ _ B). split; [reflexivity|]. split; [exact Hm|]. split; [lia|tauto].
  - assert (Hn : 0 <= n) by (destruct u; cbn [clock_unit unit_secs] in *; try discriminate; lia).
    destruct (b_clock md m u n it (S i) B Hm Hu Hn ltac:(lia) ltac:(lia)) as (x & F & V & N0 & I); [rewrite <- Z.mul_assoc, Ec; exact R|].
    exists x. split; [exact F|]. split; [exact V|]. split; [rewrite I, <- Z.mul_assoc, Ec; reflexivity|intros _; exact N0].
Qed.
Lemma day_decides : forall m x d c i, dt_valid m = true -> dt_valid x = true -> inst x = inst m + i * (c * 86400) ->
  day_matches d (Moment x) = Ok ((i * c) mod 7 =? (wday_into d - weekday (year m) (month m) (day m)) mod 7).
Proof.
  intros m x d c i Hm V I. unfold day_matches. cbn [get_moment ok_or]. f_equal. unfold dt_weekday.
  rewrite (weekday_shift m x (i * c) Hm V) by (rewrite I; ring). pose proof (weekday_range (year m) (month m) (day m)) as Wb. set (w := weekday _ _ _) in *. clearbody w.
  assert (Db : 0 <= wday_into d < 7) by (destruct d; cbn; lia). set (q := i * c). clearbody q.
  destruct (Z.eqb_spec (wday_into d) ((w + q) mod 7)) as [Q|Q]; symmetry; [apply Z.eqb_eq|apply Z.eqb_neq]; lia.
Qed.
Lemma often_day_full : forall m u n c it d, build m (mk u n) = Ok it -> dt_valid m = true -> clock_unit u = true -> n * unit_secs u = c * 86400 -> 1 <= c <= 30 ->
  (Z.gcd c 7 | wday_into d - weekday (year m) (month m) (day m)) ->
  exists g, 0 <= g < 7 / Z.gcd c 7 /\ (g * c) mod 7 = (wday_into d - weekday (year m) (month m) (day m)) mod 7 /\ forall j fuel, (7 <= fuel)%nat ->
    let k := g + 7 / Z.gcd c 7 * Z.of_nat j in inst m + k * (c * 86400) < instant (max_year + 1) 1 1 0 0 0 ->
    exists x, nth_item (filter_next (iter_next md) fuel (day_matches d)) j it = Some (Ok (Moment x)) /\ dt_valid x = true /\ inst x = inst m + k * (c * 86400) /\ on_day d x = true /\ (nano m = 0 -> nano x = 0).
Proof.
  intros m u n c it d B Hm Hu Ec Hc D.
  destruct (hits 7 ltac:(lia) hit_7 c _ D) as (g & Hg & H). destruct (period_pos 7 ltac:(lia) c) as [Pp _]. fold (period_of 7 c) in *. set (p := period_of 7 c) in *.
  exists g. split; [exact Hg|]. split; [apply (H g); [lia|apply Z.mod_small; lia]|]. intros j fuel Hf k R.
  assert (Ek : Z.of_nat (Z.to_nat g + Z.to_nat p * j) = k) by (unfold k; lia).
  destruct (every_periodic iter (iter_next md) (day_matches d) it (Z.to_nat g) (Z.to_nat p) fuel j ltac:(lia) ltac:(lia)) with (j := j) as [E _]; [|lia|].
  - intros i Hi. destruct (day_items m u n c it i B Hm Hu Ec ltac:(lia)) as (x & F & V & I & _).
    + assert (Z.of_nat i <= k) by lia. assert (Z.of_nat i * (c * 86400) <= k * (c * 86400)) by nia. lia.
    + exists (Moment x). split; [exact F|]. rewrite (day_decides m x d c (Z.of_nat i) Hm V I). rewrite nat_mod by lia. f_equal.
      specialize (H (Z.of_nat i) ltac:(lia)). destruct (Z.eqb_spec ((Z.of_nat i * c) mod 7) ((wday_into d - weekday (year m) (month m) (day m)) mod 7)); symmetry; [apply Z.eqb_eq; tauto|apply Z.eqb_neq; tauto].
  - destruct (day_items m u n c it (Z.to_nat g + Z.to_nat p * j)%nat B Hm Hu Ec ltac:(lia)) as (x & F & V & I & N0); [rewrite Ek; exact R|].
    exists x. rewrite E, F. split; [reflexivity|]. split; [exact V|]. rewrite Ek in I. split; [exact I|]. split; [|exact N0].
    assert (K0 : 0 <= k) by (unfold k; nia).
    assert (Km : k mod p = g). { unfold k. rewrite Z.mul_comm, Z.mod_add by lia. apply Z.mod_small. lia. }
    apply (H k K0) in Km. unfold on_day. rewrite (weekday_shift m x (k * c) Hm V) by (rewrite I; ring).
    pose proof (weekday_range (year m) (month m) (day m)) as Wb. set (w := weekday _ _ _) in *. clearbody w. set (q := k * c) in *. clearbody q.
    assert (Db : 0 <= wday_into d < 7) by (destruct d; cbn; lia). clear - Km Wb Db. lia.
Qed.
Lemma often_day : forall m u n c it d, build m (mk u n) = Ok it -> dt_valid m = true -> clock_unit u = true -> n * unit_secs u = c * 86400 -> 1 <= c <= 30 ->
  (Z.gcd c 7 | wday_into d - weekday (year m) (month m) (day m)) ->
  exists g, 0 <= g < 7 / Z.gcd c 7 /\ forall j fuel, (7 <= fuel)%nat ->
    let k := g + 7 / Z.gcd c 7 * Z.of_nat j in inst m + k * (c * 86400) < instant (max_year + 1) 1 1 0 0 0 ->
    exists x, nth_item (filter_next (iter_next md) fuel (day_matches d)) j it = Some (Ok (Moment x)) /\ dt_valid x = true /\ inst x = inst m + k * (c * 86400) /\ on_day d x = true.
Proof.
  intros m u n c it d B Hm Hu Ec Hc D. destruct (often_day_full m u n c it d B Hm Hu Ec Hc D) as (g & Hg & _ & H). exists g. split; [exact Hg|].
  intros j fuel Hf k R. destruct (H j fuel Hf R) as (x & F & V & I & O & _). exists x. tauto.
Qed.
Lemma never_day : forall m u n c it d fuel j x, build m (mk u n) = Ok it -> dt_valid m = true -> clock_unit u = true -> n * unit_secs u = c * 86400 -> 1 <= c <= 30 ->
  ~ (Z.gcd c 7 | wday_into d - weekday (year m) (month m) (day m)) -> nth_item (filter_next (iter_next md) fuel (day_matches d)) j it <> Some (Ok x).
Proof.
  intros m u n c it d fuel j x B Hm Hu Ec Hc D E.
  assert (Hn : 0 <= n) by (destruct u; cbn [clock_unit unit_secs] in *; try discriminate; lia).
  assert (M : day_matches d x = Ok true) by (unfold nth_item in E; exact (every_ok _ _ _ _ _ _ E)).
  destruct (filter_from _ _ _ _ _ _ _ E) as [k K].
  destruct (Z_lt_le_dec (inst m + Z.of_nat k * (c * 86400)) (instant (max_year + 1) 1 1 0 0 0)) as [L|G].
  - destruct (day_items m u n c it k B Hm Hu Ec ltac:(lia) L) as (y & F & V & I & _). rewrite F in K. injection K as <-.
    rewrite (day_decides m y d c (Z.of_nat k) Hm V I) in M. injection M as M. apply Z.eqb_eq in M. exact (misses 7 ltac:(lia) c _ (Z.of_nat k) D M).
  - destruct (b_clock_beyond md m u n it k B Hm Hu Hn ltac:(lia)) as (a1 & a2 & a3 & a4 & a5 & a6 & F); [rewrite <- Z.mul_assoc, Ec; exact G|].
    rewrite (F k (le_n k)) in K. discriminate K.
Qed.

(** ** Months *)
Lemma month_items : forall m n it i, build m (Months n) = Ok it -> dt_valid m = true -> day m <= 28 -> 0 <= n ->
  month_index m + Z.of_nat i * n <= 12 * max_year + 11 ->
  exists x, nth_item (iter_next md) i it = Some (Ok (Moment x)) /\ dt_valid x = true /\ month_index x = month_index m + Z.of_nat i * n /\ day x = day m /\
    month x = (month m - 1 + Z.of_nat i * n) mod 12 + 1.
Proof.
  intros m n it [|i] B Hm Hd Hn R; destruct (valid_facts m Hm) as (Vy & Vmo & Vd & Vml & Vh & Vmi & Vs).
  - exists m. rewrite (build_first md _ _ _ B). split; [reflexivity|]. split; [exact Hm|]. split; [lia|]. split; [reflexivity|].
    replace (month m - 1 + Z.of_nat 0 * n) with (month m - 1) by lia. clear - Vmo. lia.
  - assert (0 <= Z.of_nat (S i) * n) by nia. pose proof (b_months md m n it (S i) B Hm Hd Hn) as F. cbv zeta in F.
    replace (year m * 12 + month m - 1 + Z.of_nat (S i) * n) with (month_index m + Z.of_nat (S i) * n) in F by (unfold month_index; lia).
    set (q := Z.of_nat (S i) * n) in *. clearbody q.
    eexists. split; [apply F; [lia|clear - R; lia]|]. unfold month_index in *. split; [|split; [|split; [reflexivity|]]]; cbn [in_month year month day hour minute second nano].
    + apply dt_valid_iff. cbn [in_month year month day hour minute second nano]. split; [clear - R H Vy Vmo; lia|]. split; [|lia]. apply date_exists_iff.
      pose proof (month_length_bounds ((12 * year m + month m - 1 + q) / 12) ((12 * year m + month m - 1 + q) mod 12 + 1) ltac:(clear; lia)). clear - Hd Vd H0. lia.
    + clear. lia.
    + clear. lia.
Qed.
Lemma month_decides : forall m x mo q, month x = (month m - 1 + q) mod 12 + 1 ->
  month_matches mo (Moment x) = Ok (q mod 12 =? (ymonth_into mo - month m) mod 12).
Proof.
  intros m x mo q V. unfold month_matches. cbn [get_moment ok_or]. f_equal. rewrite V.
  assert (Db : 1 <= ymonth_into mo <= 12) by (destruct mo; cbn; lia).
  destruct (Z.eqb_spec (ymonth_into mo) ((month m - 1 + q) mod 12 + 1)) as [Q|Q]; symmetry; [apply Z.eqb_eq|apply Z.eqb_neq]; lia.
Qed.
Lemma often_month : forall m n it mo, build m (Months n) = Ok it -> dt_valid m = true -> day m <= 28 -> 0 < n ->
  (Z.gcd n 12 | ymonth_into mo - month m) ->
  exists g, 0 <= g < 12 / Z.gcd n 12 /\ forall j fuel, (12 <= fuel)%nat ->
    let k := g + 12 / Z.gcd n 12 * Z.of_nat j in month_index m + k * n <= 12 * max_year + 11 ->
    exists x, nth_item (filter_next (iter_next md) fuel (month_matches mo)) j it = Some (Ok (Moment x)) /\ month_index x = month_index m + k * n /\ day x = day m /\ month x = ymonth_into mo.
Proof.
  intros m n it mo B Hm Hd Hn D.
  destruct (hits 12 ltac:(lia) hit_12 n _ D) as (g & Hg & H). destruct (period_pos 12 ltac:(lia) n) as [Pp _]. fold (period_of 12 n) in *. set (p := period_of 12 n) in *.
  exists g. split; [exact Hg|]. intros j fuel Hf k R.
  assert (Ek : Z.of_nat (Z.to_nat g + Z.to_nat p * j) = k) by (unfold k; lia).
  destruct (every_periodic iter (iter_next md) (month_matches mo) it (Z.to_nat g) (Z.to_nat p) fuel j ltac:(lia) ltac:(lia)) with (j := j) as [E _]; [|lia|].
  - intros i Hi. destruct (month_items m n it i B Hm Hd ltac:(lia)) as (x & F & V & _ & _ & I).
    + assert (Z.of_nat i <= k) by lia. assert (Z.of_nat i * n <= k * n) by nia. lia.
    + exists (Moment x). split; [exact F|]. rewrite (month_decides m x mo _ I). rewrite nat_mod by lia. f_equal.
      specialize (H (Z.of_nat i) ltac:(lia)). destruct (Z.eqb_spec ((Z.of_nat i * n) mod 12) ((ymonth_into mo - month m) mod 12)); symmetry; [apply Z.eqb_eq; tauto|apply Z.eqb_neq; tauto].
  - destruct (month_items m n it (Z.to_nat g + Z.to_nat p * j)%nat B Hm Hd ltac:(lia)) as (x & F & V & I & Dx & M); [rewrite Ek; exact R|].
    exists x. rewrite E, F. split; [reflexivity|]. rewrite Ek in *. split; [exact I|]. split; [exact Dx|].
    assert (K0 : 0 <= k) by (unfold k; nia).
    assert (Km : k mod p = g). { unfold k. rewrite Z.mul_comm, Z.mod_add by lia. apply Z.mod_small. lia. }
    apply (H k K0) in Km. rewrite M. set (q := k * n) in *. clearbody q.
    assert (Db : 1 <= ymonth_into mo <= 12) by (destruct mo; cbn; lia). destruct (valid_facts m Hm) as (_ & Vmo & _). clear - Km Vmo Db. lia.
Qed.
Lemma never_month : forall m n it mo fuel j x, build m (Months n) = Ok it -> dt_valid m = true -> nano m = 0 -> day m <= 28 -> 0 < n -> n * unit_secs UMonth <= span32 ->
  ~ (Z.gcd n 12 | ymonth_into mo - month m) -> nth_item (filter_next (iter_next md) fuel (month_matches mo)) j it <> Some (Ok (Moment x)).
Proof.
  intros m n it mo fuel j x B Hm N0 Hd Hn Hs D E.
  assert (M : month_matches mo (Moment x) = Ok true) by (unfold nth_item in E; exact (every_ok _ _ _ _ _ _ E)).
  destruct (filter_from _ _ _ _ _ _ _ E) as [k K].
  destruct (month_item md m n it k x B Hm N0 Hd Hn Hs K) as [R _].
  destruct (month_items m n it k B Hm Hd ltac:(lia) R) as (y & F & _ & _ & _ & I). rewrite F in K. injection K as <-.
  rewrite (month_decides m y mo _ I) in M. injection M as M. apply Z.eqb_eq in M. exact (misses 12 ltac:(lia) n _ (Z.of_nat k) D M).
Qed.
End Often.
