(** Iterations by months and years that keep the day for good: the items. *)
Require Import ZArith Znumtheory Bool List Lia ZifyBool.
From Verif Require Import Prelude Spec Chrono Util TimeType Matcher Iter SpecTree SpecMoment SpecIter SpecExact SpecForever PreludeProofs EvalProofs AmountProofs
  ShapeProofs CompProofs CalendarProofs OrdProofs AddProofs AddProofs2 IterProofs IterProofs2 IterProofs3 VisitProofs ExactProofs ExactProofs5 AlwaysProofs SoonerProofs ForeverProofs.
Import ListNotations.
Local Open Scope Z_scope.
Local Ltac Zify.zify_post_hook ::= Z.to_euclidean_division_equations.

Section Forever.
Variable md : mode.

(** ** Years *)
Lemma years_kept : forall m n it k, build m (Years n) = Ok it -> dt_valid m = true -> month m = 2 -> day m = 29 -> (1 <= k)%nat -> 0 <= n ->
  year m + Z.of_nat k * n <= max_year -> (forall j, (1 <= j <= k)%nat -> leap (year m + Z.of_nat j * n) = true) ->
  nth_item (iter_next md) k it = Some (Ok (Moment (mkdt (year m + Z.of_nat k * n) 2 29 (hour m) (minute m) (second m) 0))).
Proof.
  intros m n it k B Hm M D Hk Hn Hr Hl. apply (build_at m UYear) in B. subst it. destruct (valid_facts m Hm) as (Vy & Vmo & Vd & Vml & Vh & Vmi & Vs).
  apply (follow_item md UYear n m (fun k => mkdt (year m + Z.of_nat k * n) 2 29 (hour m) (minute m) (second m) 0) k k); [|lia].
  intros x Hx. cbn [mk]. assert (R : Z.of_nat (S x) * n <= Z.of_nat k * n) by nia. pose proof (Hl (S x) ltac:(lia)) as L1.
  replace (Z.of_nat (S x) * n) with (Z.of_nat x * n + n) in * by lia. assert (0 <= Z.of_nat x * n) by nia.
  destruct x as [|x].
  - rewrite add_years_in_range; [|assumption|lia]. rewrite M, D. cbn [andb Z.eqb Pos.eqb]. replace (year m + (Z.of_nat 0 * n + n)) with (year m + n) in * by lia.
    rewrite L1. reflexivity.
  - pose proof (Hl (S x) ltac:(lia)) as L0.
    assert (V : dt_valid (mkdt (year m + Z.of_nat (S x) * n) 2 29 (hour m) (minute m) (second m) 0) = true).
    { apply dt_valid_iff. cbn [year month day hour minute second nano]. split; [lia|]. split; [|lia]. apply date_exists_iff.
      change (month_length (year m + Z.of_nat (S x) * n) 2) with (if leap (year m + Z.of_nat (S x) * n) then 29 else 28). rewrite L0. lia. }
    rewrite add_years_in_range; [|exact V|cbn [year]; lia]. cbn [year month day hour minute second andb Z.eqb Pos.eqb].
    replace (year m + Z.of_nat (S x) * n + n) with (year m + (Z.of_nat (S x) * n + n)) by lia. rewrite L1. reflexivity.
Qed.

Lemma forever_years : forall m n it, build m (Years n) = Ok it -> dt_valid m = true -> 0 <= n <= 2000 -> year m <= 50000 ->
  ((forall k, year m + Z.of_nat k * n <= max_year ->
      exists x, nth_item (iter_next md) k it = Some (Ok (Moment x)) /\ year x = year m + Z.of_nat k * n /\ month x = month m /\ day x = day m) <->
   ~ (month m = 2 /\ day m = 29) \/ stays_leap (year m) n).
Proof.
  intros m n it B Hm Hn Hy. destruct (valid_facts m Hm) as (Vy & Vmo & Vd & Vml & Vh & Vmi & Vs). split.
  - intro A. assert (C : (month m = 2 /\ day m = 29) \/ ~ (month m = 2 /\ day m = 29)) by lia. destruct C as [[M D]|C]; [right|left; exact C].
    assert (L0 : leap (year m) = true).
    { rewrite M in Vml. change (month_length (year m) 2) with (if leap (year m) then 29 else 28) in Vml. destruct (leap (year m)); [reflexivity|lia]. }
    apply stays_table. intros t Ht.
    assert (S : forall N j, (j <= N)%nat -> (j < 100)%nat -> leap (year m + Z.of_nat j * n) = true).
    { induction N as [|N IH]; intros j Lj Hj; [replace j with 0%nat by lia; replace (year m + Z.of_nat 0 * n) with (year m) by lia; exact L0|].
      destruct (Nat.eq_dec j (S N)) as [->|]; [|apply IH; lia].
      destruct (leap (year m + Z.of_nat (S N) * n)) eqn:F; [reflexivity|exfalso].
      assert (R : year m + Z.of_nat (S N) * n <= max_year) by (unfold max_year; nia). assert (0 <= Z.of_nat (S N) * n) by nia.
      destruct (A (S N) R) as (x & E & _ & Mx & _).
      rewrite (b_years_leap_day md m n it (S N) (S N) B Hm M D ltac:(lia) ltac:(lia)) in E; [| lia | intros j' J; apply IH; lia | exact F].
      rewrite Nat.ltb_irrefl in E. injection E as <-. cbn [month] in Mx. lia. }
    rewrite <- (Z2Nat.id t) by lia. apply (S (Z.to_nat t)); lia.
  - intros C [|k] R; [exists m; split; [exact (build_first md m _ it B)|lia]|].
    assert (0 <= Z.of_nat (S k) * n) by nia.
    assert (C' : (month m = 2 /\ day m = 29) \/ ~ (month m = 2 /\ day m = 29)) by lia. destruct C' as [[M D]|C'].
    + destruct C as [C|C]; [tauto|]. eexists. split; [apply (years_kept m n it (S k) B Hm M D); try lia|].
      * intros j Hj. apply stays_leap_all; [exact C|lia].
      * cbn [year month day]. lia.
    + eexists. split; [apply (b_years md m n it (S k) B Hm C'); lia|]. cbn [year month day]. lia.
Qed.

(** ** Months *)
Lemma keeps_fits : forall m n it, build m (Months n) = Ok it -> dt_valid m = true -> 0 <= n <= 2000 -> year m <= 50000 ->
  (forall k, month_index m + Z.of_nat k * n < 12 * max_year + 11 ->
      exists x, nth_item (iter_next md) k it = Some (Ok (Moment x)) /\ month_index x = month_index m + Z.of_nat k * n /\ day x = day m) ->
  forall j, (1 <= j < 1200)%nat -> fits n (month_index m + Z.of_nat j * n) (day m) = true.
Proof.
  intros m n it B Hm Hn Hy A. destruct (valid_facts m Hm) as (Vy & Vmo & Vd & Vml & Vh & Vmi & Vs).
  assert (E0 : forall k, year m * 12 + month m - 1 + k = month_index m + k) by (intro; unfold month_index; lia).
  assert (S : forall N j, (1 <= j <= N)%nat -> (j < 1200)%nat -> fits n (month_index m + Z.of_nat j * n) (day m) = true).
  { induction N as [|N IH]; intros j Lj Hj; [lia|]. destruct (Nat.eq_dec j (S N)) as [->|]; [|apply IH; lia].
    assert (R : month_index m + Z.of_nat (S N) * n < 12 * max_year + 11) by (unfold month_index, max_year; nia). assert (0 <= Z.of_nat (S N) * n) by nia.
    destruct (A (S N) R) as (x & E & Ix & Dx).
    unfold fits. destruct (day m <=? seen_length n (month_index m + Z.of_nat (S N) * n)) eqn:C1.
    - destruct (day m <=? month_length ((month_index m + Z.of_nat (S N) * n) / 12) ((month_index m + Z.of_nat (S N) * n) mod 12 + 1)) eqn:C2; [reflexivity|exfalso].
      destruct (b_months_fail md m n it (S N) B Hm ltac:(lia) ltac:(unfold in_i64, i64_min, i64_max; lia) ltac:(lia)) as (? & ? & ? & ? & ? & ? & F);
        rewrite ?E0; [lia| |lia|lia|].
      + intros j' J. rewrite E0. apply IH; lia.
      + rewrite (F (S N) ltac:(lia)) in E. discriminate E.
    - exfalso. destruct (b_months_spill md m n it (S N) (S N) B Hm ltac:(lia) ltac:(lia)) as [_ F]; rewrite ?E0; [lia| |lia|].
      + intros j' J. rewrite E0. apply IH; lia.
      + rewrite !E0 in F. rewrite F in E. assert (X : month_index x = month_index m + Z.of_nat (S N) * n + 1).
        { pose proof (in_month_index (month_index m + Z.of_nat (S N) * n + 1) (day m - seen_length n (month_index m + Z.of_nat (S N) * n)) m) as Q.
          match type of E with Some (Ok (Moment ?a)) = _ => assert (Ea : a = x) by congruence end. rewrite Ea in Q. clear - Q. unfold month_index in *. lia. }
        lia. }
  intros j Hj. apply (S j); lia.
Qed.

Lemma february : forall i, month_length (i / 12) (i mod 12 + 1) = if i mod 12 =? 1 then if leap (i / 12) then 29 else 28 else month_length (i / 12) (i mod 12 + 1).
Proof. intro i. destruct (i mod 12 =? 1) eqn:E; [|reflexivity]. replace (i mod 12 + 1) with 2 by lia. reflexivity. Qed.
Lemma not_february : forall i, i mod 12 <> 1 -> 30 <= month_length (i / 12) (i mod 12 + 1).
Proof.
  intros i H. assert (B : 1 <= i mod 12 + 1 <= 12) by lia. set (c := i mod 12 + 1) in *. assert (c <> 2) by lia. clearbody c.
  assert (D : c = 1 \/ c = 3 \/ c = 4 \/ c = 5 \/ c = 6 \/ c = 7 \/ c = 8 \/ c = 9 \/ c = 10 \/ c = 11 \/ c = 12) by lia.
  repeat (destruct D as [->|D]; [vm_compute; discriminate|]). subst c. vm_compute. discriminate.
Qed.

(** Months at steps of [n] reach February. *)
Lemma reaches : forall i n, (Z.gcd n 12 | i mod 12 - 1) -> exists k, (1 <= k <= 12)%nat /\ (i + Z.of_nat k * n) mod 12 = 1.
Proof.
  intros i n [q Q]. destruct (Z.gcd_bezout n 12 _ eq_refl) as (a & b & AB). set (g := Z.gcd n 12) in *. clearbody g.
  set (k0 := - (q * a)). set (k := (k0 - 1) mod 12 + 1).
  assert (K : exists c, k = k0 + 12 * c) by (exists (- ((k0 - 1) / 12)); unfold k; lia).
  exists (Z.to_nat k). assert (1 <= k <= 12) by (unfold k; lia). split; [lia|]. rewrite Z2Nat.id by lia. destruct K as [c ->].
  assert (E : i + (k0 + 12 * c) * n = 1 + (i / 12 + q * b + c * n) * 12).
  { pose proof (Z.div_mod i 12 ltac:(lia)) as DM. unfold k0. assert (F : i mod 12 = 1 + q * (a * n + b * 12)) by (rewrite AB; lia). rewrite DM at 1. rewrite F. ring. }
  rewrite E, Z.mod_add by lia. reflexivity.
Qed.
Lemma reached : forall i n k, (i + k * n) mod 12 = 1 -> (Z.gcd n 12 | i mod 12 - 1).
Proof.
  intros i n k H. destruct (Z.gcd_divide_l n 12) as [a A]. destruct (Z.gcd_divide_r n 12) as [b B]. set (g := Z.gcd n 12) in *. clearbody g.
  pose proof (Z.div_mod i 12 ltac:(lia)) as D1. pose proof (Z.div_mod (i + k * n) 12 ltac:(lia)) as D2. rewrite H in D2.
  exists (b * ((i + k * n) / 12 - i / 12) - k * a).
  replace ((b * ((i + k * n) / 12 - i / 12) - k * a) * g) with (b * g * ((i + k * n) / 12 - i / 12) - k * (a * g)) by ring. rewrite <- A, <- B. lia.
Qed.

Lemma month_index_mod : forall m, dt_valid m = true -> month_index m mod 12 - 1 = month m - 2.
Proof. intros m Hm. destruct (valid_facts m Hm) as (_ & Vmo & _). unfold month_index. lia. Qed.

Lemma forever_months : forall m n it, build m (Months n) = Ok it -> dt_valid m = true -> 0 <= n <= 2000 -> year m <= 50000 ->
  ((forall k, month_index m + Z.of_nat k * n < 12 * max_year + 11 ->
      exists x, nth_item (iter_next md) k it = Some (Ok (Moment x)) /\ month_index x = month_index m + Z.of_nat k * n /\ day x = day m) <->
   day m <= 28 \/ n = 0 \/ (day m <= 30 /\ ~ (Z.gcd n 12 | month m - 2)) \/
   (day m = 29 /\ forall k, (k < 12)%nat -> (month_index m + Z.of_nat k * n) mod 12 = 1 -> stays_leap ((month_index m + Z.of_nat k * n) / 12) (n / Z.gcd n 12))).
Proof.
  intros m n it B Hm Hn Hy. destruct (valid_facts m Hm) as (Vy & Vmo & Vd & Vml & Vh & Vmi & Vs).
  pose proof (gcd_pos n 12 ltac:(lia)) as G. destruct (Z.gcd_divide_l n 12) as [qn Qn]. destruct (Z.gcd_divide_r n 12) as [b Qb].
  assert (Qd : n / Z.gcd n 12 = qn) by (rewrite Qn at 1; apply Z.div_mul; lia).
  split.
  - intro A. pose proof (keeps_fits m n it B Hm Hn Hy A) as F.
    destruct (Z_le_gt_dec (day m) 28) as [|D]; [left; assumption|right].
    destruct (Z.eq_dec n 0) as [|N0]; [left; assumption|right].
    assert (Fl : forall j, (1 <= j < 1200)%nat -> day m <= month_length ((month_index m + Z.of_nat j * n) / 12) ((month_index m + Z.of_nat j * n) mod 12 + 1)).
    { intros j Hj. pose proof (F j Hj) as X. unfold fits in X. lia. }
    assert (D30 : day m <= 30).
    { destruct (Z_le_gt_dec (day m) 30) as [|D31]; [assumption|exfalso].
      assert (P : forall j, (j < 1200)%nat -> (month_index m + Z.of_nat j * n) / 12 = month_index m / 12).
      { induction j as [|j IH]; intro Hj; [f_equal; lia|]. rewrite <- IH by lia. pose proof (F (S j) ltac:(lia)) as X. unfold fits, seen_length, passes_year in X.
        replace (month_index m + Z.of_nat (S j) * n - n) with (month_index m + Z.of_nat j * n) in X by lia.
        destruct ((month_index m + Z.of_nat j * n) / 12 <? (month_index m + Z.of_nat (S j) * n) / 12) eqn:C; [lia|].
        assert (month_index m + Z.of_nat j * n <= month_index m + Z.of_nat (S j) * n) by lia. lia. }
      pose proof (P 12%nat ltac:(lia)). lia. }
    destruct (Zdivide_dec (Z.gcd n 12) (month m - 2)) as [Y|N]; [right|left; split; assumption].
    assert (D29 : day m = 29).
    { rewrite <- (month_index_mod m Hm) in Y. destruct (reaches _ _ Y) as (k & Hk & K). pose proof (Fl k ltac:(lia)) as X. rewrite february, K in X. cbn [Z.eqb Pos.eqb] in X.
      destruct (leap _); lia. }
    split; [exact D29|]. intros k Hk K. rewrite Qd. apply stays_table. intros t Ht.
    set (j := (k + Z.to_nat (t * b))%nat).
    assert (Hb : 1 <= b <= 12) by nia.
    assert (Ej : month_index m + Z.of_nat j * n = 12 * ((month_index m + Z.of_nat k * n) / 12 + t * qn) + 1).
    { unfold j. rewrite Nat2Z.inj_add, Z2Nat.id by nia. pose proof (Z.div_mod (month_index m + Z.of_nat k * n) 12 ltac:(lia)) as DM. rewrite K in DM.
      assert (t * b * n = 12 * (t * qn)). { rewrite Qn at 1. replace (t * b * (qn * Z.gcd n 12)) with (t * qn * (b * Z.gcd n 12)) by ring. rewrite <- Qb. ring. }
      lia. }
    assert (Hj : (j < 1200)%nat). { assert (t * b <= 1188) by nia. unfold j. lia. }
    assert (X : 29 <= month_length ((month_index m + Z.of_nat j * n) / 12) ((month_index m + Z.of_nat j * n) mod 12 + 1)).
    { destruct j as [|j]; [|rewrite <- D29; apply Fl; lia].
      replace (month_index m + Z.of_nat 0 * n) with (month_index m) by lia. unfold month_index.
      replace ((12 * year m + month m - 1) / 12) with (year m) by lia. replace ((12 * year m + month m - 1) mod 12 + 1) with (month m) by lia. lia. }
    rewrite Ej in X. set (c := (month_index m + Z.of_nat k * n) / 12 + t * qn) in *. clearbody c.
    replace ((12 * c + 1) / 12) with c in X by (clear; lia). replace ((12 * c + 1) mod 12) with 1 in X by (clear; lia).
    change (month_length c (1 + 1)) with (if leap c then 29 else 28) in X. clear - X. destruct (leap c); [reflexivity|lia].
  - intros C [|k] R; [exists m; split; [exact (build_first md m _ it B)|lia]|].
    assert (Fj : forall j, (1 <= j <= S k)%nat -> fits n (month_index m + Z.of_nat j * n) (day m) = true).
    { intros j Hj. set (i := month_index m + Z.of_nat j * n) in *.
      assert (L : day m <= month_length (i / 12) (i mod 12 + 1)).
      { pose proof (month_length_bounds (i / 12) (i mod 12 + 1) ltac:(lia)) as Lb.
        destruct C as [C|[C|[[C N]|[C S]]]]; [lia| | |].
        - subst n. unfold i, month_index. replace (12 * year m + month m - 1 + Z.of_nat j * 0) with (12 * year m + month m - 1) by lia.
          replace ((12 * year m + month m - 1) / 12) with (year m) by lia. replace ((12 * year m + month m - 1) mod 12 + 1) with (month m) by lia. lia.
        - assert (i mod 12 <> 1). { intro K. apply N. rewrite <- (month_index_mod m Hm). exact (reached _ _ _ K). }
          pose proof (not_february i ltac:(assumption)). lia.
        - destruct (Z.eq_dec (i mod 12) 1) as [K|K]; [|pose proof (not_february i K); lia].
          rewrite february, K. cbn [Z.eqb Pos.eqb].
          set (t := Z.of_nat j / 12). set (r := Z.to_nat (Z.of_nat j mod 12)).
          assert (Er : Z.of_nat j = Z.of_nat r + t * 12) by (unfold r, t; lia).
          assert (Ei : i = month_index m + Z.of_nat r * n + t * n * 12) by (unfold i; rewrite Er; ring).
          assert (Kr : (month_index m + Z.of_nat r * n) mod 12 = 1). { rewrite <- K, Ei, Z.mod_add by lia. reflexivity. }
          pose proof (S r ltac:(unfold r; lia) Kr) as St. rewrite Qd in St.
          assert (Ly : leap (i / 12) = true).
          { rewrite Ei, Z.div_add by lia. replace (t * n) with (t * Z.gcd n 12 * qn) by (rewrite Qn at 2; ring). apply stays_leap_all; [exact St|]. apply Z.mul_nonneg_nonneg; [apply Z.div_pos; clear; lia|apply Z.gcd_nonneg]. }
          rewrite Ly. lia. }
      unfold fits. apply andb_true_intro. split; [|lia]. unfold seen_length. destruct (passes_year n i) eqn:P; [|lia].
      destruct C as [C|[C|[[C N]|[C S]]]]; try lia.
      subst n. unfold passes_year in P. replace (i - 0) with i in P by lia. lia. }
    assert (0 <= Z.of_nat (S k) * n) by nia.
    assert (E0 : forall k, year m * 12 + month m - 1 + k = month_index m + k) by (intro; unfold month_index; lia).
    pose proof (b_months_keep md m n it (S k) B Hm ltac:(lia) ltac:(lia)) as X. cbv beta zeta in X. rewrite E0 in X.
    exists (in_month (month_index m + Z.of_nat (S k) * n) (day m) m). split; [apply X; [lia|]|].
    + intros j Hj. rewrite E0. apply Fj. exact Hj.
    + split; [unfold month_index at 1, in_month; cbn [year month]; lia|reflexivity].
Qed.
End Forever.
