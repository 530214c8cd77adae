(** Which steps are right from every moment. *)
Require Import ZArith Znumtheory Bool List Lia ZifyBool.
From Verif Require Import Prelude Spec Chrono Util TimeType Iter SpecTree SpecMoment SpecIter SpecExact SpecOff PreludeProofs EvalProofs AmountProofs ShapeProofs CompProofs CalendarProofs
  AddProofs AddProofs2 SubProofs SubProofs2 FarProofs IterProofs IterProofs2 VisitProofs ExactProofs ExactProofs4 ExactProofs5 MeetProofs OffProofs SeqProofs.
Local Open Scope Z_scope.
Local Ltac Zify.zify_post_hook ::= Z.to_euclidean_division_equations.

Section Always.
Variable md : mode.

Lemma short_step : forall u n m, clock_unit u = true -> 0 <= n -> n * unit_secs u <= 30 * 86400 -> dt_valid m = true ->
  inst m + n * unit_secs u < instant (max_year + 1) 1 1 0 0 0 ->
  exists x, calculate md (Addition (Moment m) (mk u n)) = Ok (Moment x) /\ inst x = inst m + n * unit_secs u.
Proof.
  intros u n m Hu Hn Hs Hm Hr. apply (add_exact_iff md m u n Hm Hu Hn ltac:(unfold span32; lia)). split; [|exact Hr].
  left. unfold days_past. pose proof (inst_year_end m Hm) as E. unfold instant in E. rewrite !day_number_jan in *. lia.
Qed.
Lemma long_step : forall u n, clock_unit u = true -> 0 <= n -> 30 * 86400 < n * unit_secs u -> n * unit_secs u < instant (max_year + 1) 1 1 0 0 0 - instant (min_year + 1) 1 1 0 0 0 ->
  exists m, dt_valid m = true /\ inst m + n * unit_secs u < instant (max_year + 1) 1 1 0 0 0 /\
    forall x, calculate md (Addition (Moment m) (mk u n)) = Ok (Moment x) -> inst x <> inst m + n * unit_secs u.
Proof.
  intros u n Hu Hn Hl Hr. set (S := n * unit_secs u) in *.
  assert (V1 : instant (max_year + 1) 1 1 0 0 0 = 8272434096000) by (vm_compute; reflexivity).
  assert (V2 : instant (min_year + 1) 1 1 0 0 0 = -8272465545600) by (vm_compute; reflexivity).
  assert (Sp : S <= span32) by (rewrite V1, V2 in Hr; unfold span32; lia).
  assert (Q : forall m, dt_valid m = true -> ~ lands (year m + 1) (days_past u n m) -> forall x, calculate md (Addition (Moment m) (mk u n)) = Ok (Moment x) -> inst x <> inst m + S).
  { intros m Hm N x E I. apply N. apply (add_exact_iff md m u n Hm Hu Hn Sp). eauto. }
  assert (D : forall m d, inst m + S = (day_number (year m + 1) 1 1 + d) * 86400 + (inst m + S) mod 86400 -> days_past u n m = d).
  { intros m d I. unfold days_past. fold S. clear - I. lia. }
  destruct (Z_le_gt_dec S (365 * 86400)) as [L|G].
  - destruct (in_the_year md 2014 (395 * 86400 - S) ltac:(unfold min_year, max_year; lia)) as (m & Hm & _ & Y & I).
    { change (year_length 2014) with 365. lia. }
    replace (instant 2014 1 1 0 0 0) with 63524217600 in I by (vm_compute; reflexivity).
    exists m. split; [exact Hm|]. split; [lia|]. apply Q; [exact Hm|]. rewrite (D m 30); [intros [A|[[_ A]|[_ A]]]; lia|].
    rewrite Y. replace (day_number (2014 + 1) 1 1) with 735599 by (vm_compute; reflexivity). lia.
  - destruct (in_the_year md min_year (366 * 86400 - 1) ltac:(unfold min_year, max_year; lia)) as (m & Hm & _ & Y & I).
    { change (year_length min_year) with 366. lia. }
    replace (instant min_year 1 1 0 0 0) with (-8272497168000) in I by (vm_compute; reflexivity).
    exists m. split; [exact Hm|]. split; [lia|]. apply Q; [exact Hm|]. rewrite (D m ((S - 1) / 86400)); [intros [A|[[_ A]|[_ A]]]; lia|].
    rewrite Y. replace (day_number (min_year + 1) 1 1) with (-95746129) by (vm_compute; reflexivity). lia.
Qed.
Lemma always_add : forall u n, clock_unit u = true -> 0 <= n -> n * unit_secs u < instant (max_year + 1) 1 1 0 0 0 - instant (min_year + 1) 1 1 0 0 0 ->
  ((forall m, dt_valid m = true -> inst m + n * unit_secs u < instant (max_year + 1) 1 1 0 0 0 ->
      exists x, calculate md (Addition (Moment m) (mk u n)) = Ok (Moment x) /\ inst x = inst m + n * unit_secs u) <->
   n * unit_secs u <= 30 * 86400).
Proof.
  intros u n Hu Hn Hr. split; [|intros Hs m; apply short_step; assumption].
  intro A. destruct (Z_le_gt_dec (n * unit_secs u) (30 * 86400)) as [L|G]; [exact L|exfalso].
  destruct (long_step u n Hu Hn ltac:(lia) Hr) as (m & Hm & R & N). destruct (A m Hm R) as (x & E & I). exact (N x E I).
Qed.
Lemma build_mk : forall m u n, exists it, build m (mk u n) = Ok it.
Proof. intros m u n. destruct u; eexists; reflexivity. Qed.
Lemma always_iter : forall u n, clock_unit u = true -> 0 <= n -> n * unit_secs u < instant (max_year + 1) 1 1 0 0 0 - instant (min_year + 1) 1 1 0 0 0 ->
  ((forall m it k, build m (mk u n) = Ok it -> dt_valid m = true -> inst m + Z.of_nat k * (n * unit_secs u) < instant (max_year + 1) 1 1 0 0 0 ->
      exists x, nth_item (iter_next md) k it = Some (Ok (Moment x)) /\ inst x = inst m + Z.of_nat k * (n * unit_secs u)) <->
   n * unit_secs u <= 30 * 86400).
Proof.
  intros u n Hu Hn Hr. split.
  - intro A. apply (always_add u n Hu Hn Hr). intros m Hm R. destruct (build_mk m u n) as [it B].
    destruct (A m it 1%nat B Hm ltac:(lia)) as (x & E & I).
    exists x. split; [|lia].
    destruct (from_before md m u n it 0%nat x B Hm Hn) as (y & _ & F & C); [|exact E|].
    + replace (instant (max_year + 1) 1 1 0 0 0) with 8272434096000 in Hr by (vm_compute; reflexivity).
      replace (instant (min_year + 1) 1 1 0 0 0) with (-8272465545600) in Hr by (vm_compute; reflexivity). unfold span32. lia.
    + rewrite (build_first md m _ it B) in F. injection F as <-. exact C.
  - intros Hs m it [|k] B Hm R.
    + exists m. split; [exact (build_first md m _ it B)|lia].
    + destruct (b_clock md m u n it (S k) B Hm Hu Hn Hs ltac:(lia)) as (x & E & _ & _ & I); [lia|]. exists x. split; [exact E|lia].
Qed.

Lemma always_sub : forall u n, clock_unit u = true -> 0 <= n < 2147483648 -> n * unit_secs u <= instant max_year 3 1 0 0 0 - instant min_year 1 1 0 0 0 ->
  ((forall m, dt_valid m = true -> instant min_year 1 1 0 0 0 <= inst m - n * unit_secs u ->
      exists x, calculate md (Subtraction (Moment m) (mk u n)) = Ok (Moment x) /\ inst x = inst m - n * unit_secs u) <-> n = 0).
Proof.
  intros u n Hu Hn Hr. split.
  - intro A. destruct (Z.eq_dec n 0) as [|N]; [assumption|exfalso].
    set (m := mkdt max_year 3 1 0 0 0 0) in *. assert (Hm : dt_valid m = true) by (vm_compute; reflexivity).
    destruct (A m Hm) as (x & E & I); [change (inst m) with (instant max_year 3 1 0 0 0); lia|].
    rewrite (sub_off md m u n x Hm Hu Hn E) in I.
    assert (L : sub_late u n m <> 0); [|lia]. unfold sub_late.
    replace (let '(py, pm) := prev_month (year m) (month m) in month_length py pm) with 28 by (vm_compute; reflexivity).
    change (day m) with 1. change (sod m) with 0. cbv zeta.
    destruct (sub_skips u n m); destruct u; try discriminate Hu; cbn [modulus unit_secs];
      match goal with |- context [if ?c then _ else _] => replace c with false by lia end; lia.
  - intros -> m Hm _. assert (Z0 : calculate md (Subtraction (Moment m) (mk u 0)) = Ok (Moment (whole_second m))).
    { apply zero_tree; destruct u; try discriminate Hu; try reflexivity; try exact Hm; vm_compute; discriminate. }
    exists (whole_second m). split; [exact Z0|]. unfold inst, whole_second. cbn. lia.
Qed.

(** Months and years. *)
Lemma has_day : forall x, dt_valid x = true -> day x <= index_length (month_index x).
Proof.
  intros x V. destruct (valid_facts x V) as (Vy & Vmo & Vd & Vml & _). unfold index_length, month_index.
  replace ((12 * year x + month x - 1) / 12) with (year x) by lia. replace ((12 * year x + month x - 1) mod 12 + 1) with (month x) by lia. exact Vml.
Qed.
Lemma at_valid_index : forall i d, 12 * min_year <= i <= 12 * max_year + 11 -> 1 <= d <= index_length i ->
  let m := mkdt (i / 12) (i mod 12 + 1) d 0 0 0 0 in dt_valid m = true /\ month_index m = i /\ day m = d.
Proof.
  intros i d Hi Hd m. unfold index_length in Hd. split; [|split; [unfold m, month_index; cbn [year month]; lia|reflexivity]].
  apply dt_valid_iff. unfold m. cbn [year month day hour minute second nano]. split; [lia|]. split; [apply date_exists_iff; lia|]. lia.
Qed.
Lemma feb : forall i, i mod 12 = 1 -> index_length i = if leap (i / 12) then 29 else 28.
Proof. intros i H. unfold index_length. rewrite H. rewrite month_length_val by lia. reflexivity. Qed.
Lemma not_feb : forall i, i mod 12 <> 1 -> 30 <= index_length i.
Proof.
  intros i H. unfold index_length. rewrite month_length_val by lia. replace (i mod 12 + 1 =? 2) with false by lia.
  destruct (_ || _); lia.
Qed.
Lemma odd_common : forall y, y mod 2 <> 0 -> leap y = false.
Proof. intros y H. unfold leap. replace (y mod 4 =? 0) with false by lia. reflexivity. Qed.
Lemma leap_400 : forall y q, leap (y + 400 * q) = leap y.
Proof.
  intros y q. unfold leap. replace ((y + 400 * q) mod 4) with (y mod 4) by lia. replace ((y + 400 * q) mod 100) with (y mod 100) by lia.
  replace ((y + 400 * q) mod 400) with (y mod 400) by lia. reflexivity.
Qed.
(** A leap year from which [b] years lead to a common one. *)
Definition from_leap (b : Z) : Z := if (b mod 4 =? 0) && negb (b mod 100 =? 0) then (100 - b) mod 400 else 0.
Lemma from_leap_all : forallb (fun k => let b := Z.of_nat k in leap (from_leap b) && negb (leap (from_leap b + b))) (seq 1 399) = true.
Proof. vm_compute. reflexivity. Qed.
Lemma leap_away : forall k, ~ (400 | k) -> exists r, 0 <= r < 400 /\ leap (-262000 + r) = true /\ leap (-262000 + r + k) = false /\ leap (261200 + r) = true /\ leap (261200 + r + k) = false.
Proof.
  intros k N. assert (K : k mod 400 <> 0) by (intro E; apply N; exists (k / 400); lia). clear N.
  pose proof (Z.mod_pos_bound k 400 ltac:(lia)) as B. pose proof (Z.div_mod k 400 ltac:(lia)) as D. set (b := k mod 400) in *. set (q := k / 400) in *. clearbody b q.
  pose proof from_leap_all as A. rewrite forallb_forall in A. specialize (A (Z.to_nat b)). cbv zeta in A. rewrite Z2Nat.id in A by lia.
  specialize (A ltac:(apply in_seq; lia)). apply andb_true_iff in A as [A1 A2]. apply negb_true_iff in A2.
  exists (from_leap b). set (r := from_leap b) in *. split; [subst r; unfold from_leap; destruct (_ && _); [apply Z.mod_pos_bound|]; lia|]. clearbody r.
  replace (-262000 + r) with (r + 400 * -655) by lia. replace (261200 + r) with (r + 400 * 653) by lia.
  replace (r + 400 * -655 + k) with (r + b + 400 * (q - 655)) by lia. replace (r + 400 * 653 + k) with (r + b + 400 * (q + 653)) by lia.
  rewrite !leap_400. auto.
Qed.

Lemma keep_months : forall m n, dt_valid m = true -> 0 <= n -> month_index m + n < 12 * max_year + 11 ->
  day m <= 28 \/ n = 0 \/ (day m = 30 /\ (12 | n)) \/ (day m = 29 /\ (4800 | n)) ->
  exists x, calculate md (Addition (Moment m) (Months n)) = Ok (Moment x) /\ month_index x = month_index m + n /\ day x = day m.
Proof.
  intros m n Hm Hn Hr C. destruct (valid_facts m Hm) as (Vy & Vmo & Vd & Vml & Vh & Vmi & Vs).
  pose proof (has_day m Hm) as Hd. rewrite (months_step md m n Hm Hn ltac:(lia)). unfold months_result.
  assert (B : 28 <= index_length (month_index m + n)) by (unfold index_length; apply month_length_bounds; lia).
  assert (F : day m <= index_length (month_index m + n)).
  { destruct C as [C|[->|[[D [q ->]]|[D [q ->]]]]].
    - lia.
    - rewrite Z.add_0_r. exact Hd.
    - assert (N : month_index m mod 12 <> 1).
      { intro E. rewrite (feb _ E) in Hd. destruct (leap _); lia. }
      rewrite D. apply not_feb. lia.
    - destruct (Z.eq_dec (month_index m mod 12) 1) as [E|E]; [|pose proof (not_feb (month_index m + q * 4800) ltac:(lia)); lia].
      rewrite (feb _ E) in Hd. rewrite feb by lia.
      replace ((month_index m + q * 4800) / 12) with (month_index m / 12 + 400 * q) by lia.
      assert (P : leap (month_index m / 12 + 400 * q) = leap (month_index m / 12)) by (apply leap_400).
      rewrite P. exact Hd. }
  assert (S0 : spill UMonth n m = 0).
  { unfold spill. unfold index_length, month_index in F. destruct (month m + n <=? 12) eqn:C1.
    - replace ((12 * year m + month m - 1 + n) / 12) with (year m) in F by lia. replace ((12 * year m + month m - 1 + n) mod 12 + 1) with (month m + n) in F by lia. lia.
    - replace (day m =? 31) with false; [reflexivity|]. destruct C as [C|[C|[[D _]|[D _]]]]; lia. }
  rewrite S0. change (0 =? 0) with true. cbv iota. replace (day m <=? _) with true by lia.
  eexists. split; [reflexivity|]. unfold at_index, at_time, month_index. cbn [year month day]. split; lia.
Qed.
Lemma lose_months : forall n d, 0 <= n <= 12 * 500000 -> 29 <= d <= 31 -> n <> 0 -> ~ (d = 30 /\ (12 | n)) -> ~ (d = 29 /\ (4800 | n)) ->
  exists m, dt_valid m = true /\ day m = d /\ month_index m + n < 12 * max_year + 11 /\
    forall x, calculate md (Addition (Moment m) (Months n)) = Ok (Moment x) -> ~ (month_index x = month_index m + n /\ day x = d).
Proof.
  intros n d Hn Hd N N30 N29.
  assert (W : forall i, -3144000 <= i < -3139188 -> 1 <= d <= index_length i -> index_length (i + n) < d ->
    exists m, dt_valid m = true /\ day m = d /\ month_index m + n < 12 * max_year + 11 /\
      forall x, calculate md (Addition (Moment m) (Months n)) = Ok (Moment x) -> ~ (month_index x = month_index m + n /\ day x = d)).
  { intros i Hi Hl Hs. destruct (at_valid_index i d ltac:(unfold min_year, max_year; lia) Hl) as (V & I & D).
    eexists. split; [exact V|]. split; [exact D|]. rewrite I. split; [unfold max_year; lia|]. intros x E [Ix Dx].
    assert (Vx : dt_valid x = true).
    { refine (moment_valid md _ x _ E). apply (plus_ok _ UMonth); [exact V|]. apply in_i64_iff. unfold i64_min, i64_max. lia. }
    pose proof (has_day x Vx) as H. rewrite Ix, Dx in H. lia. }
  destruct (Z.eq_dec d 31) as [->|D31].
  - exists (mkdt (-262000) 12 31 0 0 0 0). assert (V : dt_valid (mkdt (-262000) 12 31 0 0 0 0) = true) by reflexivity.
    split; [exact V|]. split; [reflexivity|]. change (month_index (mkdt (-262000) 12 31 0 0 0 0)) with (-3143989). split; [unfold max_year; lia|].
    intros x E [Ix Dx].
    pose proof (months_step md _ n V ltac:(lia)) as Q. change (month_index (mkdt (-262000) 12 31 0 0 0 0)) with (-3143989) in Q.
    rewrite Q in E by (unfold max_year; lia). unfold months_result in E. change (day (mkdt (-262000) 12 31 0 0 0 0)) with 31 in E.
    replace (spill UMonth n (mkdt (-262000) 12 31 0 0 0 0)) with 1 in E.
    + change (1 =? 0) with false in E. cbv iota in E. apply ok_inj in E. rewrite <- E in Dx. unfold at_index, at_time in Dx. cbn [day] in Dx. clear - Dx. lia.
    + unfold spill. cbn [month day]. replace (12 + n <=? 12) with false by lia. reflexivity.
  - destruct (Z.eq_dec (n mod 12) 0) as [Z0|Z0].
    + assert (d = 29) as ->.
      { destruct (Z.eq_dec d 30) as [->|]; [|lia]. exfalso. apply N30. split; [reflexivity|]. exists (n / 12). lia. }
      destruct (leap_away (n / 12)) as (r & Hr & L1 & L2 & _).
      { intros [q Q]. apply N29. split; [reflexivity|]. exists q. lia. }
      apply (W (12 * (-262000 + r) + 1)); [lia| |].
      * rewrite feb by lia. replace ((12 * (-262000 + r) + 1) / 12) with (-262000 + r) by lia. rewrite L1. lia.
      * rewrite feb by lia. replace ((12 * (-262000 + r) + 1 + n) / 12) with (-262000 + r + n / 12) by lia. rewrite L2. lia.
    + assert (X : forall t, t mod 12 = 1 -> leap (t / 12) = false -> -3144000 <= t - n < -3139188 ->
        exists m, dt_valid m = true /\ day m = d /\ month_index m + n < 12 * max_year + 11 /\
          forall x, calculate md (Addition (Moment m) (Months n)) = Ok (Moment x) -> ~ (month_index x = month_index m + n /\ day x = d)).
      { intros t T L Ht. apply (W (t - n)); [exact Ht| |].
        - pose proof (not_feb (t - n) ltac:(lia)). lia.
        - replace (t - n + n) with t by lia. rewrite (feb t T), L. lia. }
      set (y := -262000 + (n + 11) / 12 + 1). 
      destruct (Z.eq_dec (y mod 2) 0) as [Y|Y].
      * apply (X (12 * (y + 1) + 1)); [lia| |lia]. replace ((12 * (y + 1) + 1) / 12) with (y + 1) by lia. clearbody y. apply odd_common. lia.
      * apply (X (12 * y + 1)); [lia| |lia]. replace ((12 * y + 1) / 12) with y by lia. clearbody y. apply odd_common. lia.
Qed.
Lemma always_months : forall n d, 0 <= n <= 12 * 500000 -> 1 <= d <= 31 ->
  ((forall m, dt_valid m = true -> day m = d -> month_index m + n < 12 * max_year + 11 ->
      exists x, calculate md (Addition (Moment m) (Months n)) = Ok (Moment x) /\ month_index x = month_index m + n /\ day x = d) <->
   d <= 28 \/ n = 0 \/ (d = 30 /\ (12 | n)) \/ (d = 29 /\ (4800 | n))).
Proof.
  intros n d Hn Hd. split.
  - intro A. destruct (Z_le_gt_dec d 28) as [L|G]; [left; exact L|right]. destruct (Z.eq_dec n 0) as [E|N]; [left; exact E|right].
    destruct (Z.eq_dec d 30) as [D|D]; [destruct (Zdivide_dec 12 n) as [V|V]; [left; auto|]|destruct (Z.eq_dec d 29) as [E|E]; [destruct (Zdivide_dec 4800 n) as [V|V]; [right; auto|]|]];
      exfalso; (destruct (lose_months n d Hn ltac:(lia) N) as (m & V1 & V2 & V3 & X); [intros [? ?]; tauto || lia|intros [? ?]; tauto || lia|]);
      destruct (A m V1 V2 V3) as (x & E1 & E2); exact (X x E1 E2).
  - intros C m Hm D R. subst d. apply keep_months; try assumption. lia.
Qed.

Lemma always_years : forall n mo d, -500000 <= n <= 500000 ->
  (exists y, date_exists y mo d = true) ->
  ((forall m, dt_valid m = true -> month m = mo -> day m = d -> min_year <= year m + n <= max_year ->
      exists x, calculate md (Addition (Moment m) (Years n)) = Ok (Moment x) /\ year x = year m + n /\ month x = mo /\ day x = d) <->
   ~ (mo = 2 /\ d = 29) \/ (400 | n)).
Proof.
  intros n mo d Hn [y0 Hd]. apply date_exists_iff in Hd as (Hmo & Hd). split.
  - intro A. destruct (Zdivide_dec 400 n) as [V|V]; [right; exact V|left]. intros [-> ->].
    destruct (leap_away n V) as (r & Hr & L1 & L2 & L3 & L4).
    assert (X : forall y, min_year <= y <= max_year -> min_year <= y + n <= max_year -> leap y = true -> leap (y + n) = false -> False).
    { intros y Hy Hyn La Lb.
      assert (Vm : dt_valid (mkdt y 2 29 0 0 0 0) = true).
      { apply dt_valid_iff. cbn [year month day hour minute second nano]. split; [exact Hy|]. split; [apply date_exists_iff; rewrite month_length_val by lia; change (2 =? 2) with true; cbv iota; rewrite La; lia|]. lia. }
      destruct (A _ Vm eq_refl eq_refl Hyn) as (x & E & Y & M & D). cbn [year] in Y.
      assert (Vx : dt_valid x = true).
      { refine (moment_valid md _ x _ E). apply (plus_ok _ UYear); [exact Vm|]. apply in_i64_iff. unfold i64_min, i64_max. lia. }
      destruct (valid_facts x Vx) as (_ & _ & _ & Vml & _). rewrite M, D, Y, month_length_val, Lb in Vml by lia. cbn in Vml. lia. }
    destruct (Z_le_gt_dec 0 n) as [P|P].
    + apply (X (-262000 + r)); try assumption; unfold min_year, max_year; lia.
    + apply (X (261200 + r)); try assumption; unfold min_year, max_year; lia.
  - intros C m Hm <- <- R. rewrite add_years_in_range by assumption. eexists. split; [reflexivity|].
    destruct (valid_facts m Hm) as (Vy & Vmo & Vd & Vml & _).
    destruct ((month m =? 2) && (day m =? 29) && negb (leap (year m + n))) eqn:E; [exfalso|cbn; auto].
    assert (F : month m = 2 /\ day m = 29 /\ leap (year m + n) = false) by (destruct (leap (year m + n)); lia). destruct F as (F1 & F2 & F3).
    destruct C as [C|[q ->]]; [tauto|]. rewrite F1, F2, month_length_val in Vml by lia. cbn in Vml.
    assert (P : leap (year m + q * 400) = leap (year m)) by (rewrite (Z.mul_comm q); apply leap_400). rewrite P in F3. rewrite F3 in Vml. lia.
Qed.

Lemma less_months : forall m n, dt_valid m = true -> 0 <= n < 2147483648 -> 12 * min_year <= month_index m - n ->
  ((exists x, calculate md (Subtraction (Moment m) (Months n)) = Ok (Moment x) /\ month_index x = month_index m - n /\ day x = day m) <->
   n < month m + 12 /\ day m <= index_length (month_index m - n)).
Proof.
  intros m n Hm Hn Hr. destruct (valid_facts m Hm) as (Vy & Vmo & Vd & Vml & Vh & Vmi & Vs). destruct (sub_months md m n Hm Hn) as (S1 & S2 & S3).
  assert (Q : forall y mo, 1 <= mo <= 12 -> y <= max_year -> 12 * y + mo - 1 = month_index m - n -> n < month m + 12 ->
    calculate md (Subtraction (Moment m) (Months n)) = built y mo (day m) (sod m) ->
    (exists x, calculate md (Subtraction (Moment m) (Months n)) = Ok (Moment x) /\ month_index x = month_index m - n /\ day x = day m) <->
    n < month m + 12 /\ day m <= index_length (month_index m - n)).
  { intros y mo Hmo Hy I Hnm ->. unfold index_length. rewrite <- I in *. replace ((12 * y + mo - 1) / 12) with y by lia. replace ((12 * y + mo - 1) mod 12 + 1) with mo by lia. split.
    - intros (x & B & _). apply built_ok in B as [R _]. apply representable_iff in R as [_ R]. apply date_exists_iff in R. lia.
    - intros (_ & Dd). exists (at_time y mo (day m) (sod m)). split; [|split; reflexivity].
      unfold built. replace (representable y mo (day m)) with true; [reflexivity|]. symmetry. apply representable_iff.
      split; [lia|]. apply date_exists_iff. lia. }
  assert (C : 1 <= month m - n \/ -11 <= month m - n <= 0 \/ month m - n < -11) by lia. destruct C as [C|[C|C]].
  - apply (Q (year m) (month m - n)); try lia; [unfold month_index; lia|]. exact (S1 C).
  - apply (Q (year m - 1) (month m - n + 12)); try lia; [unfold month_index; lia|]. exact (S2 C).
  - split; [|lia]. intros (a & E & _). exfalso. exact (oob_err _ (S3 C) _ E).
Qed.
Lemma long_month : forall i, index_length i = (if i mod 12 =? 1 then if leap (i / 12) then 29 else 28 else if (i mod 12 =? 3) || (i mod 12 =? 5) || (i mod 12 =? 8) || (i mod 12 =? 10) then 30 else 31).
Proof.
  intro i. unfold index_length. rewrite month_length_val by lia. set (k := i mod 12). clearbody k.
  replace (k + 1 =? 2) with (k =? 1) by lia. replace (k + 1 =? 4) with (k =? 3) by lia. replace (k + 1 =? 6) with (k =? 5) by lia.
  replace (k + 1 =? 9) with (k =? 8) by lia. replace (k + 1 =? 11) with (k =? 10) by lia. reflexivity.
Qed.
Lemma always_sub_months : forall n d, 0 <= n <= 12 * 500000 -> 1 <= d <= 31 ->
  ((forall m, dt_valid m = true -> day m = d -> 12 * min_year <= month_index m - n ->
      exists x, calculate md (Subtraction (Moment m) (Months n)) = Ok (Moment x) /\ month_index x = month_index m - n /\ day x = d) <->
   n = 0 \/ (n <= 12 /\ d <= 28) \/ (n = 12 /\ 30 <= d)).
Proof.
  intros n d Hn Hd. split.
  - intro A.
    assert (W : forall i, 3134400 <= i < 3145716 -> d <= index_length i -> n < i mod 12 + 13 /\ d <= index_length (i - n)).
    { intros i Hi Hl. destruct (at_valid_index i d ltac:(unfold min_year, max_year; lia) ltac:(lia)) as (V & I & D).
      specialize (A _ V D). rewrite I in A. specialize (A ltac:(unfold min_year; lia)).
      pose proof (less_months _ n V ltac:(lia)) as L. rewrite I, D in L. apply (L ltac:(unfold min_year; lia)) in A. cbn [month] in A. lia. }
    assert (J : d <= index_length 3134400) by (change (index_length 3134400) with 31; lia).
    pose proof (W 3134400 ltac:(lia) J) as [N12 _]. change (3134400 mod 12) with 0 in N12.
    destruct (Z.eq_dec n 0) as [|N0]; [left; assumption|right]. destruct (Z_le_gt_dec d 28) as [|G]; [left; lia|right].
    assert (F : forall i, 3134424 <= i < 3140000 -> i mod 12 = 1 -> leap (i / 12) = false -> d <= index_length (i + n) -> False).
    { intros i Hi M L Hl. destruct (W (i + n) ltac:(lia) Hl) as [_ X]. replace (i + n - n) with i in X by lia.
      rewrite (feb i M), L in X. lia. }
    destruct (Z.eq_dec n 12) as [->|N].
    + split; [reflexivity|]. destruct (Z_le_gt_dec 30 d) as [|d29]; [assumption|exfalso]. assert (d = 29) as -> by lia.

      apply (F 3134437); [lia|reflexivity|reflexivity|]. change (index_length (3134437 + 12)) with 29. lia.
    + exfalso. destruct (Z_le_gt_dec d 30) as [D|D].
      * apply (F 3134437); [lia|reflexivity|reflexivity|]. pose proof (not_feb (3134437 + n)) as X. assert ((3134437 + n) mod 12 <> 1) by lia. lia.
      * assert (d = 31) as -> by lia.
        assert (T : forall s, 3134400 <= s < 3134412 -> index_length s = 31 -> index_length (s - n) < 31 -> False).
        { intros s Hs L1 L2. destruct (W s ltac:(lia) ltac:(lia)) as [_ X]. lia. }
        assert (C : n = 1 \/ n = 2 \/ n = 3 \/ n = 4 \/ n = 5 \/ n = 6 \/ n = 7 \/ n = 8 \/ n = 9 \/ n = 10 \/ n = 11) by lia.
        destruct C as [->|[->|[->|[->|[->|[->|[->|[->|[->|[->| ->]]]]]]]]]].
        { apply (T 3134402); [lia|vm_compute; reflexivity|vm_compute; reflexivity]. }
        { apply (T 3134400); [lia|vm_compute; reflexivity|vm_compute; reflexivity]. }
        { apply (T 3134404); [lia|vm_compute; reflexivity|vm_compute; reflexivity]. }
        { apply (T 3134400); [lia|vm_compute; reflexivity|vm_compute; reflexivity]. }
        { apply (T 3134406); [lia|vm_compute; reflexivity|vm_compute; reflexivity]. }
        { apply (T 3134407); [lia|vm_compute; reflexivity|vm_compute; reflexivity]. }
        { apply (T 3134400); [lia|vm_compute; reflexivity|vm_compute; reflexivity]. }
        { apply (T 3134409); [lia|vm_compute; reflexivity|vm_compute; reflexivity]. }
        { apply (T 3134400); [lia|vm_compute; reflexivity|vm_compute; reflexivity]. }
        { apply (T 3134411); [lia|vm_compute; reflexivity|vm_compute; reflexivity]. }
        { apply (T 3134400); [lia|vm_compute; reflexivity|vm_compute; reflexivity]. }
  - intros C m Hm <- R. apply (less_months m n Hm ltac:(lia) R). destruct (valid_facts m Hm) as (Vy & Vmo & Vd & Vml & _). pose proof (has_day m Hm) as H.
    destruct C as [->|[[C1 C2]|[-> C2]]].
    + rewrite Z.sub_0_r. split; [lia|exact H].
    + split; [lia|]. assert (28 <= index_length (month_index m - n)) by (unfold index_length; apply month_length_bounds; lia). lia.
    + split; [lia|]. rewrite long_month in H |- *. replace ((month_index m - 12) mod 12) with (month_index m mod 12) by lia.
      destruct (month_index m mod 12 =? 1); [destruct (leap (month_index m / 12)); lia|exact H].
Qed.
End Always.
