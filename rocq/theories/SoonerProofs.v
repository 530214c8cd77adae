(** Every iteration by more than 30 whole days leaves the calendar sooner or later. *)
Require Import ZArith Znumtheory Bool List Lia ZifyBool.
From Verif Require Import Prelude Spec Chrono Util TimeType Matcher Iter SpecTree SpecMoment SpecIter SpecExact PreludeProofs EvalProofs AmountProofs
  ShapeProofs CompProofs CalendarProofs OrdProofs AddProofs AddProofs2 IterProofs IterProofs2 VisitProofs ExactProofs.
Import ListNotations.
Local Open Scope Z_scope.
Local Ltac Zify.zify_post_hook ::= Z.to_euclidean_division_equations.

(** The 30 days, counted from 1 January, on which no step of [n] days from the year before ends rightly. *)
Definition first_day (n : Z) : Z := if n <? 180 then 30 else 150.
Definition last_day (n : Z) : Z := if n <? 180 then Z.min 60 n else 180.
Definition upto (a b : Z) : list Z := map (fun i => a + Z.of_nat i) (seq 0 (Z.to_nat (b - a))).
Lemma in_upto : forall a b x, In x (upto a b) <-> a <= x < b.
Proof.
  intros. unfold upto. rewrite in_map_iff. split.
  - intros (i & <- & I). apply in_seq in I. lia.
  - intro H. exists (Z.to_nat (x - a)). split; [lia|]. apply in_seq. lia.
Qed.
Fixpoint some {A} (f : A -> bool) (l : list A) : bool := match l with [] => false | a :: l => if f a then true else some f l end.
Lemma some_exists : forall {A} (f : A -> bool) l, some f l = true -> exists x, In x l /\ f x = true.
Proof.
  induction l as [|a l IH]; cbn [some]; intro H; [discriminate|]. destruct (f a) eqn:E; [exists a; split; [left; reflexivity|exact E]|].
  destruct (IH H) as (x & I & F). exists x. split; [right; exact I|exact F].
Qed.
(** In the 400 years of the cycle such days have all remainders by what the step and the cycle have in common. *)
Definition covered (n : Z) : bool :=
  let g := Z.gcd n 146097 in
  forallb (fun s => some (fun y => some (fun e => (days_before_year y + 1 + e) mod g =? s) (upto (first_day n) (last_day n))) (upto 0 400)) (upto 0 g).
Lemma all_covered : forallb covered (upto 31 516) = true.
Proof. vm_compute. reflexivity. Qed.

Lemma cycle_days : forall y t, days_before_year (y + 400 * t) = days_before_year y + 146097 * t.
Proof. intros. unfold days_before_year. lia. Qed.

Lemma meets : forall n D, 31 <= n <= 515 -> exists k Y e, 0 <= k < 146097 /\ D + k * n + n = days_before_year Y + 1 + e /\ first_day n <= e < last_day n.
Proof.
  intros n D Hn. pose proof (proj1 (forallb_forall _ _) all_covered n (proj2 (in_upto 31 516 n) ltac:(lia))) as C.
  unfold covered in C. cbv zeta in C. set (g := Z.gcd n 146097) in *.
  assert (G : 0 < g). { assert (0 <= g) by apply Z.gcd_nonneg. assert (g <> 0) by (intro Z0; apply Z.gcd_eq_0_l in Z0; lia). lia. }
  pose proof (proj1 (forallb_forall _ _) C (D mod g) (proj2 (in_upto 0 g _) (Z.mod_pos_bound D g G))) as S. cbv beta in S.
  apply some_exists in S. destruct S as (y & _ & S). apply some_exists in S. destruct S as (e & Ie & S).
  apply in_upto in Ie. apply Z.eqb_eq in S.
  destruct (Z.gcd_bezout n 146097 g eq_refl) as (a & b & AB).
  assert (Dn : (g | n)) by apply Z.gcd_divide_l. destruct Dn as [n' En].
  set (J := days_before_year y + 1 + e) in *.
  assert (Q : exists q, J - D = q * g).
  { exists (J / g - D / g). pose proof (Z.div_mod J g ltac:(lia)). pose proof (Z.div_mod D g ltac:(lia)). rewrite S in *. nia. }
  destruct Q as [q Eq].
  set (k0 := q * a - 1). set (c := k0 / 146097).
  exists (k0 mod 146097), (y + 400 * (- (q * b + c * n))), e.
  split; [apply Z.mod_pos_bound; lia|]. split; [|exact Ie].
  rewrite cycle_days. replace (days_before_year y + 146097 * - (q * b + c * n) + 1 + e) with (J - 146097 * (q * b + c * n)) by (unfold J; ring).
  assert (Ek : k0 mod 146097 = k0 - 146097 * c). { pose proof (Z.div_mod k0 146097 ltac:(lia)) as DM. fold c in DM. lia. }
  rewrite Ek. unfold k0. replace J with (D + q * g) by lia. rewrite <- AB. ring.
Qed.

Lemma year_of_day : forall x Y r, dt_valid x = true -> day_number (year x) (month x) (day x) = days_before_year Y + 1 - r -> 1 <= r <= 365 -> year x + 1 = Y.
Proof.
  intros x Y r Hx E Hr. pose proof (doy_bounds _ _ _ (valid_date x Hx)) as B. unfold day_number in E.
  pose proof (year_length_bounds (year x)) as Ly. pose proof (leap_year_step (year x)) as S.
  destruct (Z.lt_trichotomy (year x + 1) Y) as [L|[E'|G]]; [|exact E'|].
  - pose proof (days_before_year_mono (year x + 1) Y ltac:(lia)). lia.
  - pose proof (days_before_year_mono Y (year x) ltac:(lia)). lia.
Qed.

Section Sooner.
Variable md : mode.

Lemma inst_day : forall m, dt_valid m = true -> inst m / 86400 = day_number (year m) (month m) (day m).
Proof. intros m Hm. rewrite inst_sod. pose proof (sod_range m Hm). lia. Qed.

Lemma at_or_next : forall m u n it k, build m (mk u n) = Ok it -> dt_valid m = true -> clock_unit u = true -> 0 <= n -> n * unit_secs u <= span32 ->
  (forall x, dt_valid x = true -> inst x = inst m + Z.of_nat k * (n * unit_secs u) -> ~ lands (year x + 1) (days_past u n x)) ->
  exists j, (j = k \/ j = S k) /\ forall x, nth_item (iter_next md) j it = Some (Ok (Moment x)) -> inst x <> inst m + Z.of_nat j * (n * unit_secs u).
Proof.
  intros m u n it k B Hm Hu Hn Hs N.
  assert (D : (exists x, nth_item (iter_next md) k it = Some (Ok (Moment x)) /\ inst x = inst m + Z.of_nat k * (n * unit_secs u)) \/
    forall x, nth_item (iter_next md) k it = Some (Ok (Moment x)) -> inst x <> inst m + Z.of_nat k * (n * unit_secs u)).
  { destruct (nth_item (iter_next md) k it) as [[v| | |]|]; try (right; intros x E; discriminate E).
    destruct v; try (right; intros x E; discriminate E).
    match goal with |- context [Moment ?y] => rename y into d end. destruct (Z.eq_dec (inst d) (inst m + Z.of_nat k * (n * unit_secs u))) as [E|E]; [left; exists d; split; [reflexivity|exact E]|].
    right. intros x X. injection X as <-. exact E. }
  destruct D as [(x & Ex & Ix)|D]; [|exists k; split; [left; reflexivity|exact D]].
  exists (S k). split; [right; reflexivity|]. intros b Eb Ib.
  destruct (from_before md m u n it k b B Hm Hn Hs Eb) as (x' & Vx & Ex' & C). rewrite Ex in Ex'. injection Ex' as <-.
  apply (N x Vx Ix). apply (add_exact_iff md x u n Vx Hu Hn Hs). exists b. split; [exact C|]. rewrite Ib, Ix. lia.
Qed.

Lemma sooner : forall m u n d it, build m (mk u n) = Ok it -> dt_valid m = true -> clock_unit u = true -> n * unit_secs u = d * 86400 ->
  year m <= 50000 -> 31 <= d <= 70000000 ->
  exists k, Z.of_nat k <= 146097 /\ inst m + Z.of_nat k * (d * 86400) < instant (max_year + 1) 1 1 0 0 0 /\
    forall x, nth_item (iter_next md) k it = Some (Ok (Moment x)) -> inst x <> inst m + Z.of_nat k * (d * 86400).
Proof.
  intros m u n d it B Hm Hu Ed Hy Hd.
  assert (Hn : 0 <= n). { destruct u; cbn [clock_unit unit_secs] in *; try discriminate; lia. }
  assert (Hs : n * unit_secs u <= span32) by (rewrite Ed; unfold span32; lia).
  assert (Im : inst m < instant 50001 1 1 0 0 0).
  { pose proof (inst_year_end m Hm) as I. unfold instant in *. rewrite !day_number_jan in *. pose proof (days_before_year_mono (year m + 1) 50001 ltac:(lia)). lia. }
  replace (instant 50001 1 1 0 0 0) with 1577847686400 in Im by (vm_compute; reflexivity).
  replace (instant (max_year + 1) 1 1 0 0 0) with 8272434096000 by (vm_compute; reflexivity).
  assert (P : forall x k, dt_valid x = true -> inst x = inst m + k * (d * 86400) ->
    day_number (year x) (month x) (day x) = day_number (year m) (month m) (day m) + k * d /\
    days_past u n x = day_number (year m) (month m) (day m) + k * d + d - (days_before_year (year x + 1) + 1)).
  { intros x k Hx Ix. unfold days_past. rewrite day_number_jan, Ed, <- (inst_day x Hx), <- (inst_day m Hm). rewrite Ix.
    replace (inst m + k * (d * 86400) + d * 86400) with (inst m + (k * d + d) * 86400) by ring. replace (k * (d * 86400)) with (k * d * 86400) by ring.
    rewrite !Z.div_add by lia. lia. }
  destruct (Z_le_gt_dec d 515) as [Ld|Gd].
  - destruct (meets d (day_number (year m) (month m) (day m)) ltac:(lia)) as (k & Y & e & Hk & M & He).
    destruct (at_or_next m u n it (Z.to_nat k) B Hm Hu Hn Hs) as (j & J & A).
    + rewrite Z2Nat.id by lia. rewrite Ed. intros x Hx Ix. destruct (P x k Hx Ix) as [Dx Px]. rewrite Px.
      assert (Yx : year x + 1 = Y). { apply (year_of_day x Y (d - e) Hx); unfold first_day, last_day in He; destruct (d <? 180) eqn:L; lia. }
      rewrite Yx. unfold lands, first_day, last_day in *. destruct (d <? 180) eqn:L; lia.
    + exists j. split; [lia|]. rewrite Ed in A. split; [|exact A]. assert (Z.of_nat j <= 146097) by lia. nia.
  - destruct (at_or_next m u n it 0%nat B Hm Hu Hn Hs) as (j & J & A).
    + rewrite Ed. intros x Hx Ix. destruct (P x (Z.of_nat 0) Hx Ix) as [Dx Px]. rewrite Px.
      replace (day_number (year m) (month m) (day m)) with (day_number (year x) (month x) (day x)) by lia.
      pose proof (doy_bounds _ _ _ (valid_date x Hx)) as Bd. unfold day_number in *. pose proof (year_length_bounds (year x)). rewrite leap_year_step. unfold lands. lia.
    + exists j. split; [lia|]. rewrite Ed in A. split; [|exact A]. nia.
Qed.
Lemma forever_days : forall m u n d it, build m (mk u n) = Ok it -> dt_valid m = true -> clock_unit u = true -> n * unit_secs u = d * 86400 ->
  year m <= 50000 -> 0 <= d <= 70000000 ->
  ((forall k, inst m + Z.of_nat k * (d * 86400) < instant (max_year + 1) 1 1 0 0 0 ->
      exists x, nth_item (iter_next md) k it = Some (Ok (Moment x)) /\ inst x = inst m + Z.of_nat k * (d * 86400)) <-> d <= 30).
Proof.
  intros m u n d it B Hm Hu Ed Hy Hd. split.
  - intro A. destruct (Z_le_gt_dec d 30) as [|G]; [assumption|exfalso].
    destruct (sooner m u n d it B Hm Hu Ed Hy ltac:(lia)) as (k & _ & R & N). destruct (A k R) as (x & E & I). exact (N x E I).
  - intros L k R. assert (Hn : 0 <= n). { destruct u; cbn [clock_unit unit_secs] in *; try discriminate; lia. }
    destruct k as [|k]; [exists m; split; [exact (build_first md m _ it B)|lia]|].
    destruct (b_clock md m u n it (S k) B Hm Hu Hn ltac:(lia) ltac:(lia)) as (x & E & _ & _ & I).
    + rewrite <- Z.mul_assoc, Ed. exact R.
    + exists x. split; [exact E|]. rewrite I, <- Z.mul_assoc, Ed. reflexivity.
Qed.
End Sooner.
