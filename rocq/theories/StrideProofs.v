(** Every so-manieth item of an iteration is an item of a coarser iteration. *)
Require Import ZArith Bool List Lia ZifyBool.
From Verif Require Import Prelude Spec Chrono Util TimeType Matcher Iter SpecTree SpecMoment SpecIter SpecExact PreludeProofs EvalProofs AmountProofs
  ShapeProofs CompProofs CalendarProofs OrdProofs AddProofs AddProofs2 SubProofs SubProofs2 IterProofs IterProofs2 VisitProofs.
Import ListNotations.
Local Open Scope Z_scope.
Local Ltac Zify.zify_post_hook ::= Z.to_euclidean_division_equations.

Section Stride.
Variable md : mode.

Lemma clock_at : forall m u n it k x, build m (mk u n) = Ok it -> dt_valid m = true -> nano m = 0 -> clock_unit u = true -> 0 <= n -> n * unit_secs u <= 30 * 86400 ->
  nth_item (iter_next md) k it = Some (Ok (Moment x)) <->
  inst m + Z.of_nat k * n * unit_secs u < instant (max_year + 1) 1 1 0 0 0 /\ dt_valid x = true /\ nano x = 0 /\ inst x = inst m + Z.of_nat k * n * unit_secs u.
Proof.
  intros m u n it k x B Hm N0 Hu Hn Hs. destruct (Z_lt_le_dec (inst m + Z.of_nat k * n * unit_secs u) (instant (max_year + 1) 1 1 0 0 0)) as [L|G].
  - destruct (clock_item md m u n it k B Hm N0 Hu Hn Hs L) as (y & F & V & Ny & I). rewrite F. split.
    + intro E. injection E as <-. auto.
    + intros (_ & Vx & Nx & Ix). do 3 f_equal. apply inst_same; try assumption. lia.
  - destruct (b_clock_beyond md m u n it k B Hm Hu Hn Hs G) as (y & mo & d & h & mi & s & F). rewrite (F k (le_n k)). split; [discriminate|lia].
Qed.
Lemma months_at : forall m n it k x, build m (Months n) = Ok it -> dt_valid m = true -> nano m = 0 -> day m <= 28 -> 0 < n -> n * unit_secs UMonth <= span32 ->
  nth_item (iter_next md) k it = Some (Ok (Moment x)) <->
  month_index m + Z.of_nat k * n <= 12 * max_year + 11 /\ x = in_month (month_index m + Z.of_nat k * n) (day m) m.
Proof.
  intros m n it k x B Hm N0 Hd Hn Hs. split; [exact (month_item md m n it k x B Hm N0 Hd Hn Hs)|].
  intros [L ->]. destruct (valid_facts m Hm) as (Vy & Vmo & _). destruct k as [|k].
  - rewrite (build_first md m _ it B). do 3 f_equal. unfold in_month, month_index.
    replace ((12 * year m + month m - 1 + Z.of_nat 0 * n) / 12) with (year m) by lia.
    replace ((12 * year m + month m - 1 + Z.of_nat 0 * n) mod 12 + 1) with (month m) by lia. destruct m. cbn in *. subst. reflexivity.
  - pose proof (b_months md m n it (S k) B Hm Hd ltac:(lia)) as A. cbv zeta in A.
    replace (year m * 12 + month m - 1) with (month_index m) in A by (unfold month_index; lia). apply A; lia.
Qed.
Lemma years_at : forall m n it k x, build m (Years n) = Ok it -> dt_valid m = true -> nano m = 0 -> ~ (month m = 2 /\ day m = 29) -> 0 < n -> n * unit_secs UYear <= span32 ->
  nth_item (iter_next md) k it = Some (Ok (Moment x)) <->
  year m + Z.of_nat k * n <= max_year /\ x = mkdt (year m + Z.of_nat k * n) (month m) (day m) (hour m) (minute m) (second m) 0.
Proof.
  intros m n it k x B Hm N0 Hd Hn Hs. split; [exact (year_item md m n it k x B Hm N0 Hd Hn Hs)|].
  intros [L ->]. destruct (valid_facts m Hm) as (Vy & _). destruct k as [|k].
  - rewrite (build_first md m _ it B). do 3 f_equal. replace (year m + Z.of_nat 0 * n) with (year m) by lia. destruct m. cbn in *. subst. reflexivity.
  - apply (b_years md m n it (S k) B Hm Hd); [lia|]. assert (0 <= Z.of_nat (S k) * n) by nia. lia.
Qed.

Lemma stride_clock : forall m u n v p it it' k j x, build m (mk u n) = Ok it -> build m (mk v p) = Ok it' -> dt_valid m = true -> nano m = 0 ->
  clock_unit u = true -> clock_unit v = true -> 0 <= n -> n * unit_secs u <= 30 * 86400 -> 0 <= p -> p * unit_secs v <= 30 * 86400 ->
  p * unit_secs v = Z.of_nat k * (n * unit_secs u) ->
  (nth_item (iter_next md) j it' = Some (Ok (Moment x)) <-> nth_item (iter_next md) (j * k) it = Some (Ok (Moment x))).
Proof.
  intros m u n v p it it' k j x B B' Hm N0 Hu Hv Hn Hs Hp Hs' D. rewrite (clock_at m v p it' j x), (clock_at m u n it (j * k)%nat x) by assumption.
  replace (Z.of_nat j * p * unit_secs v) with (Z.of_nat j * (p * unit_secs v)) by ring. rewrite D, Nat2Z.inj_mul.
  replace (Z.of_nat j * Z.of_nat k * n * unit_secs u) with (Z.of_nat j * (Z.of_nat k * (n * unit_secs u))) by ring. reflexivity.
Qed.
Lemma stride_months : forall m n p it it' k j x, build m (Months n) = Ok it -> build m (Months p) = Ok it' -> dt_valid m = true -> nano m = 0 -> day m <= 28 ->
  0 < n -> n * unit_secs UMonth <= span32 -> 0 < p -> p * unit_secs UMonth <= span32 -> p = Z.of_nat k * n ->
  (nth_item (iter_next md) j it' = Some (Ok (Moment x)) <-> nth_item (iter_next md) (j * k) it = Some (Ok (Moment x))).
Proof.
  intros m n p it it' k j x B B' Hm N0 Hd Hn Hs Hp Hs' D. rewrite (months_at m p it' j x), (months_at m n it (j * k)%nat x) by assumption.
  rewrite D, Nat2Z.inj_mul. rewrite Z.mul_assoc. reflexivity.
Qed.
Lemma stride_years : forall m n p it it' k j x, build m (Years n) = Ok it -> build m (Years p) = Ok it' -> dt_valid m = true -> nano m = 0 -> ~ (month m = 2 /\ day m = 29) ->
  0 < n -> n * unit_secs UYear <= span32 -> 0 < p -> p * unit_secs UYear <= span32 -> p = Z.of_nat k * n ->
  (nth_item (iter_next md) j it' = Some (Ok (Moment x)) <-> nth_item (iter_next md) (j * k) it = Some (Ok (Moment x))).
Proof.
  intros m n p it it' k j x B B' Hm N0 Hd Hn Hs Hp Hs' D. rewrite (years_at m p it' j x), (years_at m n it (j * k)%nat x) by assumption.
  rewrite D, Nat2Z.inj_mul. rewrite Z.mul_assoc. reflexivity.
Qed.
Lemma stride_mixed : forall m n p it it' k j x, build m (Months n) = Ok it -> build m (Years p) = Ok it' -> dt_valid m = true -> nano m = 0 -> day m <= 28 ->
  0 < n -> n * unit_secs UMonth <= span32 -> 0 < p -> p * unit_secs UYear <= span32 -> 12 * p = Z.of_nat k * n ->
  (nth_item (iter_next md) j it' = Some (Ok (Moment x)) <-> nth_item (iter_next md) (j * k) it = Some (Ok (Moment x))).
Proof.
  intros m n p it it' k j x B B' Hm N0 Hd Hn Hs Hp Hs' D. rewrite (years_at m p it' j x), (months_at m n it (j * k)%nat x) by (assumption || lia).
  destruct (valid_facts m Hm) as (Vy & Vmo & _). rewrite Nat2Z.inj_mul. replace (Z.of_nat j * Z.of_nat k * n) with (12 * (Z.of_nat j * p)) by (rewrite <- Z.mul_assoc, <- D; ring).
  set (q := Z.of_nat j * p). clearbody q. unfold in_month, month_index.
  replace ((12 * year m + month m - 1 + 12 * q) / 12) with (year m + q) by lia. replace ((12 * year m + month m - 1 + 12 * q) mod 12 + 1) with (month m) by lia.
  split; intros [L ->]; (split; [lia|reflexivity]).
Qed.
(** Two steps of which one is not a multiple of the other part at their first item. *)
Lemma stride_needed : forall m u n v p it it' k x, build m (mk u n) = Ok it -> build m (mk v p) = Ok it' -> dt_valid m = true -> nano m = 0 ->
  clock_unit u = true -> clock_unit v = true -> 0 <= n -> n * unit_secs u <= 30 * 86400 -> 0 <= p -> p * unit_secs v <= 30 * 86400 ->
  nth_item (iter_next md) 1 it' = Some (Ok (Moment x)) -> nth_item (iter_next md) k it = Some (Ok (Moment x)) -> p * unit_secs v = Z.of_nat k * (n * unit_secs u).
Proof.
  intros m u n v p it it' k x B B' Hm N0 Hu Hv Hn Hs Hp Hs' E1 E2. apply (clock_at m v p it' 1%nat x) in E1; try assumption.
  apply (clock_at m u n it k x) in E2; try assumption. lia.
Qed.
End Stride.
