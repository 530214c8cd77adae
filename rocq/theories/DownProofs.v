(** Iterations backwards. *)
Require Import ZArith Bool List Lia ZifyBool.
From Verif Require Import Prelude Spec Chrono Util TimeType Matcher Iter SpecTree SpecMoment SpecIter SpecExact SpecSeq SpecDown PreludeProofs EvalProofs AmountProofs
  ShapeProofs CompProofs CalendarProofs OrdProofs AddProofs AddProofs2 IterProofs IterProofs2 IterProofs3 SeqProofs SeqProofs2 NegProofs.
Import ListNotations.
Local Open Scope Z_scope.
Local Ltac Zify.zify_post_hook ::= Z.to_euclidean_division_equations.

Section Down.
Variable md : mode.

Lemma lowered_field : forall u m c, u <> UYear -> field u (lowered u m c) = field u m - c.
Proof. intros u m c H. destruct u; try reflexivity; congruence. Qed.
Lemma lowered_twice : forall u m a b, lowered u (lowered u m a) b = lowered u m (a + b).
Proof. intros u m a b. destruct u; cbn [lowered year month day hour minute second]; f_equal; lia. Qed.
Lemma lowered_plain : forall u n m c, plain_step u n m -> plain_step u n (lowered u m c).
Proof. intros u n m c H. destruct u; exact H. Qed.
Lemma lowered_valid : forall u n m c, dt_valid m = true -> plain_step u n m -> 0 <= c -> lowest u <= field u m - c -> dt_valid (lowered u m c) = true.
Proof.
  intros u n m c Hm Hp Hc Hl. destruct (valid_facts m Hm) as (Vy & Vmo & Vd & Vml & Vh & Vmi & Vs). apply dt_valid_iff.
  assert (E : forall y mo d, min_year <= y <= max_year -> 1 <= mo <= 12 -> 1 <= d <= month_length y mo -> min_year <= y <= max_year /\ date_exists y mo d = true).
  { intros y mo d A B C. split; [exact A|]. apply date_exists_iff. auto. }
  destruct u; cbn [lowered year month day hour minute second nano field lowest plain_step] in *; try contradiction.
  5: pose proof (month_length_bounds (year m) (month m - c) ltac:(lia)).
  all: match goal with |- min_year <= ?y <= max_year /\ date_exists ?y ?mo ?d = true /\ _ => destruct (E y mo d) as [E1 E2]; [lia|lia|lia|]; split; [exact E1|]; split; [exact E2|lia] end.
Qed.

Lemma down_step : forall u n m, dt_valid m = true -> plain_step u n m ->
  (lowest u <= field u m - n -> calculate md (Addition (Moment m) (mk u (- n))) = Ok (Moment (lowered u m n))) /\
  (field u m - n < lowest u -> oob (calculate md (Addition (Moment m) (mk u (- n))))).
Proof.
  intros u n m Hm Hp. destruct (valid_facts m Hm) as (Vy & Vmo & Vd & Vml & Vh & Vmi & Vs).
  assert (Sd : sod m = hour m * 3600 + minute m * 60 + second m) by reflexivity.
  destruct (clock_unit u) eqn:Cu.
  - assert (Hn : -2147483648 <= - n < 0) by (destruct u; cbn [plain_step modulus] in Hp; lia).
    destruct (add_negative_complete md m u (- n) Hm Cu Hn) as [P Q]. cbv zeta in P, Q.
    set (T := sod m + - n * unit_secs u) in *.
    split; intro L.
    + rewrite P.
      * destruct u; try discriminate Cu; cbn [field lowest plain_step modulus unit_secs lowered] in *; unfold at_time; do 2 f_equal; f_equal; subst T; lia.
      * destruct u; try discriminate Cu; cbn [field lowest plain_step modulus unit_secs no_borrow] in *; subst T; lia.
      * destruct u; try discriminate Cu; cbn [field lowest plain_step modulus unit_secs no_borrow] in *; subst T; lia.
    + apply Q. destruct u; try discriminate Cu; cbn [field lowest plain_step modulus unit_secs no_borrow] in *; [left|left|left|right]; subst T; lia.
  - destruct u; try discriminate Cu; cbn [plain_step field lowest] in *; [|contradiction]. destruct Hp as [Hn Hd].
    destruct (add_months_negative md m (- n) Hm ltac:(lia)) as (P & _ & _ & Q). cbv zeta in P, Q. cbn [mk]. split; intro L.
    + rewrite P by (try (pose proof (month_length_bounds (year m) (month m + - n) ltac:(lia))); lia). cbn [lowered]. do 3 f_equal; lia.
    + apply Q; lia.
Qed.

Lemma down_items : forall m u n it k, build m (mk u (- n)) = Ok it -> dt_valid m = true -> plain_step u n m -> (1 <= k)%nat ->
  lowest u <= field u m - Z.of_nat k * n -> nth_item (iter_next md) k it = Some (Ok (Moment (lowered u m (Z.of_nat k * n)))).
Proof.
  intros m u n it k B Hm Hp Hk Hl. apply build_at in B. subst it.
  assert (N : 0 < n) by (destruct u; cbn [plain_step] in Hp; lia).
  assert (Hu : u <> UYear) by (intros ->; exact Hp).
  apply (follow_item md u (- n) m (fun k => lowered u m (Z.of_nat k * n)) k k); [|lia].
  intros x Hx. assert (R : Z.of_nat (S x) * n <= Z.of_nat k * n) by nia. assert (0 <= Z.of_nat x * n) by nia.
  replace (Z.of_nat (S x) * n) with (Z.of_nat x * n + n) in * by lia.
  destruct x as [|x].
  - rewrite (proj1 (down_step u n m Hm Hp)) by lia. do 3 f_equal.
  - pose proof (lowered_valid u n m (Z.of_nat (S x) * n) Hm Hp ltac:(lia) ltac:(lia)) as V.
    rewrite (proj1 (down_step u n _ V (lowered_plain u n m _ Hp))); [rewrite lowered_twice; reflexivity|]. rewrite lowered_field by exact Hu. lia.
Qed.
Lemma down_end : forall m u n it k, build m (mk u (- n)) = Ok it -> dt_valid m = true -> plain_step u n m ->
  field u m - Z.of_nat k * n < lowest u -> exists y mo d h mi s, forall j, (k <= j)%nat -> nth_item (iter_next md) j it = Some (Err (OutOfBounds y mo d h mi s)).
Proof.
  intros m u n it k B Hm Hp Hl. apply build_at in B. subst it.
  assert (N : 0 < n <= 2147483648) by (destruct u; cbn [plain_step modulus] in Hp; lia).
  assert (Hu : u <> UYear) by (intros ->; exact Hp).
  assert (F : lowest u <= field u m). { destruct (valid_facts m Hm) as (Vy & Vmo & Vd & Vml & Vh & Vmi & Vs). destruct u; cbn [lowest field]; try lia. contradiction. }
  set (K := Z.to_nat ((field u m - lowest u) / n)).
  assert (HK : Z.of_nat K * n <= field u m - lowest u < Z.of_nat K * n + n).
  { unfold K. rewrite Z2Nat.id by (apply Z.div_pos; lia). pose proof (Z.div_mod (field u m - lowest u) n ltac:(lia)). pose proof (Z.mod_pos_bound (field u m - lowest u) n ltac:(lia)). lia. }
  assert (HkK : (K < k)%nat). { assert (Z.of_nat K < Z.of_nat k) by nia. lia. }
  set (f := fun k => lowered u m (Z.of_nat k * n)).
  assert (VK : dt_valid (match K with O => m | _ => f K end) = true).
  { destruct K as [|K']; [exact Hm|]. apply (lowered_valid u n); try assumption; lia. }
  assert (SK : oob (calculate md (Addition (Moment (match K with O => m | _ => f K end)) (mk u (- n))))).
  { destruct K as [|K'].
    - apply down_step; try assumption. lia.
    - apply down_step; [exact VK|apply lowered_plain; exact Hp|]. unfold f. rewrite lowered_field by exact Hu. lia. }
  destruct SK as (y & mo & d & h & mi & s & SK). exists y, mo, d, h, mi, s. intros j Hj.
  apply (follow_fail md u (- n) m f K); [unfold in_i64, i64_min, i64_max; clear - N; lia| |exact VK|exact SK|lia].
  intros x Hx. assert (R : Z.of_nat (S x) * n <= Z.of_nat K * n) by nia. assert (0 <= Z.of_nat x * n) by nia.
  unfold f. replace (Z.of_nat (S x) * n) with (Z.of_nat x * n + n) in * by lia.
  destruct x as [|x].
  - rewrite (proj1 (down_step u n m Hm Hp)) by lia. do 3 f_equal.
  - pose proof (lowered_valid u n m (Z.of_nat (S x) * n) Hm Hp ltac:(lia) ltac:(lia)) as V.
    rewrite (proj1 (down_step u n _ V (lowered_plain u n m _ Hp))); [rewrite lowered_twice; reflexivity|]. rewrite lowered_field by exact Hu. lia.
Qed.
Lemma down_count : forall m u n it k, build m (mk u (- n)) = Ok it -> dt_valid m = true -> plain_step u n m ->
  ((exists x, nth_item (iter_next md) k it = Some (Ok (Moment x))) <-> Z.of_nat k <= (field u m - lowest u) / n).
Proof.
  intros m u n it k B Hm Hp. assert (N : 0 < n) by (destruct u; cbn [plain_step modulus] in Hp; lia).
  assert (F : lowest u <= field u m). { destruct (valid_facts m Hm) as (Vy & Vmo & Vd & Vml & Vh & Vmi & Vs). destruct u; cbn [lowest field plain_step] in *; try lia; contradiction. }
  pose proof (Z.div_mod (field u m - lowest u) n ltac:(lia)) as D. pose proof (Z.mod_pos_bound (field u m - lowest u) n ltac:(lia)) as M.
  set (q := (field u m - lowest u) / n) in *. set (r := (field u m - lowest u) mod n) in *. clearbody q r. split.
  - intros [x E]. destruct (Z_le_gt_dec (Z.of_nat k) q) as [|G]; [assumption|exfalso].
    destruct (down_end m u n it k B Hm Hp) as (y & mo & d & h & mi & s & X); [nia|]. rewrite (X k (le_n k)) in E. discriminate E.
  - intro L. destruct k as [|k]; [exists m; exact (build_first md m _ it B)|].
    eexists. apply (down_items m u n it (S k) B Hm Hp); [lia|nia].
Qed.

(** Steps of any size: never out of the month. *)
Lemma down_one : forall u n m, dt_valid m = true -> clock_unit u = true -> -2147483648 <= n < 0 ->
  (exists b, calculate md (Addition (Moment m) (mk u n)) = Ok (Moment b) /\ dt_valid b = true /\ year b = year m /\ month b = month m /\ inst b = inst m + n * unit_secs u) \/
  oob (calculate md (Addition (Moment m) (mk u n))).
Proof.
  intros u n m Hm Hu Hn. destruct (valid_facts m Hm) as (Vy & Vmo & Vd & Vml & Vh & Vmi & Vs).
  destruct (add_negative_complete md m u n Hm Hu Hn) as [P Q]. cbv zeta in P, Q. set (T := sod m + n * unit_secs u) in *.
  destruct (no_borrow u m T) eqn:C1; [|right; apply Q; left; reflexivity].
  destruct (Z_le_gt_dec 1 (day m + T / 86400)) as [L|G]; [left|right; apply Q; right; lia].
  pose proof (sod_range m Hm) as Sr. pose proof (clock_unit_secs u Hu) as Us.
  assert (Tm : T <= sod m) by (subst T; nia).
  eexists. split; [apply P; [reflexivity|exact L]|]. cbn [at_time year month].
  split; [|split; [reflexivity|split; [reflexivity|]]].
  - apply dt_valid_iff. cbn [at_time year month day hour minute second nano]. split; [lia|]. split; [apply date_exists_iff; lia|lia].
  - rewrite (inst_sod m), inst_at by lia. unfold day_number. assert (ET : sod m + n * unit_secs u = T) by reflexivity. clearbody T. lia.
Qed.
Lemma run_down : forall u n, clock_unit u = true -> -2147483648 <= n < 0 -> forall k m b, dt_valid m = true ->
  nth_item (iter_next md) k (at_moment u n m true) = Some (Ok (Moment b)) ->
  year b = year m /\ month b = month m /\ inst b = inst m + (Z.of_nat k + 1) * (n * unit_secs u).
Proof.
  intros u n Hu Hn. assert (Hi : in_i64 n = true) by (unfold in_i64, i64_min, i64_max; lia).
  assert (St : forall m, dt_valid m = true -> (exists m', calculate md (Addition (Moment m) (mk u n)) = Ok (Moment m') /\ dt_valid m' = true /\ True) \/
    exists e, calculate md (Addition (Moment m) (mk u n)) = Err e).
  { intros x Hx. destruct (down_one u n x Hx Hu Hn) as [(y & C & V & _)|(y & mo & d & h & mi & s & C)]; [left; eauto|right; eauto]. }
  induction k as [|k IH]; intros m b Hm E; destruct (down_one u n m Hm Hu Hn) as [(x & C & V & Y & M & I)|(y & mo & d & h & mi & s & C)].
  - unfold nth_item in E. cbn [after] in E. rewrite (next_moment md u n m x C) in E. cbn [fst] in E. injection E as <-. lia.
  - rewrite (run_err md u n (fun _ _ => True) Hi St m _ 0 Hm C) in E. discriminate E.
  - change (nth_item (iter_next md) (S k) (at_moment u n m true)) with (nth_item (iter_next md) k (snd (iter_next md (at_moment u n m true)))) in E. rewrite (next_moment md u n m x C) in E. cbn [snd] in E. destruct (IH x b V E) as (A1 & A2 & A3). lia.
  - rewrite (run_err md u n (fun _ _ => True) Hi St m _ (S k) Hm C) in E. discriminate E.
Qed.
Lemma down_month : forall m u n it k x, build m (mk u n) = Ok it -> dt_valid m = true -> clock_unit u = true -> -2147483648 <= n < 0 ->
  nth_item (iter_next md) k it = Some (Ok (Moment x)) -> year x = year m /\ month x = month m /\ inst x = inst m + Z.of_nat k * (n * unit_secs u).
Proof.
  intros m u n it k x B Hm Hu Hn E. apply build_at in B. subst it. destruct k as [|k].
  - cbn in E. injection E as <-. lia.
  - rewrite fresh_item in E. destruct (run_down u n Hu Hn k m x Hm E) as (A1 & A2 & A3). lia.
Qed.
(** At the latest after the length of the month there are only errors. *)
Lemma down_over : forall m u n it k, build m (mk u n) = Ok it -> dt_valid m = true -> clock_unit u = true -> -2147483648 <= n < 0 ->
  day m * 86400 <= Z.of_nat k * (- n * unit_secs u) -> exists e, nth_item (iter_next md) k it = Some (Err e).
Proof.
  intros m u n it k B Hm Hu Hn L.
  destruct (fresh_cases md u n (fun _ _ => True)) with (m := m) (it := it) (k := k) as [(b & E & Vb)|E]; try assumption; try (intros; exact I).
  - unfold in_i64, i64_min, i64_max; lia.
  - intros x Hx. destruct (down_one u n x Hx Hu Hn) as [(y & C & V & _)|(y & mo & d & h & mi & s & C)]; [left; eauto|right; eauto].
  - exfalso. destruct (down_month m u n it k b B Hm Hu Hn E) as (Y & M & I). rewrite !inst_sod in I. unfold day_number in I. rewrite Y, M in I.
    pose proof (sod_range m Hm). pose proof (sod_range b Vb). destruct (valid_facts b Vb) as (_ & _ & Vd & _). lia.
Qed.
(** By months: never out of the year. *)
Lemma down_year : forall m n it k x, build m (Months n) = Ok it -> dt_valid m = true -> -2147483648 <= n < 0 ->
  nth_item (iter_next md) k it = Some (Ok (Moment x)) -> year x = year m.
Proof.
  intros m n it [|k] x B Hm Hn E.
  - apply (build_at m UMonth) in B. subst it. cbn in E. injection E as <-. reflexivity.
  - apply (fresh_moves md UMonth n (fun a b => year b = year a)) with (m := m) (it := it) (j := 0%nat) (k := S k) (a := m); try assumption.
    + unfold in_i64, i64_min, i64_max; lia.
    + intros; congruence.
    + intros y Hy. destruct (valid_facts y Hy) as (Vy & Vmo & Vd & Vml & Vh & Vmi & Vs).
      destruct (add_months_negative md y n Hy ltac:(lia)) as (P1 & P2 & P3 & P4). cbv zeta in *. cbn [mk].
      assert (V : forall mo d, 1 <= mo <= 12 -> 1 <= d <= month_length (year y) mo -> dt_valid (mkdt (year y) mo d (hour y) (minute y) (second y) 0) = true).
      { intros mo d A D. apply dt_valid_iff. cbn [year month day hour minute second nano]. split; [lia|]. split; [apply date_exists_iff; lia|lia]. }
      destruct (Z_le_gt_dec 1 (month y + n)) as [L|G].
      * pose proof (month_length_bounds (year y) (month y + n) ltac:(lia)) as Lb. destruct (Z_le_gt_dec (day y) (month_length (year y) (month y + n))) as [L2|G2].
        -- left. eexists. split; [apply P1; lia|]. split; [apply V; lia|reflexivity].
        -- left. eexists. split; [apply P2; lia|]. pose proof (month_length_bounds (year y) (month y + n + 1) ltac:(lia)). pose proof (month_length_bounds (year y) (month y) ltac:(lia)).
           split; [apply V; lia|reflexivity].
      * destruct (Z.eq_dec (month y + n) 0) as [Z0|NZ]; [destruct (Z.eq_dec (day y) 31) as [D|D]|].
        -- left. eexists. split; [apply P3; assumption|]. pose proof (month_length_bounds (year y) 1 ltac:(lia)). split; [apply V; lia|reflexivity].
        -- right. destruct P4 as (a & b & c & d & e & f & C); [lia|lia|]. eauto.
        -- right. destruct P4 as (a & b & c & d & e & f & C); [lia|lia|]. eauto.
    + exact Nat.lt_0_succ || lia.
    + exact (build_first md m _ it B).
Qed.
End Down.
