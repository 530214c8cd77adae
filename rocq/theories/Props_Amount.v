(** Properties C01-C04: amount-only expressions. *)
Require Import ZArith Bool List Lia.
From Verif Require Import Prelude Spec Chrono TimeType SpecTree SpecGetter AmountProofs.
Local Open Scope Z_scope.

(** C01 *)
Theorem C01_amount_exact : forall md t,
  tt_ok t = true -> amount_only t = true -> abs_secs t <= i64_max ->
  exists v, calculate md t = Ok (mk (finest t) v) /\ v * unit_secs (finest t) = secs t.
Proof. exact calculate_amount_exact. Qed.
Print Assumptions C01_amount_exact.
(** 2 years - (3 hours - (90 minutes + 5 days)) in minutes *)
Definition C01_tree : timetype :=
  Subtraction (Years 2) (Subtraction (Hours 3) (Addition (Minutes 90) (Days 5))).
Example C01_case : tt_ok C01_tree = true /\ amount_only C01_tree = true /\ abs_secs C01_tree <= i64_max /\
  finest C01_tree = UMin /\ calculate Checked C01_tree = Ok (Minutes 1043910).
Proof. repeat split; vm_compute; congruence. Qed.

(** C02 *)
Theorem C02_overflow : forall t, tt_ok t = true -> amount_only t = true ->
  ((exists v, calculate Checked t = Ok (mk (finest t) v) /\ v * unit_secs (finest t) = secs t) \/
   calculate Checked t = Panic PArith) /\
  (exists exact v k, exact * unit_secs (finest t) = secs t /\
     calculate Wrapping t = Ok (mk (finest t) v) /\ i64_min <= v <= i64_max /\ exact - v = k * 2 ^ 64).
Proof.
  intros t H1 H2. split; [apply amount_checked; assumption|].
  destruct (amount_wrapping t H1 H2) as (e & He & Hc). exists e, (wrap64 e).
  destruct (PreludeProofs.wrap64_congr e) as [k Hk]. exists (- k).
  repeat split; auto; try apply PreludeProofs.wrap64_range. change (2 ^ 64) with 18446744073709551616. lia.
Qed.
Print Assumptions C02_overflow.
Definition C02_tree : timetype := Addition (Years 1) (Seconds 9223372036854775807).
Example C02_case : tt_ok C02_tree = true /\ amount_only C02_tree = true /\
  calculate Checked C02_tree = Panic PArith /\
  calculate Wrapping C02_tree = Ok (Seconds (-9223372036823671809)).
Proof. repeat split. Qed.

(** C03. [getter md u] is `get_seconds` .. `get_years`; results are outcomes because the
    multiplications may overflow. *)
Theorem C03_getters : forall md u v n, in_i64 n = true ->
  let exact := Z.quot (n * unit_secs v) (unit_secs u) in
  (in_i64 exact = true -> getter md u (mk v n) = Ok exact) /\
  (in_i64 exact = false -> getter Checked u (mk v n) = Panic PArith) /\
  (unit_secs u <= unit_secs v -> exact * unit_secs u = n * unit_secs v) /\
  (0 <= n -> 0 <= exact) /\ (n <= 0 -> exact <= 0).
Proof.
  intros md u v n Hn exact. pose proof (unit_secs_pos u). pose proof (unit_secs_pos v).
  repeat split.
  - apply getter_exact; assumption.
  - apply getter_overflow; assumption.
  - intro Hle. unfold exact. destruct (finer_div v u) as [k Hk].
    assert (E : finer v u = u).
    { unfold finer. destruct (unit_secs v <=? unit_secs u) eqn:L; [|reflexivity].
      apply Z.leb_le in L. assert (unit_secs v = unit_secs u) by lia.
      destruct u, v; cbn in *; try lia; reflexivity. }
    rewrite E in Hk. rewrite Hk, Z.mul_assoc, Z.quot_mul by lia. ring.
  - intro. unfold exact. apply Z.quot_pos; nia.
  - intro. unfold exact. replace (n * unit_secs v) with (- (- n * unit_secs v)) by ring.
    rewrite Z.quot_opp_l by lia. assert (0 <= Z.quot (- n * unit_secs v) (unit_secs u)) by (apply Z.quot_pos; nia). lia.
Qed.
Print Assumptions C03_getters.
Theorem C03_getters_zero : forall md u t, (forall v n, t <> mk v n) -> getter md u t = Ok 0.
Proof.
  intros md u t H. apply getter_zero.
  destruct t; try reflexivity; exfalso.
  - apply (H USec n); reflexivity. - apply (H UMin n); reflexivity. - apply (H UHour n); reflexivity.
  - apply (H UDay n); reflexivity. - apply (H UMonth n); reflexivity. - apply (H UYear n); reflexivity.
Qed.
Print Assumptions C03_getters_zero.
Example C03_case : get_hours Checked (Seconds (-7300)) = Ok (-2) /\ get_days Checked (Months 7) = Ok 210 /\
  get_seconds Checked (Years (2 ^ 62)) = Panic PArith /\ get_years (Addition (Years 1) (Years 1)) = Ok 0.
Proof. repeat split. Qed.

(** C04. In release builds the equations hold even when the values overflow. *)
Theorem C04_algebra : forall md a b c,
  tt_ok a = true -> tt_ok b = true -> tt_ok c = true ->
  amount_only a = true -> amount_only b = true -> amount_only c = true ->
  md = Wrapping \/ abs_secs a + abs_secs b + abs_secs c <= i64_max ->
  calculate md (Addition a b) = calculate md (Addition b a) /\
  calculate md (Addition (Addition a b) c) = calculate md (Addition a (Addition b c)) /\
  calculate md (Subtraction a (Subtraction b c)) = calculate md (Addition (Subtraction a b) c) /\
  calculate md (Subtraction a (Addition b c)) = calculate md (Subtraction (Subtraction a b) c).
Proof. exact amount_algebra. Qed.
Print Assumptions C04_algebra.
Example C04_case :
  let a := Subtraction (Days 3) (Hours 7) in let b := Minutes (-12) in let c := Addition (Years 1) (Months 2) in
  tt_ok a && tt_ok b && tt_ok c && amount_only a && amount_only b && amount_only c = true /\
  abs_secs a + abs_secs b + abs_secs c <= i64_max /\
  calculate Checked (Subtraction a (Subtraction b c)) = Ok (Minutes 608712).
Proof. repeat split; vm_compute; congruence. Qed.
