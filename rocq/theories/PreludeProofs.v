(** Facts about outcomes, i64 arithmetic, casts and loops. *)
Require Import ZArith Bool List Lia ZifyBool.
From Verif Require Import Prelude.
Local Open Scope Z_scope.
Ltac Zify.zify_post_hook ::= Z.div_mod_to_equations.

Lemma in_i64_iff : forall z, in_i64 z = true <-> i64_min <= z <= i64_max.
Proof. intro z. unfold in_i64. lia. Qed.

Lemma in_i64_false : forall z, in_i64 z = false <-> (z < i64_min \/ i64_max < z).
Proof. intro z. unfold in_i64. lia. Qed.

Lemma wrap64_range : forall z, i64_min <= wrap64 z <= i64_max.
Proof.
  intro z. unfold wrap64, i64_min, i64_max.
  pose proof (Z.mod_pos_bound (z + 9223372036854775808) 18446744073709551616). lia.
Qed.

Lemma wrap64_congr : forall z, exists k, wrap64 z = z + k * 18446744073709551616.
Proof.
  intro z. unfold wrap64. exists (- ((z + 9223372036854775808) / 18446744073709551616)).
  pose proof (Z.div_mod (z + 9223372036854775808) 18446744073709551616). lia.
Qed.

Lemma wrap64_id : forall z, i64_min <= z <= i64_max -> wrap64 z = z.
Proof. intros z H. unfold wrap64, i64_min, i64_max in *. rewrite Z.mod_small; lia. Qed.

Lemma arith_ok : forall {E} md z, i64_min <= z <= i64_max -> @arith E md z = Ok z.
Proof. intros E md z H. unfold arith. apply in_i64_iff in H. rewrite H. reflexivity. Qed.

Lemma as_u32_id : forall z, 0 <= z < 4294967296 -> as_u32 z = z.
Proof. intros. unfold as_u32. apply Z.mod_small; lia. Qed.

Lemma as_i32_id : forall z, -2147483648 <= z < 2147483648 -> as_i32 z = z.
Proof. intros. unfold as_i32. rewrite Z.mod_small; lia. Qed.

Lemma as_i32_range : forall z, -2147483648 <= as_i32 z < 2147483648.
Proof. intro z. unfold as_i32. pose proof (Z.mod_pos_bound (z + 2147483648) 4294967296). lia. Qed.

Lemma as_u32_range : forall z, 0 <= as_u32 z < 4294967296.
Proof. intro z. unfold as_u32. apply Z.mod_pos_bound. lia. Qed.

Lemma bind_ok : forall {E A B} (x : outcome E A) (f : A -> outcome E B) b,
  bind x f = Ok b -> exists a, x = Ok a /\ f a = Ok b.
Proof. intros E A B x f b H. destruct x; simpl in H; try discriminate. eauto. Qed.

Lemma bind_bind : forall {E A B C} (x : outcome E A) (f : A -> outcome E B) (g : B -> outcome E C),
  bind (bind x f) g = bind x (fun a => bind (f a) g).
Proof. intros. destruct x; reflexivity. Qed.

(** ** Loops *)
Fixpoint iter_nat {S R : Type} (n : nat) (body : S -> S + R) (s : S) : S + R :=
  match n with
  | O => inl s
  | Datatypes.S n' => match body s with inl s' => iter_nat n' body s' | inr r => inr r end
  end.

Lemma iter_nat_add : forall {S R} (body : S -> S + R) a b s,
  iter_nat (a + b) body s =
  match iter_nat a body s with inl s' => iter_nat b body s' | inr r => inr r end.
Proof.
  induction a; intros; simpl.
  - reflexivity.
  - destruct (body s); auto.
Qed.

Lemma iter_pos_nat : forall {S R} (body : S -> S + R) p s,
  iter_pos p body s = iter_nat (Pos.to_nat p) body s.
Proof.
  induction p; intros; simpl iter_pos.
  - rewrite Pos2Nat.inj_xI. simpl. destruct (body s); auto.
    rewrite IHp. replace (Pos.to_nat p + (Pos.to_nat p + 0))%nat
      with (Pos.to_nat p + Pos.to_nat p)%nat by lia.
    rewrite iter_nat_add. destruct (iter_nat (Pos.to_nat p) body s0); auto.
  - rewrite Pos2Nat.inj_xO. replace (2 * Pos.to_nat p)%nat
      with (Pos.to_nat p + Pos.to_nat p)%nat by lia.
    rewrite iter_nat_add, IHp. destruct (iter_nat (Pos.to_nat p) body s); auto.
  - simpl. destruct (body s); auto.
Qed.

(** [wrun cond step s r n]: the loop started in [s] ends with [r] after [n] tests. *)
Inductive wrun {E S : Type} (cond : S -> bool) (step : S -> outcome E S) :
  S -> outcome E S -> nat -> Prop :=
| wstop : forall s, cond s = false -> wrun cond step s (Ok s) 1
| wstep : forall s s' r n, cond s = true -> step s = Ok s' ->
    wrun cond step s' r n -> wrun cond step s r (Datatypes.S n)
| wfail : forall s r, cond s = true -> step s = r -> (forall x, r <> Ok x) ->
    wrun cond step s r 1.

Lemma wrun_while : forall {E S} (cond : S -> bool) (step : S -> outcome E S) s r n,
  wrun cond step s r n -> Z.of_nat n <= 18446744073709551616 ->
  while cond step s = r.
Proof.
  intros E S cond step s r n H Hn. unfold while. rewrite iter_pos_nat.
  set (bd := fun st : S => if cond st then match step st with Ok st' => inl st' | other => inr other end
                           else inr (Ok st)).
  assert (Hge : (n <= Pos.to_nat loop_fuel)%nat).
  { apply Nat2Z.inj_le. rewrite positive_nat_Z. unfold loop_fuel. lia. }
  assert (Hit : forall m, (n <= m)%nat -> iter_nat m bd s = inr r).
  { clear Hn Hge. induction H; intros m Hm; destruct m; try lia; simpl; unfold bd at 1.
    - rewrite H. reflexivity.
    - rewrite H, H0. apply IHwrun. lia.
    - rewrite H, H0. destruct r; try reflexivity. exfalso. eapply H1; reflexivity. }
  rewrite (Hit _ Hge). reflexivity.
Qed.
