(** Leap years at equal distances. *)
Require Import ZArith Znumtheory Bool List Lia ZifyBool.
From Verif Require Import Prelude Spec Chrono Util TimeType Matcher Iter SpecTree SpecMoment SpecIter SpecExact SpecForever PreludeProofs EvalProofs AmountProofs
  ShapeProofs CompProofs CalendarProofs OrdProofs AddProofs AddProofs2 IterProofs IterProofs2 IterProofs3 VisitProofs ExactProofs ExactProofs5 AlwaysProofs SoonerProofs.
Import ListNotations.
Local Open Scope Z_scope.
Local Ltac Zify.zify_post_hook ::= Z.to_euclidean_division_equations.

(** ** Leap years at equal distances *)
Fixpoint all {A} (f : A -> bool) (l : list A) : bool := match l with [] => true | a :: l => if f a then all f l else false end.
Lemma all_forall : forall {A} (f : A -> bool) l, all f l = true <-> forall x, In x l -> f x = true.
Proof.
  induction l as [|a l IH]; cbn [all]; [split; [intros _ x []|reflexivity]|]. destruct (f a) eqn:E.
  - rewrite IH. split; [intros H x [<-|I]; auto|intros H x I; apply H; right; exact I].
  - split; [discriminate|]. intro H. rewrite (H a (or_introl eq_refl)) in E. discriminate.
Qed.
Definition stays_leap_b (y q : Z) : bool :=
  if leap y then if q mod 4 =? 0 then
    let g := Z.gcd q 400 in negb ((y - 100) mod g =? 0) && negb ((y - 200) mod g =? 0) && negb ((y - 300) mod g =? 0)
  else false else false.
Definition leap_at (l : list Z) (y q : Z) : bool := all (fun t => leap (y + t * q)) l.
Definition leap_table (l r : list Z) : bool := all (fun y => all (fun q => Bool.eqb (leap_at l y q) (stays_leap_b y q)) r) r.
Lemma leap_table_spec : forall l r, leap_table l r = true -> forall y q, In y r -> In q r -> leap_at l y q = stays_leap_b y q.
Proof.
  intros l r H y q Iy Iq. unfold leap_table in H. pose proof (proj1 (all_forall _ _) H y Iy) as T. cbv beta in T.
  pose proof (proj1 (all_forall _ _) T q Iq) as T'. cbv beta in T'. apply Bool.eqb_prop. exact T'.
Qed.
Lemma leap_table_ok : leap_table (upto 0 100) (upto 0 400) = true.
Proof. vm_compute. reflexivity. Qed.

Lemma gcd_pos : forall q c, 0 < c -> 0 < Z.gcd q c.
Proof. intros q c H. pose proof (Z.gcd_nonneg q c). assert (Z.gcd q c <> 0) by (intro E; apply Z.gcd_eq_0_r in E; lia). lia. Qed.
Lemma gcd_cycle : forall q, Z.gcd q 400 = Z.gcd (q mod 400) 400.
Proof.
  intro q. rewrite (Z.div_mod q 400) at 1 by lia. rewrite Z.gcd_comm, (Z.gcd_comm (q mod 400)).
  replace (400 * (q / 400) + q mod 400) with (q mod 400 + (q / 400) * 400) by ring. apply Z.gcd_add_mult_diag_r.
Qed.
Lemma stays_leap_iff : forall y q, stays_leap y q <-> stays_leap_b (y mod 400) (q mod 400) = true.
Proof.
  intros y q. unfold stays_leap, stays_leap_b. rewrite <- gcd_cycle.
  assert (Ly : leap y = leap (y mod 400)). { rewrite (Z.div_mod y 400) at 1 by lia. rewrite Z.add_comm. apply leap_400. }
  rewrite <- Ly. pose proof (gcd_pos q 400 ltac:(lia)) as G.
  assert (D4 : (4 | q) <-> (q mod 400) mod 4 = 0). { split; [intros [c ->]; lia|intro H; exists (q / 4); lia]. }
  assert (Dg : forall e, (Z.gcd q 400 | y - e) <-> (y mod 400 - e) mod Z.gcd q 400 = 0).
  { intro e. destruct (Z.gcd_divide_r q 400) as [c C]. set (g := Z.gcd q 400) in *. clearbody g.
    assert (E : y = g * (c * (y / 400)) + y mod 400). { rewrite (Z.div_mod y 400) at 1 by lia. rewrite C at 1. ring. }
    split.
    - intros [z Z0]. apply Z.mod_divide; [lia|]. exists (z - c * (y / 400)). rewrite Z.mul_sub_distr_r, <- Z0. lia.
    - intro M. apply Z.mod_divide in M; [|lia]. destruct M as [z Z0]. exists (z + c * (y / 400)). rewrite Z.mul_add_distr_r, <- Z0. lia. }
  rewrite D4. cbv zeta.
  replace (if leap y then if (q mod 400) mod 4 =? 0 then negb ((y mod 400 - 100) mod Z.gcd q 400 =? 0) && negb ((y mod 400 - 200) mod Z.gcd q 400 =? 0) &&
    negb ((y mod 400 - 300) mod Z.gcd q 400 =? 0) else false else false) with (leap y && ((q mod 400) mod 4 =? 0) && negb ((y mod 400 - 100) mod Z.gcd q 400 =? 0) &&
    negb ((y mod 400 - 200) mod Z.gcd q 400 =? 0) && negb ((y mod 400 - 300) mod Z.gcd q 400 =? 0))
    by (destruct (leap y); [destruct ((q mod 400) mod 4 =? 0)|]; reflexivity).
  rewrite !andb_true_iff, !negb_true_iff, Z.eqb_eq, !Z.eqb_neq. rewrite <- !Dg. split.
  - intros (H1 & H2 & H3). pose proof (H3 1 ltac:(lia)). pose proof (H3 2 ltac:(lia)). pose proof (H3 3 ltac:(lia)). tauto.
  - intros ((((H1 & H2) & N1) & N2) & N3). split; [exact H1|]. split; [exact H2|]. intros c Hc. assert (D : c = 1 \/ c = 2 \/ c = 3) by lia.
    destruct D as [->|[->| ->]]; assumption.
Qed.
Lemma leap_mod : forall y q t, leap (y + t * q) = leap (y mod 400 + t * (q mod 400)).
Proof.
  intros y q t. rewrite <- (leap_400 (y mod 400 + t * (q mod 400)) (y / 400 + t * (q / 400))). f_equal.
  pose proof (Z.div_mod y 400 ltac:(lia)). pose proof (Z.div_mod q 400 ltac:(lia)). nia.
Qed.
Lemma stays_table : forall y q, stays_leap y q <-> forall t, 0 <= t < 100 -> leap (y + t * q) = true.
Proof.
  intros y q. rewrite stays_leap_iff.
  pose proof (leap_table_spec _ _ leap_table_ok (y mod 400) (q mod 400) (proj2 (in_upto 0 400 _) (Z.mod_pos_bound y 400 ltac:(lia)))
    (proj2 (in_upto 0 400 _) (Z.mod_pos_bound q 400 ltac:(lia)))) as T'.
  rewrite <- T'. unfold leap_at. rewrite all_forall. split.
  - intros H t Ht. rewrite leap_mod. apply H, in_upto. exact Ht.
  - intros H t Ht. rewrite <- leap_mod. apply H, in_upto. exact Ht.
Qed.
Lemma stays_leap_all : forall y q t, stays_leap y q -> 0 <= t -> leap (y + t * q) = true.
Proof.
  intros y q t S Ht. pose proof (proj1 (stays_table y q) S) as T. destruct S as (_ & [c ->] & _).
  specialize (T (t mod 100) ltac:(lia)). rewrite <- (leap_400 _ (t / 100 * c)) in T. rewrite <- T. f_equal. pose proof (Z.div_mod t 100 ltac:(lia)). nia.
Qed.
Lemma stays_leap_spec : forall y q, stays_leap y q <-> forall t, 0 <= t -> leap (y + t * q) = true.
Proof.
  intros y q. split; [intros S t Ht; exact (stays_leap_all y q t S Ht)|]. intro H. apply stays_table. intros t Ht. apply H. lia.
Qed.
