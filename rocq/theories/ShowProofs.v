(** Proofs about printed numbers. *)
Require Import ZArith Bool List String Ascii Lia ZifyBool.
From Verif Require Import Prelude Spec Chrono TimeType SpecTree SpecMoment Nom ParserTimetype ParserIterator SpecText Show CliProofs.
Import ListNotations.
Local Open Scope string_scope.
Local Open Scope Z_scope.

Lemma digit_ok : forall n, 0 <= n < 10 -> digit_char (digit_of n) = true /\ digit_val (digit_of n) = n.
Proof.
  intros n H. assert (Q : n = 0 \/ n = 1 \/ n = 2 \/ n = 3 \/ n = 4 \/ n = 5 \/ n = 6 \/ n = 7 \/ n = 8 \/ n = 9) by lia.
  repeat (destruct Q as [->|Q]; [split; reflexivity|]). subst n. split; reflexivity.
Qed.
Lemma all_app : forall f a b, all f (a ++ b) = all f a && all f b.
Proof. induction a as [|c a IH]; intro b; cbn; [reflexivity|]. rewrite IH. apply andb_assoc. Qed.
Lemma decimal_app : forall a b, decimal (a ++ b) = decimal a * 10 ^ Z.of_nat (length b) + decimal b.
Proof.
  induction a as [|c a IH]; intro b; [cbn; lia|]. cbn [append decimal]. rewrite IH, app_len. rewrite Nat2Z.inj_add, Z.pow_add_r by lia. ring.
Qed.
Lemma digits_of_ok : forall fuel n, 0 <= n < 10 ^ Z.of_nat fuel -> (0 < fuel)%nat -> digits (digits_of fuel n) /\ decimal (digits_of fuel n) = n /\ (length (digits_of fuel n) <= fuel)%nat.
Proof.
  induction fuel as [|f IH]; intros n H F; [lia|]. cbn [digits_of]. destruct (n <? 10) eqn:E.
  - destruct (digit_ok n ltac:(lia)) as [D V]. split; [split; [cbn; rewrite D; reflexivity|discriminate]|]. cbn [decimal length]. rewrite V. split; cbn; lia.
  - rewrite Nat2Z.inj_succ, Z.pow_succ_r in H by lia.
    assert (Hf : (0 < f)%nat) by (destruct f; [cbn in H; lia|lia]).
    assert (Hd : 0 <= n / 10 < 10 ^ Z.of_nat f) by (split; [apply Z.div_pos; lia|apply Z.div_lt_upper_bound; lia]).
    destruct (IH (n / 10) Hd Hf) as ([A N] & V & L). destruct (digit_ok (n mod 10) ltac:(apply Z.mod_pos_bound; lia)) as [D DV].
    split; [split|split].
    + rewrite all_app, A. cbn. rewrite D. reflexivity.
    + destruct (digits_of f (n / 10)); [congruence|discriminate].
    + rewrite decimal_app, V. cbn [decimal length]. rewrite DV. cbn [Z.of_nat Pos.of_succ_nat]. pose proof (Z.div_mod n 10). lia.
    + rewrite app_len. cbn. lia.
Qed.
Lemma show_nat_ok : forall n, 0 <= n -> digits (show_nat n) /\ decimal (show_nat n) = n.
Proof.
  intros n H. unfold show_nat. set (f := S (Z.to_nat (Z.log2 n))).
  assert (B : 0 <= n < 10 ^ Z.of_nat f).
  { split; [exact H|]. apply Z.lt_le_trans with (2 ^ Z.of_nat f).
    - unfold f. rewrite Nat2Z.inj_succ, Z2Nat.id by apply Z.log2_nonneg. destruct (Z.eq_dec n 0) as [->|N]; [reflexivity|]. apply Z.log2_spec. lia.
    - apply Z.pow_le_mono_l. lia. }
  destruct (digits_of_ok f n B ltac:(lia)) as (A & V & _). split; assumption.
Qed.
Lemma show_int_nonneg : forall n, 0 <= n -> show_int n = show_nat n.
Proof. intros n H. unfold show_int. replace (n <? 0) with false by lia. reflexivity. Qed.
