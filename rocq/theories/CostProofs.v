(** Number of turns of the loops of src/util.rs. *)
Require Import ZArith Bool List Lia ZifyBool.
From Verif Require Import Prelude Spec Chrono Util SpecCost PreludeProofs CalendarProofs LoopProofs.
Local Open Scope Z_scope.
Ltac Zify.zify_post_hook ::= Z.div_mod_to_equations.

Section Cost.
Context {E : Type}.
Variable md : mode.

Lemma month_turns : forall (n : nat) y d mo, d <= Z.of_nat n -> 1 <= d <= i64_max -> i64_min <= mo -> mo + d <= i64_max ->
  exists k, turns (mcond y) (@mstep E md y) (d, mo) k /\ (d - 1) / 31 <= Z.of_nat k <= (d - 1) / 28.
Proof.
  induction n as [|n IH]; intros y d mo Hn Hd Hmo Hb; [lia|].
  pose proof (gndm_bounds y mo) as G. destruct (mcond y (d, mo)) eqn:C.
  - cbn in C. destruct (IH y (d - get_num_of_days_in_month y mo) (mo + 1)) as (k & T & K); try lia.
    exists (Datatypes.S k). split.
    + eapply turns_step; [exact C| |exact T]. apply mstep_ok; lia.
    + lia.
  - exists 0%nat. split; [apply turns_stop; exact C|]. cbn in C. lia.
Qed.
Lemma year_turns : forall (n : nat) y mo, 1 <= mo <= i64_max -> (mo - 1) / 12 = Z.of_nat n -> i64_min <= y -> y + Z.of_nat n <= i64_max ->
  turns ycond (@ystep E md) (y, mo) n.
Proof.
  induction n as [|n IH]; intros y mo Hmo Hn Hy Hb.
  - apply turns_stop. cbn. lia.
  - eapply turns_step; [cbn; lia| |apply (IH (y + 1) (mo - 12)); lia].
    unfold ystep, addc, subc. cbn [bind]. rewrite arith_ok by (unfold i64_min, i64_max in *; lia).
    cbn [bind]. rewrite arith_ok by (unfold i64_min, i64_max in *; lia). reflexivity.
Qed.
Lemma turns_unique : forall S (c : S -> bool) (f : S -> outcome E S) s k, turns c f s k -> forall k', turns c f s k' -> k = k'.
Proof.
  intros S c f s k H. induction H as [s H|s s' k H1 H2 H3 IH]; intros k' K; inversion K; subst; try congruence.
  f_equal. apply IH. congruence.
Qed.

Lemma months_cost : forall y d mo, 1 <= d <= i64_max -> i64_min <= mo -> mo + d <= i64_max ->
  let c := fun st : Z * Z => let '(d, mo) := st in get_num_of_days_in_month y mo <? d in
  let f := fun st : Z * Z => let '(d, mo) := st in
    do d' <- @subc E md (Ok d) (Ok (get_num_of_days_in_month y mo)); do mo' <- addc md (Ok mo) (Ok 1); Ok (d', mo') in
  month_loop md y d mo = while c f (d, mo) /\
  exists k, turns c f (d, mo) k /\ (d - 1) / 31 <= Z.of_nat k <= (d - 1) / 28.
Proof.
  intros y d mo Hd Hmo Hb c f. split; [reflexivity|]. apply (month_turns (Z.to_nat d)); lia.
Qed.
Lemma years_cost : forall y mo, 1 <= mo <= i64_max -> i64_min <= y -> y + (mo - 1) / 12 <= i64_max ->
  let c := fun st : Z * Z => let '(y, mo) := st in 12 <? mo in
  let f := fun st : Z * Z => let '(y, mo) := st in
    do y' <- @addc E md (Ok y) (Ok 1); do mo' <- subc md (Ok mo) (Ok 12); Ok (y', mo') in
  year_loop md y mo = while c f (y, mo) /\
  exists k, turns c f (y, mo) k /\ Z.of_nat k = (mo - 1) / 12.
Proof.
  intros y mo Hmo Hy Hb c f. split; [reflexivity|]. exists (Z.to_nat ((mo - 1) / 12)). split; [|lia].
  apply year_turns; lia.
Qed.
End Cost.
