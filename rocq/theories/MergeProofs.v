(** Two iterations side by side (C122). *)
Require Import ZArith Bool List Lia ZifyBool.
From Verif Require Import Prelude Spec Chrono TimeType Iter SpecTree SpecMoment SpecIter SpecVisit EvalProofs IterProofs IterProofs2 VisitProofs.
Local Open Scope Z_scope.

Section Merge.
Variable md : mode.

Lemma next_increment : forall it, increment (snd (iter_next md it)) = increment it.
Proof.
  intros it. destruct (had_first it) eqn:H; [rewrite next_later by exact H|rewrite next_first by exact H; reflexivity].
  destruct (calculate md (step it)); reflexivity.
Qed.
Lemma after_increment : forall k it, increment (after (iter_next md) k it) = increment it.
Proof. induction k as [|k IH]; intros it; [reflexivity|]. cbn [after]. rewrite IH. apply next_increment. Qed.
Lemma after_item : forall k it v, nth_item (iter_next md) k it = Some (Ok v) -> after (iter_next md) (S k) it = mkiter v (increment it) true.
Proof.
  intros k it v E. rewrite <- (after_increment k it). unfold nth_item in E.
  replace (S k) with (k + 1)%nat by lia. rewrite after_add. cbn [after]. set (s := after (iter_next md) k it) in *. clearbody s.
  destruct (had_first s) eqn:H; [rewrite next_later in * by exact H|rewrite next_first in * by exact H; cbn in *; congruence].
  destruct (calculate md (step s)); cbn [fst snd] in *; congruence.
Qed.

Lemma merge : forall it it' j k v i, increment it = increment it' ->
  nth_item (iter_next md) j it = Some (Ok v) -> nth_item (iter_next md) k it' = Some (Ok v) ->
  nth_item (iter_next md) (j + i) it = nth_item (iter_next md) (k + i) it'.
Proof.
  intros it it' j k v i Hi Ej Ek. destruct i as [|i]; [rewrite !Nat.add_0_r; congruence|].
  replace (j + S i)%nat with (S j + i)%nat by lia. replace (k + S i)%nat with (S k + i)%nat by lia.
  rewrite !nth_item_add, (after_item j it v Ej), (after_item k it' v Ek), Hi. reflexivity.
Qed.
Lemma merge_built : forall a b inc it it' j k x i, build a inc = Ok it -> build b inc = Ok it' ->
  nth_item (iter_next md) j it = Some (Ok (Moment x)) -> nth_item (iter_next md) k it' = Some (Ok (Moment x)) ->
  nth_item (iter_next md) (j + i) it = nth_item (iter_next md) (k + i) it'.
Proof.
  intros a b inc it it' j k x i B B'. apply merge. apply build_iff in B, B'. destruct B as [_ ->], B' as [_ ->]. reflexivity.
Qed.

Lemma distance : forall a b u n it it' k x y, build a (mk u n) = Ok it -> build b (mk u n) = Ok it' -> dt_valid a = true -> dt_valid b = true ->
  clock_unit u = true -> 0 <= n -> n * unit_secs u <= 30 * 86400 ->
  nth_item (iter_next md) k it = Some (Ok (Moment x)) -> nth_item (iter_next md) k it' = Some (Ok (Moment y)) -> inst y - inst x = inst b - inst a.
Proof.
  intros a b u n it it' k x y B B' Ha Hb Hu Hn Hs Ex Ey.
  destruct k as [|k]; [rewrite (build_first md a _ it B) in Ex; rewrite (build_first md b _ it' B') in Ey; congruence|].
  assert (P : forall m it z, build m (mk u n) = Ok it -> dt_valid m = true -> nth_item (iter_next md) (S k) it = Some (Ok (Moment z)) -> inst z = inst m + Z.of_nat (S k) * n * unit_secs u).
  { clear - Hu Hn Hs. intros m it z B Hm E. destruct (Z_lt_le_dec (inst m + Z.of_nat (S k) * n * unit_secs u) (instant (max_year + 1) 1 1 0 0 0)) as [L|L].
    - destruct (b_clock md m u n it (S k) B Hm Hu Hn Hs ltac:(lia) L) as (z' & E' & _ & _ & I). rewrite E in E'. injection E' as <-. exact I.
    - destruct (b_clock_beyond md m u n it (S k) B Hm Hu Hn Hs L) as (y & mo & d & h & mi & s & F). rewrite (F (S k) ltac:(lia)) in E. discriminate E. }
  rewrite (P a it x B Ha Ex), (P b it' y B' Hb Ey). lia.
Qed.

Lemma meet_iff : forall a b u n it it', build a (mk u n) = Ok it -> build b (mk u n) = Ok it' -> dt_valid a = true -> dt_valid b = true -> nano a = 0 -> nano b = 0 ->
  clock_unit u = true -> 0 < n -> n * unit_secs u <= 30 * 86400 -> inst a <= inst b ->
  ((exists x, visits (iter_next md) it x /\ visits (iter_next md) it' x) <-> (n * unit_secs u | inst b - inst a)).
Proof.
  intros a b u n it it' B B' Ha Hb Na Nb Hu Hn Hs Hab. split.
  - intros (x & [j Ej] & [k Ek]).
    assert (P : forall m it j, build m (mk u n) = Ok it -> dt_valid m = true -> nth_item (iter_next md) j it = Some (Ok (Moment x)) -> inst x = inst m + Z.of_nat j * n * unit_secs u).
    { clear - Hu Hn Hs. intros m it k B Hm E. destruct k as [|k]; [rewrite (build_first md m _ it B) in E; injection E as <-; lia|].
      destruct (Z_lt_le_dec (inst m + Z.of_nat (S k) * n * unit_secs u) (instant (max_year + 1) 1 1 0 0 0)) as [L|L].
      - destruct (b_clock md m u n it (S k) B Hm Hu ltac:(lia) Hs ltac:(lia) L) as (z' & E' & _ & _ & I). rewrite E in E'. injection E' as <-. exact I.
      - destruct (b_clock_beyond md m u n it (S k) B Hm Hu ltac:(lia) Hs L) as (y & mo & d & h & mi & s & F). rewrite (F (S k) ltac:(lia)) in E. discriminate E. }
    pose proof (P a it j B Ha Ej) as I. pose proof (P b it' k B' Hb Ek) as J. exists (Z.of_nat j - Z.of_nat k). rewrite Z.mul_assoc, !Z.mul_sub_distr_r. lia.
  - intros D. exists b. split; [|exists 0%nat; exact (build_first md b _ it' B')]. apply (clock_visits md a u n it b B Ha Na Hu Hn Hs Hb Nb). split; assumption.
Qed.
End Merge.
