(** Proofs about expressions that are built by calls of public functions. *)
Require Import ZArith Bool List Lia.
From Verif Require Import Prelude Spec Chrono TimeType SpecTree SpecMoment SpecOver SpecWide SpecValue SpecAnswer SpecClient EvalProofs AddProofs EndProofs AnswerProofs2.
Local Open Scope Z_scope.

Section Client.
Variable md : mode.

Lemma ask_written : forall a, weeks_fit a = true -> ask md a = Ok (written a).
Proof.
  induction a as [u n|n|m|s a IHa b IHb|s a IHa b IHb|k a IHa]; cbn [weeks_fit ask written]; intro F.
  - destruct u; reflexivity.
  - unfold weeks, mulc. cbn [bind]. unfold arith. replace (n * 7) with (7 * n) by lia. rewrite F. reflexivity.
  - reflexivity.
  - apply andb_true_iff in F as [F1 F2]. rewrite IHa, IHb by assumption. destruct s; reflexivity.
  - apply andb_true_iff in F as [F1 F2]. rewrite IHa, IHb by assumption. destruct s; reflexivity.
  - rewrite IHa by exact F. destruct k; reflexivity.
Qed.
Lemma written_ok : forall a, asked_ok a = true -> weeks_fit a = true -> tt_ok (written a) = true.
Proof.
  induction a as [u n|n|m|s a IHa b IHb|s a IHa b IHb|k a IHa]; cbn [asked_ok weeks_fit written]; intros H F.
  - destruct u; exact H.
  - exact F.
  - exact H.
  - apply andb_true_iff in F as [F1 F2]. apply andb_true_iff in H as [H1 H2]. cbn [tt_ok]. rewrite IHa, IHb by assumption. reflexivity.
  - apply andb_true_iff in F as [F1 F2]. apply andb_true_iff in H as [H1 H2]. cbn [tt_ok]. rewrite IHa, IHb by assumption. reflexivity.
  - destruct k; cbn [end_of tt_ok]; auto.
Qed.
Lemma client_answer : forall a, asked_ok a = true -> weeks_fit a = true ->
  (do t <- ask md a; calculate md t) = answer md (written a).
Proof. intros a H F. rewrite ask_written by exact F. cbn [bind]. apply answer_correct. apply written_ok; assumption. Qed.

Lemma client_kinds : forall a t, ask md a = Ok t ->
  (is_a_amount t = true <-> sort_of a = AnAmount) /\ (is_moment t = true <-> sort_of a = AMoment) /\
  (is_addition t = true <-> sort_of a = ASum) /\ (is_subtraction t = true <-> sort_of a = ADifference) /\
  (forall m, get_moment t = Some m <-> a = At m).
Proof.
  intros a t H.
  assert (No : forall m, None = Some m <-> a = At m -> None = Some m <-> a = At m) by tauto.
  destruct a as [u n|n|m|s a b|s a b|k a]; cbn [ask sort_of] in *.
  - injection H as <-. destruct u; cbn; repeat split; intros; congruence.
  - unfold weeks in H. destruct (mulc md (Ok n) 7); cbn [bind] in H; try discriminate H. injection H as <-. cbn. repeat split; intros; congruence.
  - injection H as <-. cbn. repeat split; intros; congruence.
  - destruct (ask md a); try discriminate H. destruct (ask md b); try discriminate H. cbn [bind] in H. injection H as <-. destruct s; cbn; repeat split; intros; congruence.
  - destruct (ask md a); try discriminate H. destruct (ask md b); try discriminate H. cbn [bind] in H. injection H as <-. destruct s; cbn; repeat split; intros; congruence.
  - destruct (ask md a); try discriminate H. cbn [bind] in H. injection H as <-. destruct k; cbn; repeat split; intros; congruence.
Qed.

Lemma client_ends : forall t m, tt_ok t = true -> calculate md t = Ok (Moment m) ->
  calculate md (mk_end_of_year t) = Ok (Moment (mkdt (year m) 12 31 0 0 0 0)) /\
  calculate md (mk_end_of_month t) = Ok (Moment (mkdt (year m) (month m) (month_length (year m) (month m)) 0 0 0 0)) /\
  calculate md (mk_end_of_day t) = Ok (Moment (mkdt (year m) (month m) (day m) 23 59 59 0)) /\
  calculate md (mk_end_of_hour t) = Ok (Moment (mkdt (year m) (month m) (day m) (hour m) 59 59 0)) /\
  calculate md (mk_end_of_minute t) = Ok (Moment (mkdt (year m) (month m) (day m) (hour m) (minute m) 59 0)).
Proof. exact (end_forms md). Qed.
End Client.

Lemma client_overflow : forall a, weeks_fit a = false -> ask Checked a = Panic PArith.
Proof.
  induction a as [u n|n|m|s a IHa b IHb|s a IHa b IHb|k a IHa]; cbn [weeks_fit ask]; intro F; try discriminate F.
  - unfold weeks, mulc. cbn [bind]. unfold arith. replace (n * 7) with (7 * n) by lia. rewrite F. reflexivity.
  - destruct (weeks_fit a) eqn:Fa; cbn [andb] in F.
    + rewrite (ask_written Checked a Fa), IHb by exact F. reflexivity.
    + rewrite IHa by reflexivity. reflexivity.
  - destruct (weeks_fit a) eqn:Fa; cbn [andb] in F.
    + rewrite (ask_written Checked a Fa), IHb by exact F. reflexivity.
    + rewrite IHa by reflexivity. reflexivity.
  - rewrite IHa by exact F. reflexivity.
Qed.
