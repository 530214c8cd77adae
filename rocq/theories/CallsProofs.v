(** How many calls an evaluation makes. *)
Require Import ZArith Bool List Lia ZifyBool.
From Verif Require Import Prelude Spec Chrono Util TimeType ParserTimetype SpecTree SpecCalls PreludeProofs CalendarProofs EvalProofs AmountProofs ShapeProofs.
Import ListNotations.
Local Open Scope Z_scope.

Section Mode.
Variable md : mode.

(** ** The calls are those that the functions make *)
Section Same.
Variables rec rec' : call -> result.
Lemma same_andthen : forall q (k : timetype -> list call) (f f' : timetype -> result),
  (forall q', In q' (andthen rec q k) -> rec' q' = rec q') ->
  (forall v, rec q = Ok v -> (forall q', In q' (k v) -> rec' q' = rec q') -> f' v = f v) -> bind (rec' q) f' = bind (rec q) f.
Proof.
  intros q k f f' Hq K. unfold andthen in Hq. rewrite (Hq q (or_introl eq_refl)). destruct (rec q) as [v|e|p|] eqn:E; try reflexivity.
  cbn [bind]. apply K; [reflexivity|]. intros q' I. apply Hq. right. exact I.
Qed.
(** Changing the results of other calls changes nothing. *)
Lemma subcalls_enough : forall c, (forall q, In q (subcalls rec c) -> rec' q = rec q) -> body md rec' c = body md rec c.
Proof.
  intros c H.
  assert (One : forall q : call, In q [q]) by (intro q; left; reflexivity).
  destruct c; cbn [body subcalls] in *.
  - destruct t; cbn [do_calculate] in *; try reflexivity; apply H, One.
  - destruct a, b; cbn [add] in *; try reflexivity; try (apply H, One);
      (eapply same_andthen; [exact H|]; intros v _ K; cbv beta in K |- *;
       first [apply K, One | eapply same_andthen; [exact K|]; intros w _ K2; apply K2, One]).
  - destruct a, b; cbn [sub] in *; try reflexivity; try (apply H, One);
      (eapply same_andthen; [exact H|]; intros v _ K; cbv beta in K |- *;
       first [apply K, One | eapply same_andthen; [exact K|]; intros w _ K2; apply K2, One]).
  - unfold end_of_year. eapply same_andthen; [exact H|]. intros v _ K. destruct v; try reflexivity; apply K, One.
  - unfold end_of_month. eapply same_andthen; [exact H|]. intros v _ K. destruct v; try reflexivity; apply K, One.
  - unfold end_of_day. eapply same_andthen; [exact H|]. intros v _ K. destruct v; try reflexivity; apply K, One.
  - unfold end_of_hour. eapply same_andthen; [exact H|]. intros v _ K. destruct v; try reflexivity; apply K, One.
  - unfold end_of_minute. eapply same_andthen; [exact H|]. intros v _ K. destruct v; try reflexivity; apply K, One.
  - destruct t; cbn [add_to_seconds for_operand] in *; try reflexivity; (eapply same_andthen; [exact H|]; intros v _ K; apply K, One).
  - destruct t; cbn [add_to_minutes for_operand] in *; try reflexivity; (eapply same_andthen; [exact H|]; intros v _ K; apply K, One).
  - destruct t; cbn [add_to_hours for_operand] in *; try reflexivity; (eapply same_andthen; [exact H|]; intros v _ K; apply K, One).
  - destruct t; cbn [add_to_days for_operand] in *; try reflexivity; (eapply same_andthen; [exact H|]; intros v _ K; apply K, One).
  - destruct t; cbn [add_to_months for_operand] in *; try reflexivity; (eapply same_andthen; [exact H|]; intros v _ K; apply K, One).
  - destruct t; cbn [add_to_years for_operand] in *; try reflexivity; (eapply same_andthen; [exact H|]; intros v _ K; apply K, One).
  - destruct t; cbn [add_to_moment for_operand] in *; try reflexivity; (eapply same_andthen; [exact H|]; intros v _ K; apply K, One).
  - destruct t; cbn [sub_from_seconds for_operand] in *; try reflexivity; (eapply same_andthen; [exact H|]; intros v _ K; apply K, One).
  - destruct t; cbn [sub_from_minutes for_operand] in *; try reflexivity; (eapply same_andthen; [exact H|]; intros v _ K; apply K, One).
  - destruct t; cbn [sub_from_hours for_operand] in *; try reflexivity; (eapply same_andthen; [exact H|]; intros v _ K; apply K, One).
  - destruct t; cbn [sub_from_days for_operand] in *; try reflexivity; (eapply same_andthen; [exact H|]; intros v _ K; apply K, One).
  - destruct t; cbn [sub_from_months for_operand] in *; try reflexivity; (eapply same_andthen; [exact H|]; intros v _ K; apply K, One).
  - destruct t; cbn [sub_from_years for_operand] in *; try reflexivity; (eapply same_andthen; [exact H|]; intros v _ K; apply K, One).
  - destruct t; cbn [sub_from_moment for_operand] in *; try reflexivity; (eapply same_andthen; [exact H|]; intros v _ K; apply K, One).
Qed.
(** A function does not return if one of them does not. *)
Lemma stuck_andthen : forall q0 q (k : timetype -> list call) (f' : timetype -> result),
  (forall q', rec' q' = OutOfFuel \/ rec' q' = rec q') -> rec' q0 = OutOfFuel -> In q0 (andthen rec q k) ->
  (forall v, rec q = Ok v -> In q0 (k v) -> f' v = OutOfFuel) -> bind (rec' q) f' = OutOfFuel.
Proof.
  intros q0 q k f' A S I K. unfold andthen in I. destruct I as [<-|I]; [rewrite S; reflexivity|].
  destruct (A q) as [E|E]; rewrite E; [reflexivity|]. destruct (rec q) as [v|e|p|] eqn:E2; try destruct I; try reflexivity.
  cbn [bind]. apply K; [reflexivity|exact I].
Qed.
Lemma subcalls_needed : forall c q, In q (subcalls rec c) -> (forall q', rec' q' = OutOfFuel \/ rec' q' = rec q') -> rec' q = OutOfFuel -> body md rec' c = OutOfFuel.
Proof.
  intros c q H A S.
  assert (One : forall x, In q [x] -> rec' x = OutOfFuel) by (intros x [->|[]]; exact S).
  destruct c; cbn [body subcalls] in *.
  - destruct t; cbn [do_calculate] in *; try (destruct H; fail); apply One, H.
  - destruct a, b; cbn [add] in *; try (destruct H; fail); try (apply One; exact H);
      (eapply stuck_andthen; [exact A|exact S|exact H|]; intros v _ K; cbv beta in K |- *;
       first [apply One, K | eapply stuck_andthen; [exact A|exact S|exact K|]; intros w _ K2; apply One, K2]).
  - destruct a, b; cbn [sub] in *; try (destruct H; fail); try (apply One; exact H);
      (eapply stuck_andthen; [exact A|exact S|exact H|]; intros v _ K; cbv beta in K |- *;
       first [apply One, K | eapply stuck_andthen; [exact A|exact S|exact K|]; intros w _ K2; apply One, K2]).
  - unfold end_of_year. eapply stuck_andthen; [exact A|exact S|exact H|]. intros v _ K. destruct v; try (destruct K; fail); apply One, K.
  - unfold end_of_month. eapply stuck_andthen; [exact A|exact S|exact H|]. intros v _ K. destruct v; try (destruct K; fail); apply One, K.
  - unfold end_of_day. eapply stuck_andthen; [exact A|exact S|exact H|]. intros v _ K. destruct v; try (destruct K; fail); apply One, K.
  - unfold end_of_hour. eapply stuck_andthen; [exact A|exact S|exact H|]. intros v _ K. destruct v; try (destruct K; fail); apply One, K.
  - unfold end_of_minute. eapply stuck_andthen; [exact A|exact S|exact H|]. intros v _ K. destruct v; try (destruct K; fail); apply One, K.
  - destruct t; cbn [add_to_seconds for_operand] in *; try (destruct H; fail); (eapply stuck_andthen; [exact A|exact S|exact H|]; intros v _ K; apply One, K).
  - destruct t; cbn [add_to_minutes for_operand] in *; try (destruct H; fail); (eapply stuck_andthen; [exact A|exact S|exact H|]; intros v _ K; apply One, K).
  - destruct t; cbn [add_to_hours for_operand] in *; try (destruct H; fail); (eapply stuck_andthen; [exact A|exact S|exact H|]; intros v _ K; apply One, K).
  - destruct t; cbn [add_to_days for_operand] in *; try (destruct H; fail); (eapply stuck_andthen; [exact A|exact S|exact H|]; intros v _ K; apply One, K).
  - destruct t; cbn [add_to_months for_operand] in *; try (destruct H; fail); (eapply stuck_andthen; [exact A|exact S|exact H|]; intros v _ K; apply One, K).
  - destruct t; cbn [add_to_years for_operand] in *; try (destruct H; fail); (eapply stuck_andthen; [exact A|exact S|exact H|]; intros v _ K; apply One, K).
  - destruct t; cbn [add_to_moment for_operand] in *; try (destruct H; fail); (eapply stuck_andthen; [exact A|exact S|exact H|]; intros v _ K; apply One, K).
  - destruct t; cbn [sub_from_seconds for_operand] in *; try (destruct H; fail); (eapply stuck_andthen; [exact A|exact S|exact H|]; intros v _ K; apply One, K).
  - destruct t; cbn [sub_from_minutes for_operand] in *; try (destruct H; fail); (eapply stuck_andthen; [exact A|exact S|exact H|]; intros v _ K; apply One, K).
  - destruct t; cbn [sub_from_hours for_operand] in *; try (destruct H; fail); (eapply stuck_andthen; [exact A|exact S|exact H|]; intros v _ K; apply One, K).
  - destruct t; cbn [sub_from_days for_operand] in *; try (destruct H; fail); (eapply stuck_andthen; [exact A|exact S|exact H|]; intros v _ K; apply One, K).
  - destruct t; cbn [sub_from_months for_operand] in *; try (destruct H; fail); (eapply stuck_andthen; [exact A|exact S|exact H|]; intros v _ K; apply One, K).
  - destruct t; cbn [sub_from_years for_operand] in *; try (destruct H; fail); (eapply stuck_andthen; [exact A|exact S|exact H|]; intros v _ K; apply One, K).
  - destruct t; cbn [sub_from_moment for_operand] in *; try (destruct H; fail); (eapply stuck_andthen; [exact A|exact S|exact H|]; intros v _ K; apply One, K).
Qed.
End Same.

(** ** Counting them *)
Lemma run_value : forall n c v, call_ok c -> run md n c = Ok v -> is_value v = true /\ tt_ok v = true.
Proof.
  intros n c v C H. pose proof (ev_good md c C) as G.
  assert (E : ev md c = Ok v).
  { unfold ev. destruct (Nat.le_ge_cases n (S (meas c))) as [L|L].
    - rewrite <- H. apply run_le; [exact L|rewrite H; discriminate].
    - rewrite <- H. symmetry. apply (run_le md (S (meas c)) n c L). apply (good_not_fuel md). exact G. }
  rewrite E in G. exact G.
Qed.
Lemma value_operations : forall v, is_value v = true -> operations v = 0%nat.
Proof. intros v H. destruct v; try discriminate H; reflexivity. Qed.
Lemma end_no_operand : forall n v w e, is_value v = true ->
  run md n (CAdd (EndOfYear e) v) <> Ok w /\ run md n (CAdd (EndOfMonth e) v) <> Ok w /\ run md n (CAdd (EndOfDay e) v) <> Ok w /\ run md n (CAdd (EndOfHour e) v) <> Ok w /\ run md n (CAdd (EndOfMinute e) v) <> Ok w /\
  run md n (CSub (EndOfYear e) v) <> Ok w /\ run md n (CSub (EndOfMonth e) v) <> Ok w /\ run md n (CSub (EndOfDay e) v) <> Ok w /\ run md n (CSub (EndOfHour e) v) <> Ok w /\ run md n (CSub (EndOfMinute e) v) <> Ok w.
Proof. intros n v w e H. destruct n; destruct v; try discriminate H; cbn; repeat split; discriminate. Qed.

(** Bounds for all the calls. *)
Definition allowed (c : call) : nat :=
  match c with
  | CCalc t => Nat.max 1 (3 * operations t)
  | CAdd a b | CSub a b => 3 * operations a + 3 * operations b + 2
  | CEndOfYear t | CEndOfMonth t | CEndOfDay t | CEndOfHour t | CEndOfMinute t => 3 * operations t + 2
  | CAddToSeconds _ t | CAddToMinutes _ t | CAddToHours _ t | CAddToDays _ t | CAddToMonths _ t
  | CAddToYears _ t | CSubFromSeconds _ t | CSubFromMinutes _ t | CSubFromHours _ t
  | CSubFromDays _ t | CSubFromMonths _ t | CSubFromYears _ t | CAddToMoment _ t | CSubFromMoment _ t => 3 * operations t + 1
  end%nat.

Ltac oks :=
  repeat match goal with
  | H : _ && _ = true |- _ => apply andb_true_iff in H; destruct H
  | H : _ /\ _ |- _ => destruct H
  | |- _ && _ = true => apply andb_true_iff
  | |- _ /\ _ => split
  end; assumption.
Ltac count n IH :=
  unfold for_operand, for_end, andthen; cbn [map list_sum fold_right];
  repeat match goal with
  | |- context [calls md n ?q] =>
      lazymatch goal with
      | _ : (calls md n q <= _)%nat |- _ => fail
      | _ => let C := fresh "C" in assert (C : call_ok q) by (cbn [call_ok tt_ok] in *; oks); pose proof (IH q C)
      end
  | |- context [match run md n ?q with _ => _ end] =>
      let E := fresh "E" in destruct (run md n q) eqn:E; cbn [map list_sum fold_right];
      [ match goal with C : call_ok q |- _ => destruct (run_value n q _ C E) as [? ?] end | | | ]
  | |- context [match ?t with Seconds _ => _ | _ => _ end] => destruct t; cbn [map list_sum fold_right]
  end.
Ltac noend :=
  try match goal with
  | E : run md ?n (_ (_ ?e) ?v) = Ok ?w, V : is_value ?v = true |- _ => exfalso; pose proof (end_no_operand n v w e V); tauto
  end;
  repeat match goal with H : is_value ?v = true |- _ => apply value_operations in H end.
Lemma calls_bound : forall n c, call_ok c -> (calls md n c <= allowed c)%nat.
Proof.
  induction n as [|n IH]; intros c Hok; [cbn; lia|]. cbn [calls].
  destruct c; cbn [subcalls call_ok allowed] in *.
  - destruct t; count n IH; noend; cbn [allowed operations] in *; lia.
  - destruct a, b; count n IH; noend; cbn [allowed operations] in *; lia.
  - destruct a, b; count n IH; noend; cbn [allowed operations] in *; lia.
  - count n IH; noend; cbn [allowed operations] in *; lia.
  - count n IH; noend; cbn [allowed operations] in *; lia.
  - count n IH; noend; cbn [allowed operations] in *; lia.
  - count n IH; noend; cbn [allowed operations] in *; lia.
  - count n IH; noend; cbn [allowed operations] in *; lia.
  - destruct t; count n IH; noend; cbn [allowed operations] in *; lia.
  - destruct t; count n IH; noend; cbn [allowed operations] in *; lia.
  - destruct t; count n IH; noend; cbn [allowed operations] in *; lia.
  - destruct t; count n IH; noend; cbn [allowed operations] in *; lia.
  - destruct t; count n IH; noend; cbn [allowed operations] in *; lia.
  - destruct t; count n IH; noend; cbn [allowed operations] in *; lia.
  - destruct t; count n IH; noend; cbn [allowed operations] in *; lia.
  - destruct t; count n IH; noend; cbn [allowed operations] in *; lia.
  - destruct t; count n IH; noend; cbn [allowed operations] in *; lia.
  - destruct t; count n IH; noend; cbn [allowed operations] in *; lia.
  - destruct t; count n IH; noend; cbn [allowed operations] in *; lia.
  - destruct t; count n IH; noend; cbn [allowed operations] in *; lia.
  - destruct t; count n IH; noend; cbn [allowed operations] in *; lia.
  - destruct t; count n IH; noend; cbn [allowed operations] in *; lia.
Qed.
(** Exact numbers for the calls that succeed. *)
Definition exactly (c : call) : nat :=
  match c with
  | CCalc t => expected_calls t
  | CEndOfYear t | CEndOfMonth t | CEndOfDay t | CEndOfHour t | CEndOfMinute t => S (expected_calls t)
  | _ => allowed c
  end.
Ltac follow n IH :=
  unfold for_operand, for_end, andthen; cbn [map list_sum fold_right];
  repeat match goal with
  | H : bind (run md n ?q) _ = Ok _ |- _ =>
      let E := fresh "E" in let C := fresh "C" in
      destruct (run md n q) eqn:E; cbn [bind] in H; try discriminate H; cbn [map list_sum fold_right];
      assert (C : call_ok q) by (cbn [call_ok tt_ok] in *; oks); destruct (run_value n q _ C E) as [? ?]; rewrite (IH q _ C E)
  | H : run md n ?q = Ok _ |- context [calls md n ?q] =>
      let C := fresh "C" in assert (C : call_ok q) by (cbn [call_ok tt_ok] in *; oks); rewrite (IH q _ C H)
  end;
  noend; cbn [exactly allowed expected_calls operations] in *; lia.
Ltac ends n IH :=
  unfold for_end, andthen; cbn [map list_sum fold_right];
  match goal with
  | H : bind (run md n ?q) _ = Ok _ |- _ =>
      let E := fresh "E" in let V := fresh "V" in let w := fresh "w" in
      destruct (run md n q) as [w| | |] eqn:E; cbn [bind] in H; try discriminate H;
      match goal with C : tt_ok _ = true |- _ => destruct (run_value n q _ C E) as [V _]; rewrite (IH q _ C E) end;
      destruct w; try discriminate V; cbn [map list_sum fold_right exactly]; lia
  end.
Lemma calls_exact : forall n c v, call_ok c -> run md n c = Ok v -> calls md n c = exactly c.
Proof.
  induction n as [|n IH]; intros c v Hok H; [discriminate H|]. cbn [calls run] in *.
  destruct c; cbn [body subcalls call_ok exactly] in *.
  - destruct t; cbn [do_calculate] in H; try discriminate H; follow n IH.
  - destruct a, b; cbn [add] in H; try discriminate H; follow n IH.
  - destruct a, b; cbn [sub] in H; try discriminate H; follow n IH.
  - unfold end_of_year in H. ends n IH.
  - unfold end_of_month in H. ends n IH.
  - unfold end_of_day in H. ends n IH.
  - unfold end_of_hour in H. ends n IH.
  - unfold end_of_minute in H. ends n IH.
  - destruct t; cbn [add_to_seconds] in H; try discriminate H; follow n IH.
  - destruct t; cbn [add_to_minutes] in H; try discriminate H; follow n IH.
  - destruct t; cbn [add_to_hours] in H; try discriminate H; follow n IH.
  - destruct t; cbn [add_to_days] in H; try discriminate H; follow n IH.
  - destruct t; cbn [add_to_months] in H; try discriminate H; follow n IH.
  - destruct t; cbn [add_to_years] in H; try discriminate H; follow n IH.
  - destruct t; cbn [add_to_moment] in H; try discriminate H; follow n IH.
  - destruct t; cbn [sub_from_seconds] in H; try discriminate H; follow n IH.
  - destruct t; cbn [sub_from_minutes] in H; try discriminate H; follow n IH.
  - destruct t; cbn [sub_from_hours] in H; try discriminate H; follow n IH.
  - destruct t; cbn [sub_from_days] in H; try discriminate H; follow n IH.
  - destruct t; cbn [sub_from_months] in H; try discriminate H; follow n IH.
  - destruct t; cbn [sub_from_years] in H; try discriminate H; follow n IH.
  - destruct t; cbn [sub_from_moment] in H; try discriminate H; follow n IH.
Qed.

Lemma eval_bound : forall t n, tt_ok t = true -> (calls md n (CCalc t) <= Nat.max 1 (3 * operations t))%nat.
Proof. intros t n H. exact (calls_bound n (CCalc t) H). Qed.
Lemma eval_exact : forall t n v, tt_ok t = true -> run md n (CCalc t) = Ok v -> calls md n (CCalc t) = expected_calls t.
Proof. intros t n v H R. exact (calls_exact n (CCalc t) v H R). Qed.
(** Texts. *)
Lemma text_operations : forall e t, amountexpr_into md e = Ok t -> operations t = operators e.
Proof.
  assert (A : forall a t, amount_into md a = Ok t -> operations t = 0%nat).
  { intros [k u] t H. destruct u; cbn in H; try (injection H as <-; reflexivity).
    unfold weeks in H. destruct (mulc md (Ok k) 7); cbn [bind] in H; try discriminate H. injection H as <-. reflexivity. }
  induction e as [a|a op e IH]; intros t H; cbn [amountexpr_into operators] in *; [exact (A a t H)|].
  destruct (amount_into md a) as [x| | |] eqn:E; cbn [bind] in H; try discriminate H.
  destruct (amountexpr_into md e) as [y| | |]; cbn [bind] in H; try discriminate H.
  specialize (A a x E). specialize (IH y eq_refl). destruct op; injection H as <-; cbn [operations op_add op_sub]; lia.
Qed.
Lemma text_calls : forall e t n, amountexpr_into md e = Ok t -> tt_ok t = true -> (calls md n (CCalc t) <= Nat.max 1 (3 * operators e))%nat.
Proof. intros e t n H K. rewrite <- (text_operations e t H). exact (eval_bound t n K). Qed.
End Mode.
