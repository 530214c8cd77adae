(** Property C106: adapters stacked in any order and to any depth. *)
Require Import ZArith Bool String List Lia.
From Verif Require Import Prelude Spec Chrono TimeType Matcher Iter SpecTree SpecMoment SpecIter SpecAdapt SpecHang SpecAnswer SpecAnswer2 Stack SpecStack StackProofs Props_Hang
  Nom ParserTimetype ParserIterator ParserMod SpecText CliProofs2 CliProofs4.
Import ListNotations.
Local Open Scope Z_scope.

(** C106. The first calls of a stack of adapters return the items [l] exactly if [l] is what the operations on lists make of the items of the iterator
    at the bottom. *)
Theorem C106_exactly : forall md p s l, stack_ok p -> start p = Ok s ->
  (yields md p l <-> returned l /\ exists f, items (call md f p) (length l) s = l).
Proof. exact stack_exactly. Qed.
Print Assumptions C106_exactly.
(** The answers do not depend on how long the loops may run. *)
Theorem C106_enough : forall md p s f f' k, (f <= f')%nat -> returned (items (call md f p) k s) -> items (call md f' p) k s = items (call md f p) k s.
Proof. exact stack_enough. Qed.
Print Assumptions C106_enough.
(** The lists determine the next call: there is at most one list of each length, and the call after it never returns exactly if no longer one exists. *)
Theorem C106_unique : forall md p s l l', stack_ok p -> start p = Ok s -> yields md p l -> yields md p l' -> length l = length l' -> l = l'.
Proof. exact stack_unique. Qed.
Print Assumptions C106_unique.
Theorem C106_prefix : forall md p s l r, stack_ok p -> start p = Ok s -> yields md p (l ++ r) -> yields md p l.
Proof. exact stack_prefix. Qed.
Print Assumptions C106_prefix.
Theorem C106_hangs : forall md p s l, stack_ok p -> start p = Ok s -> yields md p l ->
  ((~ exists x, yields md p (l ++ [x])) <-> exists F, forall f, (F <= f)%nat -> nth_item (call md f p) (length l) s = Some OutOfFuel).
Proof. exact stack_hangs. Qed.
Print Assumptions C106_hangs.
(** Over a step that moves, every call of every stack returns, and only finitely many return a value. *)
Theorem C106_moving : forall md p s u n, stack_ok p -> start p = Ok s -> root p = mk u n -> moving u n ->
  (forall k, exists f, forall f', (f <= f')%nat -> returned (items (call md f' p) k s)) /\
  (exists N, forall l i t, yields md p l -> nth_error l i = Some (Some (Ok t)) -> (i < N)%nat).
Proof. exact stack_returns. Qed.
Print Assumptions C106_moving.

(** Iterators read from a text can be at the bottom too. *)
Theorem C106_parsed : forall cfg pd pdt, (forall s r d, pd s = Done r d -> isodate_ok d) -> (forall s r d t, pdt s = Done r (d, t) -> isodate_ok d /\ isotime_ok t) ->
  forall md now1 now2 s ui, dt_valid now1 = true -> dt_valid now2 = true -> parse md cfg pd pdt now1 now2 s = Ok (PIterator (Ok ui)) -> stack_ok (Parsed ui).
Proof. exact parsed_ok. Qed.
Print Assumptions C106_parsed.

(** Saturdays that are not in January, at most five, before 10 February: `daily(1)` from 20 December 2018. *)
Definition C106_days : stack := Stepping (mkdt 2018 12 20 10 0 0 0) (Days 1).
Definition C106_stack : stack :=
  UntilOf (TimesOf (WithoutOf (EveryOf C106_days (day_matches Saturday)) (month_matches January)) 5) (mkdt 2019 2 10 0 0 0 0).
Definition C106_list : list item :=
  listed [mkdt 2018 12 22 10 0 0 0; mkdt 2018 12 29 10 0 0 0; mkdt 2019 2 2 10 0 0 0; mkdt 2019 2 9 10 0 0 0] ++ [None; None].
Example C106_case : exists s, stack_ok C106_stack /\ start C106_stack = Ok s /\ items (call Checked 30 C106_stack) 6 s = C106_list /\
  returned C106_list /\ yields Checked C106_stack C106_list /\ root C106_stack = mk UDay 1 /\ moving UDay 1.
Proof.
  eexists. assert (F : stack_ok C106_stack) by (repeat split; intros []; discriminate). split; [exact F|]. split; [reflexivity|].
  match goal with |- ?a = _ /\ _ => assert (E : a = C106_list) by (vm_compute; reflexivity) end. split; [exact E|].
  assert (R : returned C106_list) by (repeat constructor; discriminate). split; [exact R|]. split.
  - refine (proj2 (C106_exactly Checked C106_stack _ C106_list F eq_refl) (conj R _)). exists 30%nat. exact E.
  - split; [reflexivity|]. left. split; [reflexivity|discriminate].
Qed.
(** The order matters: the first five days have one Saturday. *)
Example C106_order_case : let p := EveryOf (TimesOf C106_days 5) (day_matches Saturday) in exists s, stack_ok p /\ start p = Ok s /\
  items (call Wrapping 10 p) 3 s = listed [mkdt 2018 12 22 10 0 0 0] ++ [None; None].
Proof. cbv zeta. eexists. split; [repeat split; intros []; discriminate|]. split; [reflexivity|]. vm_compute. reflexivity. Qed.
(** A day that does not move, filtered by another: no first item, whatever is put on top but `times(0)`. *)
Definition C106_still : stack := EveryOf (Stepping (mkdt 2016 1 29 10 0 0 5) (Days 0)) (day_matches Saturday).
Example C106_still_case : exists s, stack_ok C106_still /\ start C106_still = Ok s /\ yields Checked C106_still [] /\ (~ exists x, yields Checked C106_still ([] ++ [x])) /\
  yields Checked (TimesOf C106_still 0) [None; None].
Proof.
  eexists. assert (F : stack_ok C106_still) by (repeat split; intros []; discriminate). split; [exact F|]. split; [reflexivity|].
  assert (Y : yields Checked C106_still []) by (exists []; split; reflexivity). split; [exact Y|]. split.
  - apply (C106_hangs Checked C106_still _ [] F eq_refl Y). exists 0%nat. intros f _.
    exact (proj1 (C96_zero Checked (mkdt 2016 1 29 10 0 0 5) UDay _ eq_refl eq_refl) Saturday f).
  - exists [], 2%nat. split; [exact Y|]. split; [reflexivity|]. split; [discriminate|]. reflexivity.
Qed.
(** The Saturdays among twenty days, the days read from a text. *)
Example C106_parsed_case : exists ui, parse Checked (mkcfg true true) toy_dates toy_times (mkdt 2018 12 20 10 0 0 7) (mkdt 2018 12 20 10 0 0 8) "today daily 20 times"%string = Ok (PIterator (Ok ui)) /\
  stack_ok (EveryOf (Parsed ui) (day_matches Saturday)) /\
  yields Checked (EveryOf (Parsed ui) (day_matches Saturday)) (listed [mkdt 2018 12 22 10 0 0 0; mkdt 2018 12 29 10 0 0 0; mkdt 2019 1 5 10 0 0 0] ++ [None]).
Proof.
  eexists. split; [vm_compute; reflexivity|].
  match goal with |- stack_ok ?p /\ yields _ _ ?l => assert (F : stack_ok p) by (repeat split; try reflexivity; intros []; discriminate);
    split; [exact F|]; refine (proj2 (C106_exactly Checked p _ l F eq_refl) (conj _ _)) end.
  - repeat constructor; discriminate.
  - exists 30%nat. vm_compute. reflexivity.
Qed.
