(** Property C103: how many calls of the evaluator an iteration takes. *)
Require Import ZArith Bool List Lia.
From Verif Require Import Prelude Spec Chrono TimeType Iter SpecTree SpecIter SpecCalls SpecIterCalls IterCallsProofs.
Import ListNotations.

(** C103. The calls counted for next() are those of the evaluation it makes (C100 for what a call makes). *)
Theorem C103_next : forall md it,
  (had_first it = false -> fst (iter_next md it) = Some (Ok (base it)) /\ forall N, next_calls md N it = 0%nat) /\
  (had_first it = true -> fst (iter_next md it) = Some (calculate md (Addition (base it) (increment it))) /\
     forall N, next_calls md N it = calls md N (CCalc (Addition (base it) (increment it)))).
Proof. exact next_evaluates. Qed.
Print Assumptions C103_next.
(** As long as the items succeed the next call takes three, however many items there were ([N] is a bound of the nesting). *)
Theorem C103_item : forall md m u n it k v, build m (mk u n) = Ok it -> dt_valid m = true -> in_i64 n = true ->
  nth_item (iter_next md) k it = Some (Ok v) -> forall N, (3 <= N)%nat -> next_calls md N (after (iter_next md) (S k) it) = 3%nat.
Proof. exact item_calls. Qed.
Print Assumptions C103_item.
Theorem C103_items : forall md m u n it k v, build m (mk u n) = Ok it -> dt_valid m = true -> in_i64 n = true ->
  nth_item (iter_next md) k it = Some (Ok v) -> forall N, (3 <= N)%nat -> total_calls md N (S k) it = (3 * k)%nat.
Proof. exact total_items. Qed.
Print Assumptions C103_items.
(** After the first error every call takes one more than the one before. *)
Theorem C103_error : forall md m u n it K e, build m (mk u n) = Ok it -> dt_valid m = true -> in_i64 n = true ->
  nth_item (iter_next md) (S K) it = Some (Err e) -> forall b, nth_item (iter_next md) K it = Some (Ok (Moment b)) ->
  forall j N, (j + 3 <= N)%nat -> next_calls md N (after (iter_next md) (S K + j) it) = (j + 3)%nat.
Proof. exact error_calls. Qed.
Print Assumptions C103_error.
(** So the work of an iteration that goes on after an error is quadratic. *)
Theorem C103_errors : forall md m u n it K e, build m (mk u n) = Ok it -> dt_valid m = true -> in_i64 n = true ->
  nth_item (iter_next md) (S K) it = Some (Err e) -> forall b, nth_item (iter_next md) K it = Some (Ok (Moment b)) ->
  forall j N, (j + 3 <= N)%nat -> (2 * total_calls md N (S K + j) it = 2 * (3 * K) + j * (j + 5))%nat.
Proof. exact total_errors. Qed.
Print Assumptions C103_errors.

Definition C103_iter : iter := mkiter (Moment (mkdt 2016 10 30 5 6 7 0)) (Months 2) false.
(** 30 October, 30 December, then an error (which names the hour where the day belongs, C26). *)
Example C103_case : build (mkdt 2016 10 30 5 6 7 0) (mk UMonth 2) = Ok C103_iter /\
  nth_item (iter_next Checked) 1 C103_iter = Some (Ok (Moment (mkdt 2016 12 30 5 6 7 0))) /\
  nth_item (iter_next Checked) 2 C103_iter = Some (Err (OutOfBounds 2017 2 5 5 6 7)).
Proof. vm_compute. repeat split. Qed.
Example C103_calls_case : map (fun k => next_calls Checked 20 (after (iter_next Checked) k C103_iter)) [0; 1; 2; 3; 4; 5]%nat = [0; 3; 3; 4; 5; 6]%nat /\
  map (fun k => total_calls Checked 20 k C103_iter) [1; 2; 3; 4; 5; 6]%nat = [0; 3; 6; 10; 15; 21]%nat.
Proof. vm_compute. repeat split. Qed.
