(** Property C94: how deep evaluation nests its calls. [run md n c] evaluates the call [c] with at most [n] nested calls
    (of the functions of src/timetype.rs 454-1180), and gives [OutOfFuel] if it needs more. *)
Require Import ZArith Bool List Lia.
From Verif Require Import Prelude Chrono TimeType Iter SpecIter ParserTimetype SpecDepth DepthProofs.
Import ListNotations.
Local Open Scope Z_scope.

(** C94. Three times the height of the expression is enough, whatever its size and its numbers. *)
Theorem C94_depth : forall md t n, tt_ok t = true -> (Nat.max 1 (3 * height t) <= n)%nat -> run md n (CCalc t) = calculate md t.
Proof. exact depth_enough. Qed.
Print Assumptions C94_depth.
(** It is also needed, for expressions of every height. *)
Theorem C94_needed : forall md k, height (tower (S k)) = S k /\ tt_ok (tower (S k)) = true /\
  forall n, run md n (CCalc (tower (S k))) = if (n <? 3 * S k)%nat then OutOfFuel else calculate md (tower (S k)).
Proof. exact tower_exact. Qed.
Print Assumptions C94_needed.
(** Texts are grouped from the right: [k] additions need more than 2 [k] nested calls, so long texts need a deep stack. *)
Theorem C94_texts : forall md k, exists t, amountexpr_into md (long_text k) = Ok t /\ tt_ok t = true /\ calculate md t = Ok (Seconds 0) /\
  forall n, (n <= 2 * k)%nat -> run md n (CCalc t) = OutOfFuel.
Proof. exact text_needs. Qed.
Print Assumptions C94_texts.
(** The expression that an iterator holds grows with every call after an error. *)
Theorem C94_errors_grow : forall md it e it' j, iter_ok it -> iter_next md it = (Some (Err e), it') ->
  height (base (after (iter_next md) j it')) = (height (base it) + S j)%nat.
Proof. exact held_height. Qed.
Print Assumptions C94_errors_grow.

Definition C94_tree : timetype :=
  EndOfMonth (Subtraction (Addition (Moment (mkdt 2016 2 29 0 0 0 0)) (Subtraction (Days 3) (Addition (Hours 5) (Seconds 7)))) (Months 1)).
Example C94_case : tt_ok C94_tree = true /\ height C94_tree = 5%nat /\ size C94_tree = 11%nat /\
  calculate Checked C94_tree = Ok (Moment (mkdt 2016 2 29 0 0 0 0)) /\ run Checked 15 (CCalc C94_tree) = calculate Checked C94_tree /\ run Checked 9 (CCalc C94_tree) = OutOfFuel.
Proof. vm_compute. repeat split. Qed.
Example C94_needed_case : run Checked 11 (CCalc (tower 4)) = OutOfFuel /\ run Checked 12 (CCalc (tower 4)) = Ok (Seconds 0).
Proof. split; vm_compute; reflexivity. Qed.
Example C94_errors_case : let it := mkiter (Moment (mkdt 2016 12 30 0 0 0 0)) (Months 2) true in
  iter_ok it /\ fst (iter_next Checked it) = Some (Err (OutOfBounds 2017 2 0 0 0 0)) /\ height (base (after (iter_next Checked) 7 (snd (iter_next Checked it)))) = 8%nat.
Proof. vm_compute. repeat split. Qed.
