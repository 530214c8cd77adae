(** Property C100: how many calls an evaluation makes. *)
Require Import ZArith Bool List Lia.
From Verif Require Import Prelude Chrono TimeType ParserTimetype SpecCalls CallsProofs.
Import ListNotations.
Local Open Scope Z_scope.

(** C100. The calls counted for a function of src/timetype.rs 454-1180 are those it makes: its result depends on no other calls,
    and it does not return if one of them does not. ([rec] gives the results of calls, [OutOfFuel] for a call that does not return.) *)
Theorem C100_calls : forall md rec rec' c,
  ((forall q, In q (subcalls rec c) -> rec' q = rec q) -> body md rec' c = body md rec c) /\
  (forall q, In q (subcalls rec c) -> (forall q', rec' q' = OutOfFuel \/ rec' q' = rec q') -> rec' q = OutOfFuel -> body md rec' c = OutOfFuel).
Proof. exact (fun md rec rec' c => conj (subcalls_enough md rec rec' c) (subcalls_needed md rec rec' c)). Qed.
Print Assumptions C100_calls.
(** At most three for each operation of the expression, whatever its shape and its numbers, whether it succeeds or not. *)
Theorem C100_bound : forall md t n, tt_ok t = true -> (calls md n (CCalc t) <= Nat.max 1 (3 * operations t))%nat.
Proof. exact eval_bound. Qed.
Print Assumptions C100_bound.
(** If the expression evaluates, the number does not depend on anything but the number of its operations. *)
Theorem C100_exact : forall md t n v, tt_ok t = true -> run md n (CCalc t) = Ok v -> calls md n (CCalc t) = expected_calls t.
Proof. exact eval_exact. Qed.
Print Assumptions C100_exact.
(** Texts: at most three for each operator. *)
Theorem C100_texts : forall md e t n, amountexpr_into md e = Ok t -> tt_ok t = true -> (calls md n (CCalc t) <= Nat.max 1 (3 * operators e))%nat.
Proof. exact text_calls. Qed.
Print Assumptions C100_texts.

Definition C100_tree : timetype :=
  EndOfMonth (Subtraction (Addition (Moment (mkdt 2016 2 29 0 0 0 0)) (Subtraction (Days 3) (Addition (Hours 5) (Seconds 7)))) (Months 1)).
(** Four sums and differences and one end of a month. *)
Example C100_case : tt_ok C100_tree = true /\ operations C100_tree = 5%nat /\ run Checked 12 (CCalc C100_tree) = Ok (Moment (mkdt 2016 2 29 0 0 0 0)) /\
  calls Checked 12 (CCalc C100_tree) = 14%nat /\ expected_calls C100_tree = 14%nat.
Proof. vm_compute. repeat split. Qed.
(** An expression that fails: fewer calls. The first operand fails and the second is not looked at. *)
Example C100_fails_case : let t := Addition (Addition (Seconds 1) (Moment (mkdt 2016 2 29 0 0 0 0))) (Addition (Seconds 1) (Days 2)) in
  operations t = 3%nat /\ calls Checked 12 (CCalc t) = 3%nat /\ run Checked 12 (CCalc t) = Err (CannotAdd (Seconds 1) (Moment (mkdt 2016 2 29 0 0 0 0))).
Proof. vm_compute. repeat split. Qed.
Example C100_calls_case : let rec := run Checked 5 in let c := CAdd (Addition (Seconds 1) (Days 2)) (Hours 1) in
  subcalls rec c = [CAdd (Seconds 1) (Days 2); CAdd (Seconds 172801) (Hours 1)] /\ body Checked rec c = Ok (Seconds 176401).
Proof. vm_compute. repeat split. Qed.
Example C100_text_case : let e := AENext (Amount 3 PDay) Minus (AENext (Amount 2 PWeek) Plus (AELast (Amount 1 PSecond))) in
  operators e = 2%nat /\ amountexpr_into Checked e = Ok (Subtraction (Days 3) (Addition (Days 14) (Seconds 1))) /\
  calls Checked 9 (CCalc (Subtraction (Days 3) (Addition (Days 14) (Seconds 1)))) = 6%nat.
Proof. vm_compute. repeat split. Qed.
