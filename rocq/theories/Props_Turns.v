(** Property C107: how often the bodies of the loops of src/util.rs 22-30 are executed during an evaluation. *)
Require Import ZArith Bool String List Lia.
From Verif Require Import Prelude Spec Chrono Util TimeType SpecMoment SpecTree SpecCalls SpecTurns Nom ParserTimetype ParserMod SpecText
  TurnsProofs TurnsProofs2.
Import ListNotations.
Local Open Scope Z_scope.

(** C107. What is counted: the two loops of `adjust_times_add` are its only ones, a run of [k] turns is what the loop does,
    and the calls are those of C100. There is at most one count. *)
Theorem C107_counted : forall md,
  (forall y mo d h mi s, @adjust_times_add kek md y mo d h mi s =
    do (d, h, mi, s) <- carried md d h mi s; do (d, mo) <- while (long_month y) (next_month md y) (d, mo);
    do (y, mo) <- while late_month (next_year md) (y, mo); Ok (y, mo, d, h, mi, s)) /\
  (forall (c : Z * Z -> bool) (f : Z * Z -> outcome kek (Z * Z)) s k s', runs c f s k s' -> Z.of_nat k < 18446744073709551616 -> while c f s = Ok s') /\
  (forall n c, List.length (all_calls md n c) = calls md n c) /\
  (forall n c k k', total_turns md n c k -> total_turns md n c k' -> k = k').
Proof. exact (fun md => conj (loops_eq md) (conj (@runs_while kek (Z * Z)) (conj (all_calls_length md) (total_unique md)))). Qed.
Print Assumptions C107_counted.
(** The exact number of turns of an addition to a moment, for every amount. *)
Theorem C107_exact : forall md f m u n, dt_valid m = true -> 0 <= n <= i64_max - max_year ->
  exists k, total_turns md (3 + f) (CCalc (Addition (Moment m) (mk u n))) k /\ turns_expected m u n (Z.of_nat k).
Proof. exact add_turns. Qed.
Print Assumptions C107_exact.
(** Never fewer than one for each 31 days. *)
Theorem C107_work : forall md f m u n k, dt_valid m = true -> clock_unit u = true -> 0 <= n <= i64_max - max_year ->
  total_turns md (3 + f) (CCalc (Addition (Moment m) (mk u n))) k -> n * unit_secs u / 86400 <= 31 * Z.of_nat k + 30.
Proof. exact add_work. Qed.
Print Assumptions C107_work.
(** Additions that succeed (and whose year fits in 32 bits) take a bounded number of turns. *)
Theorem C107_success : forall md f m u n v k, dt_valid m = true -> 0 <= n -> n * unit_secs u <= span32 ->
  calculate md (Addition (Moment m) (mk u n)) = Ok v -> total_turns md (3 + f) (CCalc (Addition (Moment m) (mk u n))) k ->
  Z.of_nat k <= 6815757.
Proof. exact add_success. Qed.
Print Assumptions C107_success.
(** Subtractions take none. *)
Theorem C107_subtraction : forall md f m u n, total_turns md (3 + f) (CCalc (Subtraction (Moment m) (mk u n))) 0.
Proof. exact sub_turns. Qed.
Print Assumptions C107_subtraction.
(** Texts: the work grows with the number written, so exponentially with the length of the text. *)
Theorem C107_texts : forall cfg pd pdt md now1 now2 ds, dt_valid now1 = true -> digits ds -> decimal ds <= i64_max - max_year ->
  exists t, parse md cfg pd pdt now1 now2 ("today + " ++ ds ++ " days")%string = Ok (PTimeType t) /\
  forall f, exists k, total_turns md (3 + f) (CCalc t) k /\ decimal ds <= 31 * Z.of_nat k + 30.
Proof. exact today_turns. Qed.
Print Assumptions C107_texts.

Definition C107_day : datetime := mkdt 2016 2 29 12 0 0 0.
(** 41 days cross two ends of months. After December months have 30 days: day 337 is 1 February and not 31 January, and takes one
    more turn than months end. *)
Example C107_exact_case : turns_expected C107_day UDay 41 2 /\ turns_expected C107_day UDay 336 12 /\ turns_expected C107_day UDay 337 13 /\
  turns_expected C107_day UMonth 12 1 /\ turns_expected C107_day UYear 1 1 /\ turns_expected C107_day UYear 4 0 /\
  calculate Checked (Addition (Moment C107_day) (Days 336)) = Ok (Moment (mkdt 2017 1 30 12 0 0 0)) /\
  calculate Checked (Addition (Moment C107_day) (Days 337)) = Ok (Moment (mkdt 2017 2 1 12 0 0 0)).
Proof. vm_compute; repeat split; intros; first [reflexivity | discriminate | match goal with H : Gt = Gt -> False |- _ => destruct (H eq_refl) end]. Qed.
(** Two turns of the first loop, none of the second. *)
Example C107_counted_case : total_turns Checked 3 (CCalc (Addition (Moment C107_day) (Days 41))) 2.
Proof.
  exists [0; 0; 2]%nat. split; [|reflexivity]. repeat constructor.
  exists 2%nat, 10, 4, 0%nat, (2016, 4). split; [|split; [apply runs_stop; reflexivity|reflexivity]].
  apply (runs_step _ _ _ (41, 3)); [reflexivity|reflexivity|]. apply (runs_step _ _ _ (10, 4)); [reflexivity|reflexivity|].
  apply runs_stop. reflexivity.
Qed.
(** Nearly the largest number: the text has 32 characters, the sum fails after 3 * 10^17 turns. *)
Example C107_texts_case : digits "9223372036854000000" /\ decimal "9223372036854000000" = 9223372036854000000 /\
  9223372036854000000 <= i64_max - max_year /\ String.length ("today + " ++ "9223372036854000000" ++ " days") = 32%nat /\
  turns_expected C107_day UDay 9223372036854000000 333066212441950000.
Proof.
  split; [split; [reflexivity|discriminate]|]. split; [reflexivity|]. split; [discriminate|]. split; [reflexivity|].
  split; [intro H; exfalso; vm_compute in H; exact (H eq_refl)|intros _; vm_compute; reflexivity].
Qed.
(** An addition that succeeds after many turns. *)
Example C107_success_case : 1000000 * unit_secs UDay <= span32 /\ dt_valid C107_day = true /\
  calculate Checked (Addition (Moment C107_day) (Days 1000000)) = Ok (Moment (mkdt 4793 12 4 12 0 0 0)) /\
  turns_expected C107_day UDay 1000000 36111.
Proof.
  split; [vm_compute; congruence|]. split; [reflexivity|]. split; [vm_compute; reflexivity|].
  split; [intro H; exfalso; vm_compute in H; exact (H eq_refl)|intros _; vm_compute; reflexivity].
Qed.
(** Without the bound on the amount it does not hold: the year is cut to 32 bits, the sum is five days earlier than the moment it
    is added to, and found after 55834574848 turns. *)
Theorem C107_truncated : exists m n v k, dt_valid m = true /\ 0 <= n <= i64_max - max_year /\
  calculate Checked (Addition (Moment m) (Days n)) = Ok v /\ total_turns Checked 3 (CCalc (Addition (Moment m) (Days n))) k /\ 6815757 < Z.of_nat k.
Proof. exact add_success_cut. Qed.
Print Assumptions C107_truncated.
Example C107_truncated_case :
  calculate Checked (Addition (Moment C107_day) (Days 1546188226560)) = Ok (Moment (mkdt 2016 2 24 12 0 0 0)) /\ turns_expected C107_day UDay 1546188226560 55834574848.
Proof. exact cut_case. Qed.
