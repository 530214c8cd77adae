(** Larger amounts lead further (C113). *)
Require Import ZArith Bool List Lia.
From Verif Require Import Prelude Spec Chrono TimeType SpecTree SpecMoment FurtherProofs.
Local Open Scope Z_scope.

(** C113. Of two sums of a moment with amounts of the same unit, the one with the larger amount is later, whatever the signs. *)
Theorem C113_add : forall md m u a b ma mb, dt_valid m = true -> -2147483648 <= a < b -> b * unit_secs u <= span32 ->
  calculate md (Addition (Moment m) (mk u a)) = Ok (Moment ma) -> calculate md (Addition (Moment m) (mk u b)) = Ok (Moment mb) -> inst ma < inst mb.
Proof. exact add_further. Qed.
Print Assumptions C113_add.
(** Days over the end of the year; months from the 31st; a month back that ends up in the same month. *)
Example C113_add_case : let m := mkdt 2016 12 31 5 0 0 0 in let l := mkdt 2015 3 31 5 0 0 0 in dt_valid m = true /\ dt_valid l = true /\ 360 * unit_secs UDay <= span32 /\
  calculate Checked (Addition (Moment m) (mk UDay (-30))) = Ok (Moment (mkdt 2016 12 1 5 0 0 0)) /\
  calculate Checked (Addition (Moment m) (mk UDay 30)) = Ok (Moment (mkdt 2017 1 30 5 0 0 0)) /\
  calculate Checked (Addition (Moment m) (mk UDay 31)) = Ok (Moment (mkdt 2017 2 1 5 0 0 0)) /\
  calculate Checked (Addition (Moment m) (mk UDay 360)) = Ok (Moment (mkdt 2017 12 30 5 0 0 0)) /\
  calculate Checked (Addition (Moment m) (mk UDay 361)) = Ok (Moment (mkdt 2018 1 1 5 0 0 0)) /\
  calculate Checked (Addition (Moment l) (mk UMonth (-1))) = Ok (Moment (mkdt 2015 3 3 5 0 0 0)) /\
  calculate Checked (Addition (Moment l) (mk UMonth 0)) = Ok (Moment (mkdt 2015 3 31 5 0 0 0)) /\
  calculate Checked (Addition (Moment l) (mk UMonth 1)) = Ok (Moment (mkdt 2015 5 1 5 0 0 0)) /\
  calculate Checked (Addition (Moment l) (mk UMonth 2)) = Ok (Moment (mkdt 2015 5 31 5 0 0 0)).
Proof. vm_compute. repeat split. discriminate. Qed.
(** Beyond 32-bit years it is not so: 2^32 years lead to the moment itself. *)
Example C113_bound_case : let m := mkdt 2016 5 5 0 0 0 0 in
  calculate Checked (Addition (Moment m) (Years 1)) = Ok (Moment (mkdt 2017 5 5 0 0 0 0)) /\
  calculate Checked (Addition (Moment m) (Years 4294967296)) = Ok (Moment m).
Proof. vm_compute. repeat split. Qed.

(** The same for whole amount expressions in clock units, which need not be the same units. *)
Theorem C113_trees : forall md m s t ms mt, dt_valid m = true -> tt_ok s = true -> tt_ok t = true -> amount_only s = true -> amount_only t = true ->
  abs_secs s <= span32 -> abs_secs t <= span32 -> clock_unit (finest s) = true -> clock_unit (finest t) = true -> 0 <= secs s < secs t ->
  calculate md (Addition (Moment m) s) = Ok (Moment ms) -> calculate md (Addition (Moment m) t) = Ok (Moment mt) -> inst ms < inst mt.
Proof. exact trees_further. Qed.
Print Assumptions C113_trees.
Example C113_trees_case : let m := mkdt 2016 12 31 5 0 0 0 in let s := Subtraction (Days 31) (Seconds 1) in let t := Addition (Hours 743) (Minutes 60) in
  dt_valid m = true /\ abs_secs s <= span32 /\ clock_unit (finest s) = true /\ clock_unit (finest t) = true /\ secs s = 2678399 /\ secs t = 2678400 /\
  calculate Checked (Addition (Moment m) s) = Ok (Moment (mkdt 2017 2 1 4 59 59 0)) /\
  calculate Checked (Addition (Moment m) t) = Ok (Moment (mkdt 2017 2 1 5 0 0 0)).
Proof. vm_compute. repeat split. discriminate. Qed.

(** Of two differences, the one with the larger amount is earlier. *)
Theorem C113_sub : forall md m u a b ma mb, dt_valid m = true -> -2147483648 <= a < b -> b < 2147483648 ->
  calculate md (Subtraction (Moment m) (mk u a)) = Ok (Moment ma) -> calculate md (Subtraction (Moment m) (mk u b)) = Ok (Moment mb) -> inst mb < inst ma.
Proof. exact sub_further. Qed.
Print Assumptions C113_sub.
Example C113_sub_case : let m := mkdt 2016 5 5 10 30 0 0 in dt_valid m = true /\
  calculate Checked (Subtraction (Moment m) (mk USec (-7))) = Ok (Moment (mkdt 2016 5 5 10 30 7 0)) /\
  calculate Checked (Subtraction (Moment m) (mk USec 59)) = Ok (Moment (mkdt 2016 5 5 10 29 1 0)) /\
  calculate Checked (Subtraction (Moment m) (mk USec 60)) = Ok (Moment (mkdt 2016 5 5 10 28 0 0)) /\
  calculate Checked (Subtraction (Moment m) (mk UDay 4)) = Ok (Moment (mkdt 2016 5 1 10 30 0 0)) /\
  oob (calculate Checked (Subtraction (Moment m) (mk UDay 5))) /\
  calculate Checked (Subtraction (Moment m) (mk UDay 6)) = Ok (Moment (mkdt 2016 4 30 10 30 0 0)) /\
  calculate Checked (Subtraction (Moment m) (mk UMonth 4)) = Ok (Moment (mkdt 2016 1 5 10 30 0 0)) /\
  calculate Checked (Subtraction (Moment m) (mk UMonth 5)) = Ok (Moment (mkdt 2015 12 5 10 30 0 0)).
Proof. vm_compute. repeat split. repeat eexists. Qed.
