(** Properties C27-C30: the end_of family. *)
Require Import ZArith Bool List Lia ZifyBool.
From Verif Require Import Prelude Spec Chrono TimeType SpecTree SpecMoment PreludeProofs CalendarProofs EvalProofs EndProofs.
Local Open Scope Z_scope.

Definition feb : datetime := mkdt 2016 2 10 5 6 7 8.

(** C27. The result of end_of on a moment, for every inner expression; [C27_last] says that it
    is the last day (last second) before the next period starts. *)
Theorem C27_end_forms : forall md t m, tt_ok t = true -> calculate md t = Ok (Moment m) ->
  calculate md (EndOfYear t) = Ok (Moment (mkdt (year m) 12 31 0 0 0 0)) /\
  calculate md (EndOfMonth t) = Ok (Moment (mkdt (year m) (month m) (month_length (year m) (month m)) 0 0 0 0)) /\
  calculate md (EndOfDay t) = Ok (Moment (mkdt (year m) (month m) (day m) 23 59 59 0)) /\
  calculate md (EndOfHour t) = Ok (Moment (mkdt (year m) (month m) (day m) (hour m) 59 59 0)) /\
  calculate md (EndOfMinute t) = Ok (Moment (mkdt (year m) (month m) (day m) (hour m) (minute m) 59 0)).
Proof. exact end_forms. Qed.
Print Assumptions C27_end_forms.
Theorem C27_last : forall md k t m, tt_ok t = true -> calculate md t = Ok (Moment m) ->
  exists e, calculate md (end_of k t) = Ok (Moment e) /\ dt_valid e = true /\ nano e = 0 /\
    inst e + period_resolution k = next_period k m /\ period_start k m <= inst m < next_period k m.
Proof. exact end_last. Qed.
Print Assumptions C27_last.
Example C27_case :
  calculate Checked (Addition (Moment feb) (Days 1)) = Ok (Moment (mkdt 2016 2 11 5 6 7 0)) /\
  calculate Checked (EndOfMonth (Addition (Moment feb) (Days 1))) = Ok (Moment (mkdt 2016 2 29 0 0 0 0)) /\
  calculate Checked (EndOfHour (Addition (Moment feb) (Days 1))) = Ok (Moment (mkdt 2016 2 11 5 59 59 0)) /\
  next_period PMonth feb = instant 2016 3 1 0 0 0.
Proof. vm_compute. repeat split. Qed.

(** C28. Idempotent, monotone, nesting. *)
Theorem C28_end_idempotent : forall md k t, tt_ok t = true ->
  calculate md (end_of k (end_of k t)) = calculate md (end_of k t).
Proof. exact end_idem. Qed.
Print Assumptions C28_end_idempotent.
Theorem C28_end_nests : forall md k k' t m, tt_ok t = true -> calculate md t = Ok (Moment m) -> coarseness k' <= coarseness k ->
  calculate md (end_of k (end_of k' t)) = calculate md (end_of k t).
Proof. exact end_nest. Qed.
Print Assumptions C28_end_nests.
Theorem C28_end_monotone : forall md k t1 t2 m1 m2 e1 e2, tt_ok t1 = true -> tt_ok t2 = true ->
  calculate md t1 = Ok (Moment m1) -> calculate md t2 = Ok (Moment m2) ->
  calculate md (end_of k t1) = Ok (Moment e1) -> calculate md (end_of k t2) = Ok (Moment e2) ->
  inst m1 <= inst m2 -> inst e1 <= inst e2.
Proof. exact end_monotone. Qed.
Print Assumptions C28_end_monotone.
Example C28_monotone_case : let later := mkdt 2016 3 1 0 0 0 0 in
  inst feb <= inst later /\
  calculate Checked (end_of PMonth (Moment feb)) = Ok (Moment (mkdt 2016 2 29 0 0 0 0)) /\
  calculate Checked (end_of PMonth (Moment later)) = Ok (Moment (mkdt 2016 3 31 0 0 0 0)) /\
  calculate Checked (end_of PYear (Moment feb)) = calculate Checked (end_of PYear (Moment later)) /\
  inst (mkdt 2016 2 29 0 0 0 0) <= inst (mkdt 2016 3 31 0 0 0 0).
Proof. vm_compute. repeat split; discriminate. Qed.
Example C28_case :
  calculate Checked (EndOfYear (EndOfMonth (Moment feb))) = Ok (Moment (mkdt 2016 12 31 0 0 0 0)) /\
  calculate Checked (EndOfYear (Moment feb)) = Ok (Moment (mkdt 2016 12 31 0 0 0 0)) /\
  calculate Checked (EndOfMonth (EndOfMonth (Moment feb))) = calculate Checked (EndOfMonth (Moment feb)).
Proof. vm_compute. repeat split. Qed.

(** C29. Never backwards: false for year and month when the moment lies inside the last day;
    true for day, hour and minute, and for year and month from midnight; always true up to
    the time of day.  Missing: year and month ends of moments after midnight (false). *)
Theorem C29_end_forward_partial : forall md k t m e, tt_ok t = true ->
  calculate md t = Ok (Moment m) -> calculate md (end_of k t) = Ok (Moment e) ->
  match k with PYear | PMonth => sod m = 0 | _ => True end -> inst m <= inst e.
Proof. exact end_forward. Qed.
Print Assumptions C29_end_forward_partial.
Theorem C29_end_day_forward_partial : forall md k t m e, tt_ok t = true ->
  calculate md t = Ok (Moment m) -> calculate md (end_of k t) = Ok (Moment e) ->
  day_number (year m) (month m) (day m) <= day_number (year e) (month e) (day e).
Proof. exact end_day_forward. Qed.
Print Assumptions C29_end_day_forward_partial.
(** In the afternoon of the last day of a month: the same day, an earlier time. *)
Example C29_day_case : calculate Checked (end_of PMonth (Moment (mkdt 2016 2 29 15 0 0 0))) = Ok (Moment (mkdt 2016 2 29 0 0 0 0)) /\
  day_number 2016 2 10 <= day_number 2016 12 31 /\ calculate Checked (end_of PYear (Moment feb)) = Ok (Moment (mkdt 2016 12 31 0 0 0 0)).
Proof. vm_compute. repeat split; discriminate. Qed.
Theorem C29_end_forward_refuted :
  let m := mkdt 2016 12 31 12 0 0 0 in
  dt_valid m = true /\
  (exists e, calculate Checked (EndOfYear (Moment m)) = Ok (Moment e) /\ inst e < inst m) /\
  (exists e, calculate Checked (EndOfMonth (Moment m)) = Ok (Moment e) /\ inst e < inst m).
Proof.
  cbv zeta. split; [reflexivity|].
  split; exists (mkdt 2016 12 31 0 0 0 0); (split; [vm_compute; reflexivity|vm_compute; reflexivity]).
Qed.
Print Assumptions C29_end_forward_refuted.
Example C29_case : sod (mkdt 2016 2 10 0 0 0 5) = 0 /\
  calculate Checked (end_of PMonth (Moment (mkdt 2016 2 10 0 0 0 5))) = Ok (Moment (mkdt 2016 2 29 0 0 0 0)).
Proof. vm_compute. repeat split. Qed.

(** C30. Amounts are rejected with the value, inner errors propagate. *)
Theorem C30_end_complete : forall md k t, tt_ok t = true ->
  calculate md (end_of k t) =
  match calculate md t with
  | Ok (Moment m) => Ok (Moment (end_at k m))
  | Ok v => Err (end_error k v)
  | r => r
  end.
Proof. exact end_complete. Qed.
Print Assumptions C30_end_complete.
Example C30_case :
  calculate Checked (EndOfHour (Addition (Days 1) (Hours 2))) = Err (CannotCalculateEndOfMonthOn (Hours 26)) /\
  calculate Checked (EndOfYear (Subtraction (Days 1) (Moment feb))) = Err (CannotSub (Days 1) (Moment feb)).
Proof. vm_compute. repeat split. Qed.
