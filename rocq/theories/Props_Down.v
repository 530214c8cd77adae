(** Iterations backwards (C127). *)
Require Import ZArith Bool List Lia.
From Verif Require Import Prelude Spec Chrono TimeType Iter SpecTree SpecMoment SpecIter SpecDown DownProofs.
Import ListNotations.
Local Open Scope Z_scope.

(** C127. With a negative step of less than a minute in seconds, less than an hour in minutes, less than a day in hours, of any number of days, or of
    months from a day up to 28, the items are the moments with this one field lowered, down to its first value. *)
Theorem C127_items : forall md m u n it k, build m (mk u (- n)) = Ok it -> dt_valid m = true -> plain_step u n m -> (1 <= k)%nat ->
  lowest u <= field u m - Z.of_nat k * n -> nth_item (iter_next md) k it = Some (Ok (Moment (lowered u m (Z.of_nat k * n)))).
Proof. exact down_items. Qed.
Print Assumptions C127_items.
(** From there on every item is the same error. *)
Theorem C127_end : forall md m u n it k, build m (mk u (- n)) = Ok it -> dt_valid m = true -> plain_step u n m ->
  field u m - Z.of_nat k * n < lowest u -> exists y mo d h mi s, forall j, (k <= j)%nat -> nth_item (iter_next md) j it = Some (Err (OutOfBounds y mo d h mi s)).
Proof. exact down_end. Qed.
Print Assumptions C127_end.
(** The number of moments among the items. *)
Theorem C127_count : forall md m u n it k, build m (mk u (- n)) = Ok it -> dt_valid m = true -> plain_step u n m ->
  ((exists x, nth_item (iter_next md) k it = Some (Ok (Moment x))) <-> Z.of_nat k <= (field u m - lowest u) / n).
Proof. exact down_count. Qed.
Print Assumptions C127_count.
(** With a negative step of any size in clock units, the moments among the items are exact and of the month of the start. *)
Theorem C127_month : forall md m u n it k x, build m (mk u n) = Ok it -> dt_valid m = true -> clock_unit u = true -> -2147483648 <= n < 0 ->
  nth_item (iter_next md) k it = Some (Ok (Moment x)) -> year x = year m /\ month x = month m /\ inst x = inst m + Z.of_nat k * (n * unit_secs u).
Proof. exact down_month. Qed.
Print Assumptions C127_month.
(** So there are only errors after as many steps as lead out of the month. *)
Theorem C127_over : forall md m u n it k, build m (mk u n) = Ok it -> dt_valid m = true -> clock_unit u = true -> -2147483648 <= n < 0 ->
  day m * 86400 <= Z.of_nat k * (- n * unit_secs u) -> exists e, nth_item (iter_next md) k it = Some (Err e).
Proof. exact down_over. Qed.
Print Assumptions C127_over.
(** With a negative number of months, from any day, the moments among the items are of the year of the start. *)
Theorem C127_year : forall md m n it k x, build m (Months n) = Ok it -> dt_valid m = true -> -2147483648 <= n < 0 ->
  nth_item (iter_next md) k it = Some (Ok (Moment x)) -> year x = year m.
Proof. exact down_year. Qed.
Print Assumptions C127_year.

(** Backwards from 17 November 2020 12:30:45 by 10 seconds, 5 days and 4 months; 10 seconds lead to five moments. *)
Example C127_items_case : let m := mkdt 2020 11 17 12 30 45 7 in let it u n := mkiter (Moment m) (mk u n) false in
  build m (mk USec (-10)) = Ok (it USec (-10)) /\ dt_valid m = true /\ plain_step USec 10 m /\ plain_step UDay 5 m /\ plain_step UMonth 4 m /\
  lowest USec <= field USec m - Z.of_nat 4 * 10 /\ (field USec m - lowest USec) / 10 = 4 /\ field USec m - Z.of_nat 5 * 10 < lowest USec /\
  items (iter_next Checked) 6 (it USec (-10)) = [Some (Ok (Moment m)); Some (Ok (Moment (mkdt 2020 11 17 12 30 35 0))); Some (Ok (Moment (mkdt 2020 11 17 12 30 25 0)));
    Some (Ok (Moment (mkdt 2020 11 17 12 30 15 0))); Some (Ok (Moment (mkdt 2020 11 17 12 30 5 0))); Some (Err (OutOfBounds 2020 11 12 12 30 4294967291))] /\
  nth_item (iter_next Checked) 3 (it UDay (-5)) = Some (Ok (Moment (mkdt 2020 11 2 12 30 45 0))) /\
  nth_item (iter_next Checked) 9 (it UDay (-5)) = Some (Err (OutOfBounds 2020 11 12 12 30 45)) /\
  nth_item (iter_next Checked) 2 (it UMonth (-4)) = Some (Ok (Moment (mkdt 2020 3 17 12 30 45 0))).
Proof. vm_compute. repeat split; discriminate. Qed.
(** Larger steps: 36 hours from noon of 3 November end at the midnight before the 2nd and fail after it. *)
Example C127_month_case : let m := mkdt 2020 11 3 12 0 0 0 in let it u n := mkiter (Moment m) (mk u n) false in
  build m (mk UHour (-36)) = Ok (it UHour (-36)) /\ dt_valid m = true /\ day m * 86400 <= Z.of_nat 2 * (36 * unit_secs UHour) /\
  nth_item (iter_next Checked) 1 (it UHour (-36)) = Some (Ok (Moment (mkdt 2020 11 2 0 0 0 0))) /\
  nth_item (iter_next Checked) 2 (it UHour (-36)) = Some (Err (OutOfBounds 2020 11 4294967284 4294967284 0 0)) /\
  nth_item (iter_next Checked) 1 (it UDay (-2)) = Some (Ok (Moment (mkdt 2020 11 1 12 0 0 0))).
Proof. vm_compute. repeat split; discriminate. Qed.
(** Two months at a time from 31 October. *)
Example C127_year_case : let m := mkdt 2021 10 31 0 0 0 0 in let it := mkiter (Moment m) (Months (-2)) false in
  build m (Months (-2)) = Ok it /\ dt_valid m = true /\
  items (iter_next Checked) 6 it = map (fun md => Some (Ok (Moment (mkdt 2021 (fst md) (snd md) 0 0 0 0)))) [(10, 31); (8, 31); (7, 1); (5, 1); (3, 1); (1, 1)].
Proof. vm_compute. repeat split; discriminate. Qed.
