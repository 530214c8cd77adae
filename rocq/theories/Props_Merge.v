(** Two iterations by the same step, side by side (C122). *)
Require Import ZArith Bool List Lia.
From Verif Require Import Prelude Spec Chrono TimeType Iter SpecTree SpecMoment SpecIter SpecVisit MergeProofs.
Import ListNotations.
Local Open Scope Z_scope.

(** C122. Once two iterations by the same step have an item in common, all following items are the same, errors included. *)
Theorem C122_merge : forall md a b inc it it' j k x i, build a inc = Ok it -> build b inc = Ok it' ->
  nth_item (iter_next md) j it = Some (Ok (Moment x)) -> nth_item (iter_next md) k it' = Some (Ok (Moment x)) ->
  nth_item (iter_next md) (j + i) it = nth_item (iter_next md) (k + i) it'.
Proof. exact merge_built. Qed.
Print Assumptions C122_merge.
(** By clock units, the items stay as far apart as the first ones. *)
Theorem C122_distance : forall md a b u n it it' k x y, build a (mk u n) = Ok it -> build b (mk u n) = Ok it' -> dt_valid a = true -> dt_valid b = true ->
  clock_unit u = true -> 0 <= n -> n * unit_secs u <= 30 * 86400 ->
  nth_item (iter_next md) k it = Some (Ok (Moment x)) -> nth_item (iter_next md) k it' = Some (Ok (Moment y)) -> inst y - inst x = inst b - inst a.
Proof. exact distance. Qed.
Print Assumptions C122_distance.
(** By clock units, they have an item in common exactly if the beginnings are a whole number of steps apart. *)
Theorem C122_meet : forall md a b u n it it', build a (mk u n) = Ok it -> build b (mk u n) = Ok it' -> dt_valid a = true -> dt_valid b = true -> nano a = 0 -> nano b = 0 ->
  clock_unit u = true -> 0 < n -> n * unit_secs u <= 30 * 86400 -> inst a <= inst b ->
  ((exists x, visits (iter_next md) it x /\ visits (iter_next md) it' x) <-> (n * unit_secs u | inst b - inst a)).
Proof. exact meet_iff. Qed.
Print Assumptions C122_meet.

(** Monthly from 31 January and from 3 February 2015: both are on 3 March and stay together. *)
Example C122_merge_case : let it d mo := mkiter (Moment (mkdt 2015 mo d 9 0 0 0)) (Months 1) false in
  build (mkdt 2015 1 31 9 0 0 0) (Months 1) = Ok (it 31 1) /\ build (mkdt 2015 2 3 9 0 0 0) (Months 1) = Ok (it 3 2) /\
  items (iter_next Checked) 4 (it 31 1) = map (fun x => Some (Ok (Moment x))) [mkdt 2015 1 31 9 0 0 0; mkdt 2015 3 3 9 0 0 0; mkdt 2015 4 3 9 0 0 0; mkdt 2015 5 3 9 0 0 0] /\
  items (iter_next Checked) 4 (it 3 2) = map (fun x => Some (Ok (Moment x))) [mkdt 2015 2 3 9 0 0 0; mkdt 2015 3 3 9 0 0 0; mkdt 2015 4 3 9 0 0 0; mkdt 2015 5 3 9 0 0 0].
Proof. vm_compute. repeat split. Qed.
(** Every 36 hours from 27 February and from 2 March 2015 (72 hours later), and from 1 March (48 hours later). *)
Example C122_meet_case : let f d mo := mkdt 2015 mo d 9 0 0 0 in let it d mo := mkiter (Moment (f d mo)) (Hours 36) false in
  build (f 27 2) (mk UHour 36) = Ok (it 27 2) /\ dt_valid (f 27 2) = true /\ 36 * unit_secs UHour <= 30 * 86400 /\
  inst (f 2 3) - inst (f 27 2) = 2 * (36 * unit_secs UHour) /\ inst (f 1 3) - inst (f 27 2) = 36 * unit_secs UHour + 12 * 3600 /\
  nth_item (iter_next Checked) 3 (it 27 2) = Some (Ok (Moment (mkdt 2015 3 3 21 0 0 0))) /\
  nth_item (iter_next Checked) 1 (it 2 3) = Some (Ok (Moment (mkdt 2015 3 3 21 0 0 0))) /\
  nth_item (iter_next Checked) 3 (it 2 3) = Some (Ok (Moment (mkdt 2015 3 6 21 0 0 0))).
Proof. vm_compute. repeat split; discriminate. Qed.
