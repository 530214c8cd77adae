(** Weekdays up to an end (C129). *)
Require Import ZArith Bool List Lia.
From Verif Require Import Prelude Spec Chrono TimeType Matcher Iter SpecTree SpecMoment SpecIter SpecAdapt SpecSeq SpecExact SpecHang TallyProofs.
Import ListNotations.
Local Open Scope Z_scope.

(** C129. An iteration by [c] days, filtered by a weekday and bounded by an end, collects exactly the moments of that weekday from the start up to the end
    that are a whole number of steps away; their number is that of the steps before the end, divided by 7/gcd(c, 7) and rounded by the distance [g] of the first. *)
Theorem C129_collects : forall md m u n c it d fuel ending, build m (mk u n) = Ok it -> dt_valid m = true -> nano m = 0 -> clock_unit u = true -> n * unit_secs u = c * 86400 -> 1 <= c <= 30 ->
  (Z.gcd c 7 | wday_into d - weekday (year m) (month m) (day m)) -> (7 <= fuel)%nat -> dt_valid ending = true -> before m ending ->
  let p := 7 / Z.gcd c 7 in let N := steps_before m ending (c * 86400) in
  inst m + (N + p) * (c * 86400) < instant (max_year + 1) 1 1 0 0 0 ->
  exists l, collects (until_next md (filter_next (iter_next md) fuel (day_matches d)) ending) it l /\
    (exists g, 0 <= g < p /\ (g * c) mod 7 = (wday_into d - weekday (year m) (month m) (day m)) mod 7 /\ Z.of_nat (length l) = (N + p - 1 - g) / p) /\
    (forall r, In r l <-> exists x, r = Ok (Moment x) /\ dt_valid x = true /\ nano x = 0 /\ inst m <= inst x /\ before x ending /\
      (c * 86400 | inst x - inst m) /\ on_day d x = true).
Proof. exact tally. Qed.
Print Assumptions C129_collects.
(** If the number of days is no multiple of 7, the numbers of any two weekdays differ by at most one. *)
Theorem C129_fair : forall md m u n c it d d' fuel ending l l', build m (mk u n) = Ok it -> dt_valid m = true -> nano m = 0 -> clock_unit u = true -> n * unit_secs u = c * 86400 -> 1 <= c <= 30 ->
  Z.gcd c 7 = 1 -> (7 <= fuel)%nat -> dt_valid ending = true -> before m ending ->
  inst m + (steps_before m ending (c * 86400) + 7) * (c * 86400) < instant (max_year + 1) 1 1 0 0 0 ->
  collects (until_next md (filter_next (iter_next md) fuel (day_matches d)) ending) it l ->
  collects (until_next md (filter_next (iter_next md) fuel (day_matches d')) ending) it l' ->
  (length l <= length l' + 1)%nat.
Proof. exact tally_fair. Qed.
Print Assumptions C129_fair.

(** From Tuesday 17 November 2020 there are two Mondays and three Fridays before Saturday 5 December; by 3 days there is one Monday. *)
Example C129_case : let m := mkdt 2020 11 17 12 0 0 0 in let e := mkdt 2020 12 5 12 0 0 0 in let it n := mkiter (Moment m) (Days n) false in
  let run n d := items (until_next Checked (filter_next (iter_next Checked) 7 (day_matches d)) e) 4 (it n) in
  let on mo d := Some (Ok (Moment (mkdt 2020 mo d 12 0 0 0))) in
  build m (mk UDay 1) = Ok (it 1) /\ dt_valid m = true /\ dt_valid e = true /\ inst m < inst e /\ Z.gcd 1 7 = 1 /\ steps_before m e (1 * 86400) = 18 /\ steps_before m e (3 * 86400) = 6 /\
  inst m + (18 + 7) * (1 * 86400) < instant (max_year + 1) 1 1 0 0 0 /\
  (wday_into Monday - weekday 2020 11 17) mod 7 = 6 /\ (18 + 7 - 1 - 6) / 7 = 2 /\ (18 + 7 - 1 - 3) / 7 = 3 /\ (2 * 3) mod 7 = 6 /\ (6 + 7 - 1 - 2) / 7 = 1 /\
  firstn 3 (run 1 Monday) = [on 11 23; on 11 30; None] /\ run 1 Friday = [on 11 20; on 11 27; on 12 4; None] /\ firstn 2 (run 3 Monday) = [on 11 23; None].
Proof. vm_compute. repeat split; discriminate. Qed.
