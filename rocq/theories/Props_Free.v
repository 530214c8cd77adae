(** Iterations without some weekdays (C130). *)
Require Import ZArith Bool List Lia.
From Verif Require Import Prelude Spec Chrono TimeType Matcher Iter SpecTree SpecMoment SpecIter SpecAdapt SpecSeq SpecExact SpecHang SpecFree FreeProofs.
Import ListNotations.
Local Open Scope Z_scope.

(** C130. With a step of [c] days, no multiple of 7, and any weekdays left out (but not all seven), what is collected up to an end is what is collected without
    the filters less the moments on these weekdays: exactly the moments up to the end that are a whole number of steps away and on none of the weekdays. *)
Theorem C130_collects : forall md m u n c it ds d0 fuel ending, build m (mk u n) = Ok it -> dt_valid m = true -> nano m = 0 -> clock_unit u = true -> n * unit_secs u = c * 86400 -> 1 <= c <= 30 ->
  Z.gcd c 7 = 1 -> ~ In d0 ds -> dt_valid ending = true -> before m ending ->
  let N := steps_before m ending (c * 86400) in N + 7 <= Z.of_nat fuel -> inst m + (N + 7) * (c * 86400) < instant (max_year + 1) 1 1 0 0 0 ->
  exists l, collects (until_next md (iter_next md) ending) it (moments l) /\ Z.of_nat (length l) = N /\
    collects (until_next md (without_days md fuel ds) ending) it (moments (filter (free ds) l)) /\
    (forall d, collects (until_next md (filter_next (iter_next md) fuel (day_matches d)) ending) it (moments (filter (on_day d) l))) /\
    (forall x, In x (filter (free ds) l) <-> dt_valid x = true /\ nano x = 0 /\ inst m <= inst x /\ before x ending /\ (c * 86400 | inst x - inst m) /\
       forall d, In d ds -> on_day d x = false).
Proof. exact free_collects. Qed.
Print Assumptions C130_collects.
(** Over 7 w steps there are w moments for each weekday that is left. *)
Theorem C130_weeks : forall md m u n c it ds d0 fuel ending w, build m (mk u n) = Ok it -> dt_valid m = true -> nano m = 0 -> clock_unit u = true -> n * unit_secs u = c * 86400 -> 1 <= c <= 30 ->
  Z.gcd c 7 = 1 -> ~ In d0 ds -> NoDup ds -> dt_valid ending = true -> before m ending ->
  steps_before m ending (c * 86400) = 7 * w -> 7 * w + 7 <= Z.of_nat fuel -> inst m + (7 * w + 7) * (c * 86400) < instant (max_year + 1) 1 1 0 0 0 ->
  exists l, collects (until_next md (without_days md fuel ds) ending) it l /\ Z.of_nat (length l) = (7 - Z.of_nat (length ds)) * w.
Proof. exact free_weeks. Qed.
Print Assumptions C130_weeks.

(** The working days of two weeks from Tuesday 17 November 2020. *)
Example C130_case : let m := mkdt 2020 11 17 12 0 0 0 in let e := mkdt 2020 12 1 12 0 0 0 in let it := mkiter (Moment m) (Days 1) false in let ds := [Saturday; Sunday] in
  build m (mk UDay 1) = Ok it /\ dt_valid m = true /\ dt_valid e = true /\ inst m < inst e /\ Z.gcd 1 7 = 1 /\ steps_before m e (1 * 86400) = 7 * 2 /\
  inst m + (7 * 2 + 7) * (1 * 86400) < instant (max_year + 1) 1 1 0 0 0 /\ (7 - Z.of_nat (length ds)) * 2 = 10 /\
  items (until_next Checked (without_days Checked 21 ds) e) 11 it =
    map (fun d => Some (Ok (Moment (mkdt 2020 11 d 12 0 0 0)))) [17; 18; 19; 20; 23; 24; 25; 26; 27; 30] ++ [None].
Proof. vm_compute. repeat split; discriminate. Qed.
Example C130_days_case : ~ In Monday [Saturday; Sunday] /\ NoDup [Saturday; Sunday].
Proof. split; [intros [H|[H|[]]]; discriminate H|]. repeat constructor; [intros [H|[]]; discriminate H|intros []]. Qed.
