(** Exact conditions for C43, C49, C65, C70 and C76, whose statements are false in general (witnesses in Props_Adapt.v, Props_Parse.v,
    Props_Seq.v, Props_Cli.v, Props_Doc.v). *)
Require Import ZArith Bool List String Lia.
From Verif Require Import Prelude Spec Chrono TimeType Iter SpecTree SpecMoment SpecIter SpecAdapt Nom ParserTimetype ParserIterator ParserMod SpecText Show Cli SpecCli SpecExact2
  ExactProofs8 ExactProofs9.
Import ListNotations.
Local Open Scope string_scope.
Local Open Scope Z_scope.

(** C65. Subtracting an amount and adding its opposite give the same moment if and only if the amount can be taken from its own field. *)
Theorem C65_exactly_partial : forall md m u n, dt_valid m = true -> 0 < n <= i64_max -> (u = UYear -> i64_min <= year m - n) ->
  ((exists m', calculate md (Subtraction (Moment m) (mk u n)) = Ok (Moment m') /\ calculate md (Addition (Moment m) (mk u (- n))) = Ok (Moment m')) <->
   mirrors u n m).
Proof. exact mirror_exact. Qed.
Print Assumptions C65_exactly_partial.
Example C65_exactly_case : let m := mkdt 2020 3 29 5 0 10 0 in dt_valid m = true /\
  mirrors UHour 5 m /\ ~ mirrors UHour 6 m /\ mirrors UDay 28 m /\ ~ mirrors UDay 29 m /\ mirrors UMonth 1 m /\ ~ mirrors UMonth 3 m /\
  calculate Checked (Addition (Moment m) (Hours (-5))) = Ok (Moment (mkdt 2020 3 29 0 0 10 0)) /\
  calculate Checked (Subtraction (Moment m) (Hours 29)) = Ok (Moment (mkdt 2020 3 27 0 0 10 0)) /\
  calculate Checked (Addition (Moment m) (Hours (-29))) = Ok (Moment (mkdt 2020 3 28 0 0 10 0)) /\
  mirrors UYear 4 (mkdt 2020 2 29 0 0 0 0) /\ ~ mirrors UYear 1 (mkdt 2020 2 29 0 0 0 0) /\
  mirrors UYear 4294967300 (mkdt 2020 2 29 0 0 0 0) /\
  calculate Checked (Subtraction (Moment (mkdt 2020 2 29 0 0 0 0)) (Years 4294967300)) = Ok (Moment (mkdt 2016 2 29 0 0 0 0)).
Proof.
  cbv zeta. refine (conj _ (conj _ (conj _ (conj _ (conj _ (conj _ (conj _ (conj _ (conj _ (conj _ (conj _ (conj _ (conj _ _))))))))))))).
  - vm_compute. reflexivity.
  - vm_compute. discriminate.
  - intro C. vm_compute in C. elim C. reflexivity.
  - vm_compute. reflexivity.
  - intro C. vm_compute in C. discriminate C.
  - vm_compute. split; [reflexivity|discriminate].
  - intros [C _]. vm_compute in C. discriminate C.
  - vm_compute. reflexivity.
  - vm_compute. reflexivity.
  - vm_compute. reflexivity.
  - vm_compute. split; [split; discriminate|reflexivity].
  - intros [_ C]. vm_compute in C. discriminate (C eq_refl eq_refl).
  - vm_compute. split; [split; discriminate|reflexivity].
  - vm_compute. reflexivity.
Qed.

(** C49. The value deviates from the left-to-right one by twice the amounts that have an odd number of minus signs before their own
    operator; it is the left-to-right one if and only if these cancel. *)
Theorem C49_exactly_partial : forall cfg pd pdt md now1 now2 e s rest, expr_text e s -> stop rest ->
  no_iso cfg pd pdt (s ++ rest) -> no_iso cfg pd pdt (drop_blanks (s ++ rest)) -> total e <= i64_max ->
  exists t v, parse md cfg pd pdt now1 now2 (s ++ rest) = Ok (PTimeType t) /\ calculate md t = Ok (mk (expr_unit e) v) /\
    left_value e - v * unit_secs (expr_unit e) = 2 * misread false Plus e.
Proof. exact amounts_exact. Qed.
Print Assumptions C49_exactly_partial.
Definition days4 (op1 op2 op3 : operator) : amountexpr :=
  AENext (Amount 9 PDay) op1 (AENext (Amount 1 PDay) op2 (AENext (Amount 2 PDay) op3 (AELast (Amount 2 PDay)))).
(** 9 days - 1 day + 2 days - 2 days is right; 9 days - 1 day + 2 days + 2 days is 8 days short; after two minus signs the sign is right again. *)
Example C49_exactly_case : misread false Plus (days4 Minus Plus Minus) = 0 /\ left_value (days4 Minus Plus Minus) = 8 * 86400 /\
  misread false Plus (days4 Minus Plus Plus) = 4 * 86400 /\ misread false Plus (days4 Minus Minus Plus) = - 2 * 86400 /\
  expr_text (days4 Minus Plus Plus) "9d-1d+2d+2d" /\
  exists t, parse Checked (mkcfg true true) toy_dates toy_times (mkdt 2016 1 1 0 0 0 0) (mkdt 2016 1 1 0 0 0 0) "9d-1d+2d+2d" = Ok (PTimeType t) /\ calculate Checked t = Ok (Days 4).
Proof.
  refine (conj eq_refl (conj eq_refl (conj eq_refl (conj eq_refl (conj _ _))))).
  - assert (A : forall ds n, digits ds -> decimal ds = n -> n <= i64_max -> amount_text (Amount n PDay) (ds ++ "d")).
    { intros ds n D <- L. apply (AT_number "" ds "" "d" PDay); try assumption; try reflexivity. vm_compute. tauto. }
    apply (ET_next _ "9d" "" Minus "" _ "1d+2d+2d"); [apply (A "9")|..]; try reflexivity; try (split; [reflexivity|discriminate]); try (vm_compute; discriminate).
    apply (ET_next _ "1d" "" Plus "" _ "2d+2d"); [apply (A "1")|..]; try reflexivity; try (split; [reflexivity|discriminate]); try (vm_compute; discriminate).
    apply (ET_next _ "2d" "" Plus "" _ "2d"); [apply (A "2")|..]; try reflexivity; try (split; [reflexivity|discriminate]); try (vm_compute; discriminate).
    apply ET_last. apply (A "2"); try reflexivity; try (split; [reflexivity|discriminate]); vm_compute; discriminate.
  - exists (Subtraction (Days 9) (Addition (Days 1) (Addition (Days 2) (Days 2)))). split; vm_compute; reflexivity.
Qed.

(** C70. A printed moment is read back as it is if and only if it is a midnight. *)
Theorem C70_exactly_partial : forall cfg pd pdt md now1 now2 n m time, no_leap m -> let s := show_moment m in
  pdt s = PError \/ pdt s = Incomplete -> pd s = Done time (YMD (year m) (month m) (day m)) ->
  starts op_char (drop_blanks time) = false -> starts letter_char (drop_blanks time) = false ->
  (main md cfg pd pdt now1 now2 n [show_moment m ++ " "] = ([Value (show_moment m ++ " ")], Exits 0) <->
   hour m = 0 /\ minute m = 0 /\ second m = 0 /\ nano m = 0).
Proof. exact moment_again_exact. Qed.
Print Assumptions C70_exactly_partial.
Example C70_exactly_case : let m := mkdt 2016 2 29 0 0 0 0 in no_leap m /\ toy_times (show_moment m) = PError /\
  toy_dates (show_moment m) = Done " 00:00:00" (YMD 2016 2 29) /\
  main Checked (mkcfg true true) toy_dates toy_times m m 5 ["2016-02-29 00:00:00 "] = ([Value "2016-02-29 00:00:00 "], Exits 0) /\
  main Checked (mkcfg true true) toy_dates toy_times m m 5 ["2016-02-29 00:00:01 "] = ([Value "2016-02-29 00:00:00 "], Exits 0).
Proof. repeat split; vm_compute; reflexivity. Qed.

(** C76. n weeks are n/4 months if and only if the weeks left over make up for the two days missing in each 4 weeks. *)
Theorem C76_exactly_partial : forall md n t, 0 <= n -> weeks md n = Ok t -> in_i64 (7 * n) = true ->
  (get_months md t = Ok (n / 4) <-> 2 * (n / 4) <= 7 * (n mod 4)).
Proof. exact weeks_exact. Qed.
Print Assumptions C76_exactly_partial.
Example C76_exactly_case : weeks Checked 43 = Ok (Days 301) /\ get_months Checked (Days 301) = Ok 10 /\ 2 * (43 / 4) <= 7 * (43 mod 4) /\
  weeks Checked 47 = Ok (Days 329) /\ get_months Checked (Days 329) = Ok 10 /\ 47 / 4 = 11.
Proof. repeat split; vm_compute; reflexivity || discriminate. Qed.

(** C43. The bounded iteration ends at an item if and only if the unbounded one is there not before the end; with steps of at most
    30 days it ends if and only if such a moment can be represented. *)
Theorem C43_exactly_partial : forall md m u n it ending, build m (mk u n) = Ok it -> dt_valid m = true -> in_i64 n = true -> dt_valid ending = true ->
  forall k, (nth_item (until_next md (iter_next md) ending) k it = None <->
  exists m', nth_item (iter_next md) k it = Some (Ok (Moment m')) /\ ~ before m' ending).
Proof. exact until_none_exact. Qed.
Print Assumptions C43_exactly_partial.
Theorem C43_clock_exactly_partial : forall md m u n it ending, build m (mk u n) = Ok it -> dt_valid m = true -> clock_unit u = true -> 0 < n ->
  n * unit_secs u <= 30 * 86400 -> dt_valid ending = true ->
  ((exists K, nth_item (until_next md (iter_next md) ending) K it = None) <-> reaches u n m ending).
Proof. exact reaches_exact. Qed.
Print Assumptions C43_clock_exactly_partial.
(** Daily until the last day of the last year: noon is reached from noon, 13:00 is not, and half a second after noon is not. *)
Example C43_exactly_case : let m := mkdt max_year 12 29 12 0 0 0 in let e h ns := mkdt max_year 12 31 h 0 0 ns in
  dt_valid m = true /\ dt_valid (e 13 0) = true /\ reaches UDay 1 m (e 12 0) /\ ~ reaches UDay 1 m (e 13 0) /\ ~ reaches UDay 1 m (e 12 500000000) /\
  nth_item (until_next Checked (iter_next Checked) (e 12 0)) 2 (mkiter (Moment m) (Days 1) false) = None /\
  nth_item (until_next Checked (iter_next Checked) (e 13 0)) 3 (mkiter (Moment m) (Days 1) false) = Some (Err (OutOfBounds 262144 1 12 12 0 0)).
Proof.
  assert (A : forall h ns, 12 <= h < 24 -> (h = 12 -> 0 < ns) -> ~ reaches UDay 1 (mkdt max_year 12 29 12 0 0 0) (mkdt max_year 12 31 h 0 0 ns)).
  { intros h ns Hh Hn [C|(k & Hk & L1 & L2)].
    - apply C. left. unfold inst. cbn [year month day hour minute second]. unfold instant.
      change (day_number max_year 12 31) with (day_number max_year 12 29 + 2). lia.
    - unfold inst in L1, L2. cbn [year month day hour minute second nano unit_secs] in L1, L2. unfold instant in L1, L2.
      change (day_number (max_year + 1) 1 1) with (day_number max_year 12 29 + 3) in L2.
      change (day_number max_year 12 31) with (day_number max_year 12 29 + 2) in L1.
      destruct (Z.ltb_spec 0 ns); lia. }
  cbv zeta. refine (conj _ (conj _ (conj _ (conj _ (conj _ (conj _ _)))))).
  - vm_compute. reflexivity.
  - vm_compute. reflexivity.
  - right. exists 2. vm_compute. repeat split; discriminate.
  - apply A; lia.
  - apply A; lia.
  - vm_compute. reflexivity.
  - vm_compute. reflexivity.
Qed.
