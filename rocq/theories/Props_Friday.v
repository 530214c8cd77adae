(** Weekdays of monthly and yearly iterations (C131). *)
Require Import ZArith Bool List Lia.
From Verif Require Import Prelude Spec Chrono TimeType Matcher Iter SpecTree SpecMoment SpecIter SpecAdapt SpecSeq SpecExact SpecHang SpecFree FridayProofs.
Import ListNotations.
Local Open Scope Z_scope.

(** C131. A monthly iteration from a day up to the 28th, filtered by a weekday: the first item is found within 14 months, and the next within 14 months of the one before. *)
Theorem C131_months : forall md m it d fuel j, build m (Months 1) = Ok it -> dt_valid m = true -> day m <= 28 -> (14 <= fuel)%nat ->
  month_index m + 14 * (Z.of_nat j + 1) <= 12 * (max_year + 1) ->
  exists x, nth_item (filter_next (iter_next md) fuel (day_matches d)) j it = Some (Ok (Moment x)) /\ dt_valid x = true /\ on_day d x = true /\ day x = day m /\
    month_index m + Z.of_nat j <= month_index x < month_index m + 14 * (Z.of_nat j + 1) /\
    (month_index m + 14 * (Z.of_nat j + 2) <= 12 * (max_year + 1) ->
     exists y, nth_item (filter_next (iter_next md) fuel (day_matches d)) (S j) it = Some (Ok (Moment y)) /\ dt_valid y = true /\ on_day d y = true /\ day y = day m /\
       month_index x < month_index y <= month_index x + 14).
Proof. exact friday_months. Qed.
Print Assumptions C131_months.
(** The same for a yearly iteration, not from 29 February, with 12 years. *)
Theorem C131_years : forall md m it d fuel j, build m (Years 1) = Ok it -> dt_valid m = true -> ~ (month m = 2 /\ day m = 29) -> (12 <= fuel)%nat ->
  year m + 12 * (Z.of_nat j + 1) <= max_year + 1 ->
  exists x, nth_item (filter_next (iter_next md) fuel (day_matches d)) j it = Some (Ok (Moment x)) /\ dt_valid x = true /\ on_day d x = true /\ month x = month m /\ day x = day m /\
    year m + Z.of_nat j <= year x < year m + 12 * (Z.of_nat j + 1) /\
    (year m + 12 * (Z.of_nat j + 2) <= max_year + 1 ->
     exists y, nth_item (filter_next (iter_next md) fuel (day_matches d)) (S j) it = Some (Ok (Moment y)) /\ dt_valid y = true /\ on_day d y = true /\ month y = month m /\ day y = day m /\
       year x < year y <= year x + 12).
Proof. exact friday_years. Qed.
Print Assumptions C131_years.
(** The twelve months of a year hold one to three of them. *)
Theorem C131_in_a_year : forall md m it d fuel, build m (Months 1) = Ok it -> dt_valid m = true -> day m <= 28 -> month m = 1 -> (12 < fuel)%nat ->
  exists l, collects (filter_next (times_next md (iter_next md)) fuel (day_matches d)) (times_new it 12) (moments l) /\ (1 <= length l <= 3)%nat /\
    (forall x, In x l -> dt_valid x = true /\ on_day d x = true /\ day x = day m /\ year x = year m).
Proof. exact tally_year. Qed.
Print Assumptions C131_in_a_year.
(** Over 400 years their number only depends on the day and the weekday; the 13th is a Friday more often (688 times) than any other weekday. *)
Theorem C131_in_400_years : forall md m it d fuel, build m (Months 1) = Ok it -> dt_valid m = true -> day m <= 28 -> (4800 < fuel)%nat -> month_index m + 4800 <= 12 * (max_year + 1) ->
  exists l, collects (filter_next (times_next md (iter_next md)) fuel (day_matches d)) (times_new it 4800) l /\
    length l = nth (Z.to_nat ((wday_into d - day m + 1) mod 7)) [684; 687; 685; 685; 687; 684; 688]%nat 0%nat.
Proof. exact tally_400. Qed.
Print Assumptions C131_in_400_years.

(** Between Friday 13 July 2001 and the next one there are 14 months, between Monday 1 March 1897 and the next one 12 years. *)
Example C131_months_case : let m := mkdt 2001 7 13 8 0 0 0 in let it := mkiter (Moment m) (Months 1) false in
  build m (Months 1) = Ok it /\ dt_valid m = true /\ month_index m + 14 * (1 + 2) <= 12 * (max_year + 1) /\
  items (filter_next (iter_next Checked) 14 (day_matches Friday)) 4 it =
    map (fun d => Some (Ok (Moment d))) [m; mkdt 2002 9 13 8 0 0 0; mkdt 2002 12 13 8 0 0 0; mkdt 2003 6 13 8 0 0 0] /\
  nth_item (filter_next (iter_next Checked) 13 (day_matches Friday)) 1 it = Some OutOfFuel.
Proof. vm_compute. repeat split; discriminate. Qed.
Example C131_years_case : let m := mkdt 1897 3 1 8 0 0 0 in let it := mkiter (Moment m) (Years 1) false in
  build m (Years 1) = Ok it /\ dt_valid m = true /\ year m + 12 * (1 + 2) <= max_year + 1 /\
  items (filter_next (iter_next Checked) 12 (day_matches Monday)) 3 it =
    map (fun d => Some (Ok (Moment d))) [m; mkdt 1909 3 1 8 0 0 0; mkdt 1915 3 1 8 0 0 0] /\
  nth_item (filter_next (iter_next Checked) 11 (day_matches Monday)) 1 it = Some OutOfFuel.
Proof. vm_compute. repeat split; discriminate. Qed.
(** 2015 had three such Fridays, 2016 one. *)
Example C131_in_a_year_case : let m y := mkdt y 1 13 8 0 0 0 in let it y := mkiter (Moment (m y)) (Months 1) false in
  build (m 2015) (Months 1) = Ok (it 2015) /\ dt_valid (m 2015) = true /\
  items (filter_next (times_next Checked (iter_next Checked)) 13 (day_matches Friday)) 4 (times_new (it 2015) 12) =
    [Some (Ok (Moment (mkdt 2015 2 13 8 0 0 0))); Some (Ok (Moment (mkdt 2015 3 13 8 0 0 0))); Some (Ok (Moment (mkdt 2015 11 13 8 0 0 0))); None] /\
  items (filter_next (times_next Checked (iter_next Checked)) 13 (day_matches Friday)) 2 (times_new (it 2016) 12) = [Some (Ok (Moment (mkdt 2016 5 13 8 0 0 0))); None].
Proof. vm_compute. repeat split; discriminate. Qed.
(** The 688 Fridays. *)
Example C131_in_400_years_case : let m := mkdt 2001 7 13 8 0 0 0 in month_index m + 4800 <= 12 * (max_year + 1) /\
  map (fun d => nth (Z.to_nat ((wday_into d - day m + 1) mod 7)) [684; 687; 685; 685; 687; 684; 688]%nat 0%nat) [Monday; Tuesday; Wednesday; Thursday; Friday; Saturday; Sunday] =
    [685; 685; 687; 684; 688; 684; 687]%nat /\
  let nx := filter_next (times_next Checked (iter_next Checked)) 15 (day_matches Friday) in let t := times_new (mkiter (Moment m) (Months 1) false) 4800 in
  nth_item nx 687 t = Some (Ok (Moment (mkdt 2401 4 13 8 0 0 0))) /\ nth_item nx 688 t = None.
Proof. vm_compute. repeat split; discriminate. Qed.
