(** The tests of /repo/src/timetype.rs (lines 1182-3749), run against the model. They are
    tests of the translation, not properties. Generated from the source text; the line is cited. *)
Require Import ZArith Bool String List.
From Verif Require Import Prelude Spec Chrono Util TimeType Matcher.
Local Open Scope Z_scope.

(** src/timetype.rs 1189 *)
Example tests_test_addition_of_seconds : match (op_add (Seconds 0) (Seconds 1)) with Addition a0 b0 => get_seconds Checked a0 = Ok 0 /\ get_seconds Checked b0 = Ok 1 | _ => False end.
Proof. vm_compute. repeat split. Qed.
(** src/timetype.rs 1205 *)
Example tests_test_addition_of_seconds_multiple : match (op_add (op_add (Seconds 0) (Seconds 1)) (Seconds 2)) with Addition (Addition a0 b0) c0 => get_seconds Checked a0 = Ok 0 /\ get_seconds Checked b0 = Ok 1 /\ get_seconds Checked c0 = Ok 2 | _ => False end.
Proof. vm_compute. repeat split. Qed.
(** src/timetype.rs 1228 *)
Example tests_test_subtraction_of_seconds : match (op_sub (Seconds 5) (Seconds 3)) with Subtraction a0 b0 => get_seconds Checked a0 = Ok 5 /\ get_seconds Checked b0 = Ok 3 | _ => False end.
Proof. vm_compute. repeat split. Qed.
(** src/timetype.rs 1244 *)
Example tests_test_subtraction_of_seconds_multiple : match (op_sub (op_sub (Seconds 3) (Seconds 2)) (Seconds 1)) with Subtraction (Subtraction a0 b0) c0 => get_seconds Checked a0 = Ok 3 /\ get_seconds Checked b0 = Ok 2 /\ get_seconds Checked c0 = Ok 1 | _ => False end.
Proof. vm_compute. repeat split. Qed.
(** src/timetype.rs 1267 *)
Example tests_test_addition_of_seconds_calculate : (do v <- calculate Checked (op_add (Seconds 0) (Seconds 1)); get_seconds Checked v) = Ok 1.
Proof. vm_compute. reflexivity. Qed.
(** src/timetype.rs 1280 *)
Example tests_test_addition_of_seconds_multiple_calculate : (do v <- calculate Checked (op_add (op_add (Seconds 0) (Seconds 1)) (Seconds 2)); get_seconds Checked v) = Ok 3.
Proof. vm_compute. reflexivity. Qed.
(** src/timetype.rs 1294 *)
Example tests_test_subtraction_of_seconds_calculate : (do v <- calculate Checked (op_sub (Seconds 5) (Seconds 3)); get_seconds Checked v) = Ok 2.
Proof. vm_compute. reflexivity. Qed.
(** src/timetype.rs 1307 *)
Example tests_test_subtraction_of_seconds_multiple_calculate : (do v <- calculate Checked (op_sub (op_sub (Seconds 3) (Seconds 2)) (Seconds 1)); get_seconds Checked v) = Ok 0.
Proof. vm_compute. reflexivity. Qed.
(** src/timetype.rs 1321 *)
Example tests_test_addition_of_minutes : match (op_add (Minutes 0) (Minutes 1)) with Addition a0 b0 => get_minutes Checked a0 = Ok 0 /\ get_minutes Checked b0 = Ok 1 | _ => False end.
Proof. vm_compute. repeat split. Qed.
(** src/timetype.rs 1337 *)
Example tests_test_addition_of_minutes_multiple : match (op_add (op_add (Minutes 0) (Minutes 1)) (Minutes 2)) with Addition (Addition a0 b0) c0 => get_minutes Checked a0 = Ok 0 /\ get_minutes Checked b0 = Ok 1 /\ get_minutes Checked c0 = Ok 2 | _ => False end.
Proof. vm_compute. repeat split. Qed.
(** src/timetype.rs 1360 *)
Example tests_test_subtraction_of_minutes : match (op_sub (Minutes 5) (Minutes 3)) with Subtraction a0 b0 => get_minutes Checked a0 = Ok 5 /\ get_minutes Checked b0 = Ok 3 | _ => False end.
Proof. vm_compute. repeat split. Qed.
(** src/timetype.rs 1376 *)
Example tests_test_subtraction_of_minutes_multiple : match (op_sub (op_sub (Minutes 3) (Minutes 2)) (Minutes 1)) with Subtraction (Subtraction a0 b0) c0 => get_minutes Checked a0 = Ok 3 /\ get_minutes Checked b0 = Ok 2 /\ get_minutes Checked c0 = Ok 1 | _ => False end.
Proof. vm_compute. repeat split. Qed.
(** src/timetype.rs 1399 *)
Example tests_test_addition_of_minutes_calculate : (do v <- calculate Checked (op_add (Minutes 0) (Minutes 1)); get_minutes Checked v) = Ok 1.
Proof. vm_compute. reflexivity. Qed.
(** src/timetype.rs 1412 *)
Example tests_test_addition_of_minutes_multiple_calculate : (do v <- calculate Checked (op_add (op_add (Minutes 0) (Minutes 1)) (Minutes 2)); get_minutes Checked v) = Ok 3.
Proof. vm_compute. reflexivity. Qed.
(** src/timetype.rs 1426 *)
Example tests_test_subtraction_of_minutes_calculate : (do v <- calculate Checked (op_sub (Minutes 5) (Minutes 3)); get_minutes Checked v) = Ok 2.
Proof. vm_compute. reflexivity. Qed.
(** src/timetype.rs 1439 *)
Example tests_test_subtraction_of_minutes_multiple_calculate : (do v <- calculate Checked (op_sub (op_sub (Minutes 3) (Minutes 2)) (Minutes 1)); get_minutes Checked v) = Ok 0.
Proof. vm_compute. reflexivity. Qed.
(** src/timetype.rs 1453 *)
Example tests_test_addition_of_days : match (op_add (Days 0) (Days 1)) with Addition a0 b0 => get_days Checked a0 = Ok 0 /\ get_days Checked b0 = Ok 1 | _ => False end.
Proof. vm_compute. repeat split. Qed.
(** src/timetype.rs 1469 *)
Example tests_test_addition_of_days_multiple : match (op_add (op_add (Days 0) (Days 1)) (Days 2)) with Addition (Addition a0 b0) c0 => get_days Checked a0 = Ok 0 /\ get_days Checked b0 = Ok 1 /\ get_days Checked c0 = Ok 2 | _ => False end.
Proof. vm_compute. repeat split. Qed.
(** src/timetype.rs 1492 *)
Example tests_test_subtraction_of_days : match (op_sub (Days 5) (Days 3)) with Subtraction a0 b0 => get_days Checked a0 = Ok 5 /\ get_days Checked b0 = Ok 3 | _ => False end.
Proof. vm_compute. repeat split. Qed.
(** src/timetype.rs 1508 *)
Example tests_test_subtraction_of_days_multiple : match (op_sub (op_sub (Days 3) (Days 2)) (Days 1)) with Subtraction (Subtraction a0 b0) c0 => get_days Checked a0 = Ok 3 /\ get_days Checked b0 = Ok 2 /\ get_days Checked c0 = Ok 1 | _ => False end.
Proof. vm_compute. repeat split. Qed.
(** src/timetype.rs 1531 *)
Example tests_test_addition_of_days_calculate : (do v <- calculate Checked (op_add (Days 0) (Days 1)); get_days Checked v) = Ok 1.
Proof. vm_compute. reflexivity. Qed.
(** src/timetype.rs 1544 *)
Example tests_test_addition_of_days_multiple_calculate : (do v <- calculate Checked (op_add (op_add (Days 0) (Days 1)) (Days 2)); get_days Checked v) = Ok 3.
Proof. vm_compute. reflexivity. Qed.
(** src/timetype.rs 1558 *)
Example tests_test_subtraction_of_days_calculate : (do v <- calculate Checked (op_sub (Days 5) (Days 3)); get_days Checked v) = Ok 2.
Proof. vm_compute. reflexivity. Qed.
(** src/timetype.rs 1571 *)
Example tests_test_subtraction_of_days_multiple_calculate : (do v <- calculate Checked (op_sub (op_sub (Days 3) (Days 2)) (Days 1)); get_days Checked v) = Ok 0.
Proof. vm_compute. reflexivity. Qed.
(** src/timetype.rs 1585 *)
Example tests_test_addition_of_months : match (op_add (Months 0) (Months 1)) with Addition a0 b0 => get_months Checked a0 = Ok 0 /\ get_months Checked b0 = Ok 1 | _ => False end.
Proof. vm_compute. repeat split. Qed.
(** src/timetype.rs 1601 *)
Example tests_test_addition_of_months_multiple : match (op_add (op_add (Months 0) (Months 1)) (Months 2)) with Addition (Addition a0 b0) c0 => get_months Checked a0 = Ok 0 /\ get_months Checked b0 = Ok 1 /\ get_months Checked c0 = Ok 2 | _ => False end.
Proof. vm_compute. repeat split. Qed.
(** src/timetype.rs 1624 *)
Example tests_test_subtraction_of_months : match (op_sub (Months 5) (Months 3)) with Subtraction a0 b0 => get_months Checked a0 = Ok 5 /\ get_months Checked b0 = Ok 3 | _ => False end.
Proof. vm_compute. repeat split. Qed.
(** src/timetype.rs 1640 *)
Example tests_test_subtraction_of_months_multiple : match (op_sub (op_sub (Months 3) (Months 2)) (Months 1)) with Subtraction (Subtraction a0 b0) c0 => get_months Checked a0 = Ok 3 /\ get_months Checked b0 = Ok 2 /\ get_months Checked c0 = Ok 1 | _ => False end.
Proof. vm_compute. repeat split. Qed.
(** src/timetype.rs 1663 *)
Example tests_test_addition_of_months_calculate : (do v <- calculate Checked (op_add (Months 0) (Months 1)); get_months Checked v) = Ok 1.
Proof. vm_compute. reflexivity. Qed.
(** src/timetype.rs 1676 *)
Example tests_test_addition_of_months_multiple_calculate : (do v <- calculate Checked (op_add (op_add (Months 0) (Months 1)) (Months 2)); get_months Checked v) = Ok 3.
Proof. vm_compute. reflexivity. Qed.
(** src/timetype.rs 1690 *)
Example tests_test_subtraction_of_months_calculate : (do v <- calculate Checked (op_sub (Months 5) (Months 3)); get_months Checked v) = Ok 2.
Proof. vm_compute. reflexivity. Qed.
(** src/timetype.rs 1703 *)
Example tests_test_subtraction_of_months_multiple_calculate : (do v <- calculate Checked (op_sub (op_sub (Months 3) (Months 2)) (Months 1)); get_months Checked v) = Ok 0.
Proof. vm_compute. reflexivity. Qed.
(** src/timetype.rs 1717 *)
Example tests_test_addition_of_years : match (op_add (Years 0) (Years 1)) with Addition a0 b0 => get_years a0 = Ok 0 /\ get_years b0 = Ok 1 | _ => False end.
Proof. vm_compute. repeat split. Qed.
(** src/timetype.rs 1733 *)
Example tests_test_addition_of_years_multiple : match (op_add (op_add (Years 0) (Years 1)) (Years 2)) with Addition (Addition a0 b0) c0 => get_years a0 = Ok 0 /\ get_years b0 = Ok 1 /\ get_years c0 = Ok 2 | _ => False end.
Proof. vm_compute. repeat split. Qed.
(** src/timetype.rs 1756 *)
Example tests_test_subtraction_of_years : match (op_sub (Years 5) (Years 3)) with Subtraction a0 b0 => get_years a0 = Ok 5 /\ get_years b0 = Ok 3 | _ => False end.
Proof. vm_compute. repeat split. Qed.
(** src/timetype.rs 1772 *)
Example tests_test_subtraction_of_years_multiple : match (op_sub (op_sub (Years 3) (Years 2)) (Years 1)) with Subtraction (Subtraction a0 b0) c0 => get_years a0 = Ok 3 /\ get_years b0 = Ok 2 /\ get_years c0 = Ok 1 | _ => False end.
Proof. vm_compute. repeat split. Qed.
(** src/timetype.rs 1795 *)
Example tests_test_addition_of_years_calculate : (do v <- calculate Checked (op_add (Years 0) (Years 1)); get_years v) = Ok 1.
Proof. vm_compute. reflexivity. Qed.
(** src/timetype.rs 1808 *)
Example tests_test_addition_of_years_multiple_calculate : (do v <- calculate Checked (op_add (op_add (Years 0) (Years 1)) (Years 2)); get_years v) = Ok 3.
Proof. vm_compute. reflexivity. Qed.
(** src/timetype.rs 1822 *)
Example tests_test_subtraction_of_years_calculate : (do v <- calculate Checked (op_sub (Years 5) (Years 3)); get_years v) = Ok 2.
Proof. vm_compute. reflexivity. Qed.
(** src/timetype.rs 1835 *)
Example tests_test_subtraction_of_years_multiple_calculate : (do v <- calculate Checked (op_sub (op_sub (Years 3) (Years 2)) (Years 1)); get_years v) = Ok 0.
Proof. vm_compute. reflexivity. Qed.
(** src/timetype.rs 1849 *)
Example tests_test_addition_of_years_multiple_calculate_reverse_order : (do v <- calculate Checked (op_add (Years 0) (op_add (Years 1) (Years 2))); get_years v) = Ok 3.
Proof. vm_compute. reflexivity. Qed.
(** src/timetype.rs 1863 *)
Example tests_test_subtraction_of_years_multiple_calculate_reverse_order : (do v <- calculate Checked (op_sub (Years 3) (op_sub (Years 2) (Years 1))); get_years v) = Ok 2.
Proof. vm_compute. reflexivity. Qed.
(** src/timetype.rs 1877 *)
Example tests_test_subtraction_of_years_multiple_calculate_reverse_order_2 : (do v <- calculate Checked (op_sub (op_sub (Years 10) (Years 1)) (op_sub (Years 3) (Years 2))); get_years v) = Ok 8.
Proof. vm_compute. reflexivity. Qed.
(** src/timetype.rs 1892 *)
Example tests_test_add_moment_to_seconds : match calculate Checked (op_add (Seconds 3) (Moment (mkdt 2016 7 8 9 10 11 0))) with Err (CannotAdd _ _) => true | _ => false end = true.
Proof. vm_compute. reflexivity. Qed.
(** src/timetype.rs 1908 *)
Example tests_test_subtract_moment_from_seconds : match calculate Checked (op_sub (Seconds 3) (Moment (mkdt 2016 7 8 9 10 11 0))) with Err (CannotSub _ _) => true | _ => false end = true.
Proof. vm_compute. reflexivity. Qed.
(** src/timetype.rs 1930 *)
Example test_add_and_sub_mixed_test_add_then_sub : (do v <- calculate Checked (op_sub (op_add (Seconds 0) (Seconds 1)) (Seconds 1)); get_seconds Checked v) = Ok 0.
Proof. vm_compute. reflexivity. Qed.
(** src/timetype.rs 1940 *)
Example test_add_and_sub_mixed_test_sub_then_add : (do v <- calculate Checked (op_add (op_sub (Seconds 1) (Seconds 1)) (Seconds 0)); get_seconds Checked v) = Ok 0.
Proof. vm_compute. reflexivity. Qed.
(** src/timetype.rs 1956 *)
Example timetype_value_tests_test_set_seconds_get_others : get_seconds Checked (Seconds 59) = Ok 59 /\ get_minutes Checked (Seconds 59) = Ok 0 /\ get_hours Checked (Seconds 59) = Ok 0 /\ get_days Checked (Seconds 59) = Ok 0 /\ get_months Checked (Seconds 59) = Ok 0 /\ get_years (Seconds 59) = Ok 0.
Proof. vm_compute. repeat split. Qed.
(** src/timetype.rs 1968 *)
Example timetype_value_tests_test_set_minutes_get_others : get_seconds Checked (Minutes 59) = Ok 3540 /\ get_minutes Checked (Minutes 59) = Ok 59 /\ get_hours Checked (Minutes 59) = Ok 0 /\ get_days Checked (Minutes 59) = Ok 0 /\ get_months Checked (Minutes 59) = Ok 0 /\ get_years (Minutes 59) = Ok 0.
Proof. vm_compute. repeat split. Qed.
(** src/timetype.rs 1980 *)
Example timetype_value_tests_test_set_hours_get_others : get_seconds Checked (Hours 59) = Ok 212400 /\ get_minutes Checked (Hours 59) = Ok 3540 /\ get_hours Checked (Hours 59) = Ok 59 /\ get_days Checked (Hours 59) = Ok 2 /\ get_months Checked (Hours 59) = Ok 0 /\ get_years (Hours 59) = Ok 0.
Proof. vm_compute. repeat split. Qed.
(** src/timetype.rs 1992 *)
Example timetype_value_tests_test_set_days_get_others : get_seconds Checked (Days 59) = Ok 5097600 /\ get_minutes Checked (Days 59) = Ok 84960 /\ get_hours Checked (Days 59) = Ok 1416 /\ get_days Checked (Days 59) = Ok 59 /\ get_months Checked (Days 59) = Ok 1 /\ get_years (Days 59) = Ok 0.
Proof. vm_compute. repeat split. Qed.
(** src/timetype.rs 2004 *)
Example timetype_value_tests_test_set_weeks_get_others : (do t <- weeks Checked 59; get_seconds Checked t) = Ok 35683200 /\ (do t <- weeks Checked 59; get_minutes Checked t) = Ok 594720 /\ (do t <- weeks Checked 59; get_hours Checked t) = Ok 9912 /\ (do t <- weeks Checked 59; get_days Checked t) = Ok 413 /\ (do t <- weeks Checked 59; get_months Checked t) = Ok 13 /\ (do t <- weeks Checked 59; get_years t) = Ok 1.
Proof. vm_compute. repeat split. Qed.
(** src/timetype.rs 2016 *)
Example timetype_value_tests_test_set_months_get_others : get_seconds Checked (Months 59) = Ok 152928000 /\ get_minutes Checked (Months 59) = Ok 2548800 /\ get_hours Checked (Months 59) = Ok 42480 /\ get_days Checked (Months 59) = Ok 1770 /\ get_months Checked (Months 59) = Ok 59 /\ get_years (Months 59) = Ok 4.
Proof. vm_compute. repeat split. Qed.
(** src/timetype.rs 2028 *)
Example timetype_value_tests_test_set_years_get_others : get_seconds Checked (Years 59) = Ok 1835136000 /\ get_minutes Checked (Years 59) = Ok 30585600 /\ get_hours Checked (Years 59) = Ok 509760 /\ get_days Checked (Years 59) = Ok 21240 /\ get_months Checked (Years 59) = Ok 708 /\ get_years (Years 59) = Ok 59.
Proof. vm_compute. repeat split. Qed.
(** src/timetype.rs 2112 *)
Example moment_plus_amount_tests_test_moment_plus_zero_seconds : calculate Checked (op_add (Moment (mkdt 2000 1 1 0 0 0 0)) (Seconds 0)) = Ok (Moment (mkdt 2000 1 1 0 0 0 0)).
Proof. vm_compute. reflexivity. Qed.
(** src/timetype.rs 2119 *)
Example moment_plus_amount_tests_test_moment_plus_seconds : calculate Checked (op_add (Moment (mkdt 2000 1 1 0 0 0 0)) (Seconds 1)) = Ok (Moment (mkdt 2000 1 1 0 0 1 0)).
Proof. vm_compute. reflexivity. Qed.
(** src/timetype.rs 2126 *)
Example moment_plus_amount_tests_test_moment_plus_too_much_seconds : calculate Checked (op_add (Moment (mkdt 2000 1 1 0 0 0 0)) (Seconds 62)) = Ok (Moment (mkdt 2000 1 1 0 1 2 0)).
Proof. vm_compute. reflexivity. Qed.
(** src/timetype.rs 2133 *)
Example moment_plus_amount_tests_test_moment_plus_minutes : calculate Checked (op_add (Moment (mkdt 2000 1 1 0 0 0 0)) (Minutes 2)) = Ok (Moment (mkdt 2000 1 1 0 2 0 0)).
Proof. vm_compute. reflexivity. Qed.
(** src/timetype.rs 2140 *)
Example moment_plus_amount_tests_test_moment_plus_too_much_minutes : calculate Checked (op_add (Moment (mkdt 2000 1 1 0 0 0 0)) (Minutes 65)) = Ok (Moment (mkdt 2000 1 1 1 5 0 0)).
Proof. vm_compute. reflexivity. Qed.
(** src/timetype.rs 2147 *)
Example moment_plus_amount_tests_test_moment_plus_minutes_in_seconds : calculate Checked (op_add (Moment (mkdt 2000 1 1 0 0 0 0)) (Seconds 62)) = Ok (Moment (mkdt 2000 1 1 0 1 2 0)).
Proof. vm_compute. reflexivity. Qed.
(** src/timetype.rs 2154 *)
Example moment_plus_amount_tests_test_moment_plus_months : calculate Checked (op_add (Moment (mkdt 2000 1 1 0 0 0 0)) (Months 14)) = Ok (Moment (mkdt 2001 3 1 0 0 0 0)).
Proof. vm_compute. reflexivity. Qed.
(** src/timetype.rs 2161 *)
Example moment_plus_amount_tests_test_moment_plus_years : calculate Checked (op_add (Moment (mkdt 2000 1 1 0 0 0 0)) (Years 62)) = Ok (Moment (mkdt 2062 1 1 0 0 0 0)).
Proof. vm_compute. reflexivity. Qed.
(** src/timetype.rs 2168 *)
Example moment_plus_amount_tests_test_moment_plus_more_than_one_year : calculate Checked (op_add (Moment (mkdt 2000 1 1 0 0 0 0)) (op_add (Years 1) (Months 1))) = Ok (Moment (mkdt 2001 2 1 0 0 0 0)).
Proof. vm_compute. reflexivity. Qed.
(** src/timetype.rs 2175 *)
Example moment_plus_amount_tests_test_moment_plus_more_than_one_month : calculate Checked (op_add (Moment (mkdt 2000 1 1 0 0 0 0)) (op_add (Months 1) (Days 1))) = Ok (Moment (mkdt 2000 2 1 0 0 0 0)).
Proof. vm_compute. reflexivity. Qed.
(** src/timetype.rs 2187 *)
Example moment_plus_amount_tests_test_moment_plus_more_than_one_day : calculate Checked (op_add (Moment (mkdt 2000 1 1 0 0 0 0)) (op_add (Days 1) (Hours 1))) = Ok (Moment (mkdt 2000 1 2 1 0 0 0)).
Proof. vm_compute. reflexivity. Qed.
(** src/timetype.rs 2194 *)
Example moment_plus_amount_tests_test_moment_plus_more_than_one_hour : calculate Checked (op_add (Moment (mkdt 2000 1 1 0 0 0 0)) (op_add (Hours 1) (Minutes 1))) = Ok (Moment (mkdt 2000 1 1 1 1 0 0)).
Proof. vm_compute. reflexivity. Qed.
(** src/timetype.rs 2201 *)
Example moment_plus_amount_tests_test_moment_plus_more_than_one_minute : calculate Checked (op_add (Moment (mkdt 2000 1 1 0 0 0 0)) (op_add (Minutes 1) (Seconds 1))) = Ok (Moment (mkdt 2000 1 1 0 1 1 0)).
Proof. vm_compute. reflexivity. Qed.
(** src/timetype.rs 2208 *)
Example moment_plus_amount_tests_test_moment_plus_invalid_months : calculate Checked (op_add (Moment (mkdt 2000 1 1 0 0 0 0)) (Months 13)) = Ok (Moment (mkdt 2001 2 1 0 0 0 0)).
Proof. vm_compute. reflexivity. Qed.
(** src/timetype.rs 2215 *)
Example moment_plus_amount_tests_test_moment_plus_invalid_days : calculate Checked (op_add (Moment (mkdt 2000 1 1 0 0 0 0)) (Days 31)) = Ok (Moment (mkdt 2000 2 1 0 0 0 0)).
Proof. vm_compute. reflexivity. Qed.
(** src/timetype.rs 2222 *)
Example moment_plus_amount_tests_test_moment_plus_invalid_hours : calculate Checked (op_add (Moment (mkdt 2000 1 1 0 0 0 0)) (Hours 25)) = Ok (Moment (mkdt 2000 1 2 1 0 0 0)).
Proof. vm_compute. reflexivity. Qed.
(** src/timetype.rs 2229 *)
Example moment_plus_amount_tests_test_moment_plus_invalid_minutes : calculate Checked (op_add (Moment (mkdt 2000 1 1 0 0 0 0)) (Minutes 61)) = Ok (Moment (mkdt 2000 1 1 1 1 0 0)).
Proof. vm_compute. reflexivity. Qed.
(** src/timetype.rs 2236 *)
Example moment_plus_amount_tests_test_moment_plus_invalid_seconds : calculate Checked (op_add (Moment (mkdt 2000 1 1 0 0 0 0)) (Seconds 61)) = Ok (Moment (mkdt 2000 1 1 0 1 1 0)).
Proof. vm_compute. reflexivity. Qed.
(** src/timetype.rs 2243 *)
Example moment_plus_amount_tests_test_moment_minus_nothing : calculate Checked (op_sub (Moment (mkdt 2000 1 1 0 0 0 0)) (Seconds 0)) = Ok (Moment (mkdt 2000 1 1 0 0 0 0)).
Proof. vm_compute. reflexivity. Qed.
(** src/timetype.rs 2250 *)
Example moment_plus_amount_tests_test_moment_minus_seconds : calculate Checked (op_sub (Moment (mkdt 2000 1 1 0 0 0 0)) (Seconds 1)) = Ok (Moment (mkdt 1999 12 31 23 59 59 0)).
Proof. vm_compute. reflexivity. Qed.
(** src/timetype.rs 2257 *)
Example moment_plus_amount_tests_test_moment_minus_months : calculate Checked (op_sub (Moment (mkdt 2000 1 1 0 0 0 0)) (Months 12)) = Ok (Moment (mkdt 1999 1 1 0 0 0 0)).
Proof. vm_compute. reflexivity. Qed.
(** src/timetype.rs 2264 *)
Example moment_plus_amount_tests_test_moment_plus_more_than_one_minute_in_seconds : calculate Checked (op_add (Moment (mkdt 2000 1 1 0 0 0 0)) (Seconds 130)) = Ok (Moment (mkdt 2000 1 1 0 2 10 0)).
Proof. vm_compute. reflexivity. Qed.
(** src/timetype.rs 2271 *)
Example moment_plus_amount_tests_test_moment_plus_more_than_one_hour_in_minutes : calculate Checked (op_add (Moment (mkdt 2000 1 1 0 0 0 0)) (Minutes 130)) = Ok (Moment (mkdt 2000 1 1 2 10 0 0)).
Proof. vm_compute. reflexivity. Qed.
(** src/timetype.rs 2278 *)
Example moment_plus_amount_tests_test_moment_plus_more_than_one_day_in_hours_1 : calculate Checked (op_add (Moment (mkdt 2000 1 1 0 0 0 0)) (Hours 50)) = Ok (Moment (mkdt 2000 1 3 2 0 0 0)).
Proof. vm_compute. reflexivity. Qed.
(** src/timetype.rs 2285 *)
Example moment_plus_amount_tests_test_moment_plus_more_than_one_day_in_hours_2 : calculate Checked (op_add (Moment (mkdt 2000 1 1 0 0 0 0)) (Hours 170)) = Ok (Moment (mkdt 2000 1 8 2 0 0 0)).
Proof. vm_compute. reflexivity. Qed.
(** src/timetype.rs 2292 *)
Example moment_plus_amount_tests_test_moment_plus_more_than_one_month_in_days_1 : calculate Checked (op_add (Moment (mkdt 2000 1 1 0 0 0 0)) (Days 80)) = Ok (Moment (mkdt 2000 3 21 0 0 0 0)).
Proof. vm_compute. reflexivity. Qed.
(** src/timetype.rs 2299 *)
Example moment_plus_amount_tests_test_moment_plus_more_than_one_month_in_days_2 : calculate Checked (op_add (Moment (mkdt 2000 1 1 0 0 0 0)) (Days 120)) = Ok (Moment (mkdt 2000 4 30 0 0 0 0)).
Proof. vm_compute. reflexivity. Qed.
(** src/timetype.rs 2306 *)
Example moment_plus_amount_tests_test_moment_plus_more_than_one_month_in_days_3 : calculate Checked (op_add (Moment (mkdt 2000 1 1 0 0 0 0)) (Days 150)) = Ok (Moment (mkdt 2000 5 30 0 0 0 0)).
Proof. vm_compute. reflexivity. Qed.
(** src/timetype.rs 2313 *)
Example moment_plus_amount_tests_test_moment_plus_more_than_one_year_in_months_1 : calculate Checked (op_add (Moment (mkdt 2000 1 1 0 0 0 0)) (Months 15)) = Ok (Moment (mkdt 2001 4 1 0 0 0 0)).
Proof. vm_compute. reflexivity. Qed.
(** src/timetype.rs 2320 *)
Example moment_plus_amount_tests_test_moment_plus_more_than_one_year_in_months_2 : calculate Checked (op_add (Moment (mkdt 2000 1 1 0 0 0 0)) (Months 25)) = Ok (Moment (mkdt 2002 2 1 0 0 0 0)).
Proof. vm_compute. reflexivity. Qed.
(** src/timetype.rs 2327 *)
Example moment_plus_amount_tests_test_moment_plus_more_than_one_year_in_months_3 : calculate Checked (op_add (Moment (mkdt 2000 1 1 0 0 0 0)) (Months 78)) = Ok (Moment (mkdt 2006 7 1 0 0 0 0)).
Proof. vm_compute. reflexivity. Qed.
(** src/timetype.rs 2334 *)
Example moment_plus_amount_tests_test_moment_plus_more_than_one_year_in_months_4 : calculate Checked (op_add (Moment (mkdt 2000 10 31 0 0 0 0)) (Months 4)) = Ok (Moment (mkdt 2001 3 1 0 0 0 0)).
Proof. vm_compute. reflexivity. Qed.
(** src/timetype.rs 2341 *)
Example moment_plus_amount_tests_test_moment_plus_more_than_one_year_in_months_5 : calculate Checked (op_add (Moment (mkdt 2000 10 31 0 0 0 0)) (Months 5)) = Ok (Moment (mkdt 2001 4 1 0 0 0 0)).
Proof. vm_compute. reflexivity. Qed.
(** src/timetype.rs 2348 *)
Example moment_plus_amount_tests_test_moment_plus_more_than_one_year_in_months_6 : calculate Checked (op_add (Moment (mkdt 2000 10 31 0 0 0 0)) (op_add (Months 4) (Months 1))) = Ok (Moment (mkdt 2001 4 1 0 0 0 0)).
Proof. vm_compute. reflexivity. Qed.
(** src/timetype.rs 2402 *)
Example test_time_adjustments_test_adjust_times_add_seconds : adjust_times_add (E := kek) Checked 0 1 1 0 0 62 = Ok (0, 1, 1, 0, 1, 2).
Proof. vm_compute. reflexivity. Qed.
(** src/timetype.rs 2414 *)
Example test_time_adjustments_test_adjust_times_add_minutes : adjust_times_add (E := kek) Checked 0 1 1 0 62 0 = Ok (0, 1, 1, 1, 2, 0).
Proof. vm_compute. reflexivity. Qed.
(** src/timetype.rs 2426 *)
Example test_time_adjustments_test_adjust_times_add_hours : adjust_times_add (E := kek) Checked 0 1 1 26 0 0 = Ok (0, 1, 2, 2, 0, 0).
Proof. vm_compute. reflexivity. Qed.
(** src/timetype.rs 2438 *)
Example test_time_adjustments_test_adjust_times_add_days : adjust_times_add (E := kek) Checked 0 1 32 0 0 0 = Ok (0, 2, 1, 0, 0, 0).
Proof. vm_compute. reflexivity. Qed.
(** src/timetype.rs 2450 *)
Example test_time_adjustments_test_adjust_times_add_months : adjust_times_add (E := kek) Checked 0 14 1 0 0 0 = Ok (1, 2, 1, 0, 0, 0).
Proof. vm_compute. reflexivity. Qed.
(** src/timetype.rs 2462 *)
Example test_time_adjustments_test_adjust_times_sub_seconds : adjust_times_sub (E := kek) Checked 1 0 1 0 0 0 = Ok (0, 12, 1, 0, 0, 0).
Proof. vm_compute. reflexivity. Qed.
(** src/timetype.rs 2474 *)
Example test_time_adjustments_test_adjust_times_month_border : adjust_times_add (E := kek) Checked 2000 1 36 0 0 0 = Ok (2000, 2, 5, 0, 0, 0).
Proof. vm_compute. reflexivity. Qed.
(** src/timetype.rs 2474 *)
Example test_time_adjustments_test_adjust_times_month_border_1 : adjust_times_add (E := kek) Checked 2000 1 50 0 0 0 = Ok (2000, 2, 19, 0, 0, 0).
Proof. vm_compute. reflexivity. Qed.
(** src/timetype.rs 2474 *)
Example test_time_adjustments_test_adjust_times_month_border_2 : adjust_times_add (E := kek) Checked 2000 2 36 0 0 0 = Ok (2000, 3, 7, 0, 0, 0).
Proof. vm_compute. reflexivity. Qed.
(** src/timetype.rs 2474 *)
Example test_time_adjustments_test_adjust_times_month_border_3 : adjust_times_add (E := kek) Checked 2000 2 50 0 0 0 = Ok (2000, 3, 21, 0, 0, 0).
Proof. vm_compute. reflexivity. Qed.
(** src/timetype.rs 2474 *)
Example test_time_adjustments_test_adjust_times_month_border_4 : adjust_times_add (E := kek) Checked 2000 3 36 0 0 0 = Ok (2000, 4, 5, 0, 0, 0).
Proof. vm_compute. reflexivity. Qed.
(** src/timetype.rs 2587 *)
Example test_end_of_year_test_moment_plus_zero_seconds : calculate Checked (mk_end_of_year (op_add (Moment (mkdt 2000 1 1 0 0 0 0)) (Seconds 0))) = Ok (Moment (mkdt 2000 12 31 0 0 0 0)).
Proof. vm_compute. reflexivity. Qed.
(** src/timetype.rs 2594 *)
Example test_end_of_year_test_moment_plus_seconds : calculate Checked (mk_end_of_year (op_add (Moment (mkdt 2000 1 1 0 0 0 0)) (Seconds 1))) = Ok (Moment (mkdt 2000 12 31 0 0 0 0)).
Proof. vm_compute. reflexivity. Qed.
(** src/timetype.rs 2601 *)
Example test_end_of_year_test_moment_plus_too_much_seconds : calculate Checked (mk_end_of_year (op_add (Moment (mkdt 2000 1 1 0 0 0 0)) (Seconds 62))) = Ok (Moment (mkdt 2000 12 31 0 0 0 0)).
Proof. vm_compute. reflexivity. Qed.
(** src/timetype.rs 2608 *)
Example test_end_of_year_test_moment_plus_minutes : calculate Checked (mk_end_of_year (op_add (Moment (mkdt 2000 1 1 0 0 0 0)) (Minutes 2))) = Ok (Moment (mkdt 2000 12 31 0 0 0 0)).
Proof. vm_compute. reflexivity. Qed.
(** src/timetype.rs 2615 *)
Example test_end_of_year_test_moment_plus_too_much_minutes : calculate Checked (mk_end_of_year (op_add (Moment (mkdt 2000 1 1 0 0 0 0)) (Minutes 65))) = Ok (Moment (mkdt 2000 12 31 0 0 0 0)).
Proof. vm_compute. reflexivity. Qed.
(** src/timetype.rs 2622 *)
Example test_end_of_year_test_moment_plus_minutes_in_seconds : calculate Checked (mk_end_of_year (op_add (Moment (mkdt 2000 1 1 0 0 0 0)) (Seconds 62))) = Ok (Moment (mkdt 2000 12 31 0 0 0 0)).
Proof. vm_compute. reflexivity. Qed.
(** src/timetype.rs 2629 *)
Example test_end_of_year_test_moment_plus_months : calculate Checked (mk_end_of_year (op_add (Moment (mkdt 2000 1 1 0 0 0 0)) (Months 14))) = Ok (Moment (mkdt 2001 12 31 0 0 0 0)).
Proof. vm_compute. reflexivity. Qed.
(** src/timetype.rs 2636 *)
Example test_end_of_year_test_moment_plus_years : calculate Checked (mk_end_of_year (op_add (Moment (mkdt 2000 1 1 0 0 0 0)) (Years 62))) = Ok (Moment (mkdt 2062 12 31 0 0 0 0)).
Proof. vm_compute. reflexivity. Qed.
(** src/timetype.rs 2643 *)
Example test_end_of_year_test_moment_plus_more_than_one_year : calculate Checked (mk_end_of_year (op_add (Moment (mkdt 2000 1 1 0 0 0 0)) (op_add (Years 1) (Months 1)))) = Ok (Moment (mkdt 2001 12 31 0 0 0 0)).
Proof. vm_compute. reflexivity. Qed.
(** src/timetype.rs 2650 *)
Example test_end_of_year_test_moment_plus_more_than_one_month : calculate Checked (mk_end_of_year (op_add (Moment (mkdt 2000 1 1 0 0 0 0)) (op_add (Months 1) (Days 1)))) = Ok (Moment (mkdt 2000 12 31 0 0 0 0)).
Proof. vm_compute. reflexivity. Qed.
(** src/timetype.rs 2662 *)
Example test_end_of_year_test_moment_plus_more_than_one_day : calculate Checked (mk_end_of_year (op_add (Moment (mkdt 2000 1 1 0 0 0 0)) (op_add (Days 1) (Hours 1)))) = Ok (Moment (mkdt 2000 12 31 0 0 0 0)).
Proof. vm_compute. reflexivity. Qed.
(** src/timetype.rs 2669 *)
Example test_end_of_year_test_moment_plus_more_than_one_hour : calculate Checked (mk_end_of_year (op_add (Moment (mkdt 2000 1 1 0 0 0 0)) (op_add (Hours 1) (Minutes 1)))) = Ok (Moment (mkdt 2000 12 31 0 0 0 0)).
Proof. vm_compute. reflexivity. Qed.
(** src/timetype.rs 2676 *)
Example test_end_of_year_test_moment_plus_more_than_one_minute : calculate Checked (mk_end_of_year (op_add (Moment (mkdt 2000 1 1 0 0 0 0)) (op_add (Minutes 1) (Seconds 1)))) = Ok (Moment (mkdt 2000 12 31 0 0 0 0)).
Proof. vm_compute. reflexivity. Qed.
(** src/timetype.rs 2683 *)
Example test_end_of_year_test_moment_plus_invalid_months : calculate Checked (mk_end_of_year (op_add (Moment (mkdt 2000 1 1 0 0 0 0)) (Months 13))) = Ok (Moment (mkdt 2001 12 31 0 0 0 0)).
Proof. vm_compute. reflexivity. Qed.
(** src/timetype.rs 2690 *)
Example test_end_of_year_test_moment_plus_invalid_days : calculate Checked (mk_end_of_year (op_add (Moment (mkdt 2000 1 1 0 0 0 0)) (Days 31))) = Ok (Moment (mkdt 2000 12 31 0 0 0 0)).
Proof. vm_compute. reflexivity. Qed.
(** src/timetype.rs 2697 *)
Example test_end_of_year_test_moment_plus_invalid_hours : calculate Checked (mk_end_of_year (op_add (Moment (mkdt 2000 1 1 0 0 0 0)) (Hours 25))) = Ok (Moment (mkdt 2000 12 31 0 0 0 0)).
Proof. vm_compute. reflexivity. Qed.
(** src/timetype.rs 2704 *)
Example test_end_of_year_test_moment_plus_invalid_minutes : calculate Checked (mk_end_of_year (op_add (Moment (mkdt 2000 1 1 0 0 0 0)) (Minutes 61))) = Ok (Moment (mkdt 2000 12 31 0 0 0 0)).
Proof. vm_compute. reflexivity. Qed.
(** src/timetype.rs 2711 *)
Example test_end_of_year_test_moment_plus_invalid_seconds : calculate Checked (mk_end_of_year (op_add (Moment (mkdt 2000 1 1 0 0 0 0)) (Seconds 61))) = Ok (Moment (mkdt 2000 12 31 0 0 0 0)).
Proof. vm_compute. reflexivity. Qed.
(** src/timetype.rs 2718 *)
Example test_end_of_year_test_moment_minus_nothing : calculate Checked (mk_end_of_year (op_sub (Moment (mkdt 2000 1 1 0 0 0 0)) (Seconds 0))) = Ok (Moment (mkdt 2000 12 31 0 0 0 0)).
Proof. vm_compute. reflexivity. Qed.
(** src/timetype.rs 2725 *)
Example test_end_of_year_test_moment_minus_seconds : calculate Checked (mk_end_of_year (op_sub (Moment (mkdt 2000 1 1 0 0 0 0)) (Seconds 1))) = Ok (Moment (mkdt 1999 12 31 0 0 0 0)).
Proof. vm_compute. reflexivity. Qed.
(** src/timetype.rs 2732 *)
Example test_end_of_year_test_moment_minus_months : calculate Checked (mk_end_of_year (op_sub (Moment (mkdt 2000 1 1 0 0 0 0)) (Months 12))) = Ok (Moment (mkdt 1999 12 31 0 0 0 0)).
Proof. vm_compute. reflexivity. Qed.
(** src/timetype.rs 2805 *)
Example test_end_of_month_test_moment_plus_zero_seconds : calculate Checked (mk_end_of_month (op_add (Moment (mkdt 2000 1 1 0 0 0 0)) (Seconds 0))) = Ok (Moment (mkdt 2000 1 31 0 0 0 0)).
Proof. vm_compute. reflexivity. Qed.
(** src/timetype.rs 2812 *)
Example test_end_of_month_test_moment_plus_seconds : calculate Checked (mk_end_of_month (op_add (Moment (mkdt 2000 1 1 0 0 0 0)) (Seconds 1))) = Ok (Moment (mkdt 2000 1 31 0 0 0 0)).
Proof. vm_compute. reflexivity. Qed.
(** src/timetype.rs 2819 *)
Example test_end_of_month_test_moment_plus_too_much_seconds : calculate Checked (mk_end_of_month (op_add (Moment (mkdt 2000 1 1 0 0 0 0)) (Seconds 62))) = Ok (Moment (mkdt 2000 1 31 0 0 0 0)).
Proof. vm_compute. reflexivity. Qed.
(** src/timetype.rs 2826 *)
Example test_end_of_month_test_moment_plus_minutes : calculate Checked (mk_end_of_month (op_add (Moment (mkdt 2000 1 1 0 0 0 0)) (Minutes 2))) = Ok (Moment (mkdt 2000 1 31 0 0 0 0)).
Proof. vm_compute. reflexivity. Qed.
(** src/timetype.rs 2833 *)
Example test_end_of_month_test_moment_plus_too_much_minutes : calculate Checked (mk_end_of_month (op_add (Moment (mkdt 2000 1 1 0 0 0 0)) (Minutes 65))) = Ok (Moment (mkdt 2000 1 31 0 0 0 0)).
Proof. vm_compute. reflexivity. Qed.
(** src/timetype.rs 2840 *)
Example test_end_of_month_test_moment_plus_minutes_in_seconds : calculate Checked (mk_end_of_month (op_add (Moment (mkdt 2000 1 1 0 0 0 0)) (Seconds 62))) = Ok (Moment (mkdt 2000 1 31 0 0 0 0)).
Proof. vm_compute. reflexivity. Qed.
(** src/timetype.rs 2847 *)
Example test_end_of_month_test_moment_plus_months : calculate Checked (mk_end_of_month (op_add (Moment (mkdt 2000 1 1 0 0 0 0)) (Months 14))) = Ok (Moment (mkdt 2001 3 31 0 0 0 0)).
Proof. vm_compute. reflexivity. Qed.
(** src/timetype.rs 2854 *)
Example test_end_of_month_test_moment_plus_years : calculate Checked (mk_end_of_month (op_add (Moment (mkdt 2000 1 1 0 0 0 0)) (Years 62))) = Ok (Moment (mkdt 2062 1 31 0 0 0 0)).
Proof. vm_compute. reflexivity. Qed.
(** src/timetype.rs 2861 *)
Example test_end_of_month_test_moment_plus_more_than_one_year : calculate Checked (mk_end_of_month (op_add (Moment (mkdt 2000 1 1 0 0 0 0)) (op_add (Years 1) (Months 1)))) = Ok (Moment (mkdt 2001 2 28 0 0 0 0)).
Proof. vm_compute. reflexivity. Qed.
(** src/timetype.rs 2868 *)
Example test_end_of_month_test_moment_plus_more_than_one_month : calculate Checked (mk_end_of_month (op_add (Moment (mkdt 2000 1 1 0 0 0 0)) (op_add (Months 1) (Days 1)))) = Ok (Moment (mkdt 2000 2 29 0 0 0 0)).
Proof. vm_compute. reflexivity. Qed.
(** src/timetype.rs 2880 *)
Example test_end_of_month_test_moment_plus_more_than_one_day : calculate Checked (mk_end_of_month (op_add (Moment (mkdt 2000 1 1 0 0 0 0)) (op_add (Days 1) (Hours 1)))) = Ok (Moment (mkdt 2000 1 31 0 0 0 0)).
Proof. vm_compute. reflexivity. Qed.
(** src/timetype.rs 2887 *)
Example test_end_of_month_test_moment_plus_more_than_one_hour : calculate Checked (mk_end_of_month (op_add (Moment (mkdt 2000 1 1 0 0 0 0)) (op_add (Hours 1) (Minutes 1)))) = Ok (Moment (mkdt 2000 1 31 0 0 0 0)).
Proof. vm_compute. reflexivity. Qed.
(** src/timetype.rs 2894 *)
Example test_end_of_month_test_moment_plus_more_than_one_minute : calculate Checked (mk_end_of_month (op_add (Moment (mkdt 2000 1 1 0 0 0 0)) (op_add (Minutes 1) (Seconds 1)))) = Ok (Moment (mkdt 2000 1 31 0 0 0 0)).
Proof. vm_compute. reflexivity. Qed.
(** src/timetype.rs 2901 *)
Example test_end_of_month_test_moment_plus_invalid_months : calculate Checked (mk_end_of_month (op_add (Moment (mkdt 2000 1 1 0 0 0 0)) (Months 13))) = Ok (Moment (mkdt 2001 2 28 0 0 0 0)).
Proof. vm_compute. reflexivity. Qed.
(** src/timetype.rs 2908 *)
Example test_end_of_month_test_moment_plus_invalid_days : calculate Checked (mk_end_of_month (op_add (Moment (mkdt 2000 1 1 0 0 0 0)) (Days 31))) = Ok (Moment (mkdt 2000 2 29 0 0 0 0)).
Proof. vm_compute. reflexivity. Qed.
(** src/timetype.rs 2915 *)
Example test_end_of_month_test_moment_plus_invalid_hours : calculate Checked (mk_end_of_month (op_add (Moment (mkdt 2000 1 1 0 0 0 0)) (Hours 25))) = Ok (Moment (mkdt 2000 1 31 0 0 0 0)).
Proof. vm_compute. reflexivity. Qed.
(** src/timetype.rs 2922 *)
Example test_end_of_month_test_moment_plus_invalid_minutes : calculate Checked (mk_end_of_month (op_add (Moment (mkdt 2000 1 1 0 0 0 0)) (Minutes 61))) = Ok (Moment (mkdt 2000 1 31 0 0 0 0)).
Proof. vm_compute. reflexivity. Qed.
(** src/timetype.rs 2929 *)
Example test_end_of_month_test_moment_plus_invalid_seconds : calculate Checked (mk_end_of_month (op_add (Moment (mkdt 2000 1 1 0 0 0 0)) (Seconds 61))) = Ok (Moment (mkdt 2000 1 31 0 0 0 0)).
Proof. vm_compute. reflexivity. Qed.
(** src/timetype.rs 2936 *)
Example test_end_of_month_test_moment_minus_nothing : calculate Checked (mk_end_of_month (op_sub (Moment (mkdt 2000 1 1 0 0 0 0)) (Seconds 0))) = Ok (Moment (mkdt 2000 1 31 0 0 0 0)).
Proof. vm_compute. reflexivity. Qed.
(** src/timetype.rs 2943 *)
Example test_end_of_month_test_moment_minus_seconds : calculate Checked (mk_end_of_month (op_sub (Moment (mkdt 2000 1 1 0 0 0 0)) (Seconds 1))) = Ok (Moment (mkdt 1999 12 31 0 0 0 0)).
Proof. vm_compute. reflexivity. Qed.
(** src/timetype.rs 2950 *)
Example test_end_of_month_test_moment_minus_months : calculate Checked (mk_end_of_month (op_sub (Moment (mkdt 2000 1 1 0 0 0 0)) (Months 12))) = Ok (Moment (mkdt 1999 1 31 0 0 0 0)).
Proof. vm_compute. reflexivity. Qed.
(** src/timetype.rs 3024 *)
Example test_end_of_day_test_moment_plus_zero_seconds : calculate Checked (mk_end_of_day (op_add (Moment (mkdt 2000 1 1 0 0 0 0)) (Seconds 0))) = Ok (Moment (mkdt 2000 1 1 23 59 59 0)).
Proof. vm_compute. reflexivity. Qed.
(** src/timetype.rs 3031 *)
Example test_end_of_day_test_moment_plus_seconds : calculate Checked (mk_end_of_day (op_add (Moment (mkdt 2000 1 1 0 0 0 0)) (Seconds 1))) = Ok (Moment (mkdt 2000 1 1 23 59 59 0)).
Proof. vm_compute. reflexivity. Qed.
(** src/timetype.rs 3038 *)
Example test_end_of_day_test_moment_plus_too_much_seconds : calculate Checked (mk_end_of_day (op_add (Moment (mkdt 2000 1 1 0 0 0 0)) (Seconds 62))) = Ok (Moment (mkdt 2000 1 1 23 59 59 0)).
Proof. vm_compute. reflexivity. Qed.
(** src/timetype.rs 3045 *)
Example test_end_of_day_test_moment_plus_minutes : calculate Checked (mk_end_of_day (op_add (Moment (mkdt 2000 1 1 0 0 0 0)) (Minutes 2))) = Ok (Moment (mkdt 2000 1 1 23 59 59 0)).
Proof. vm_compute. reflexivity. Qed.
(** src/timetype.rs 3052 *)
Example test_end_of_day_test_moment_plus_too_much_minutes : calculate Checked (mk_end_of_day (op_add (Moment (mkdt 2000 1 1 0 0 0 0)) (Minutes 65))) = Ok (Moment (mkdt 2000 1 1 23 59 59 0)).
Proof. vm_compute. reflexivity. Qed.
(** src/timetype.rs 3059 *)
Example test_end_of_day_test_moment_plus_minutes_in_seconds : calculate Checked (mk_end_of_day (op_add (Moment (mkdt 2000 1 1 0 0 0 0)) (Seconds 62))) = Ok (Moment (mkdt 2000 1 1 23 59 59 0)).
Proof. vm_compute. reflexivity. Qed.
(** src/timetype.rs 3066 *)
Example test_end_of_day_test_moment_plus_months : calculate Checked (mk_end_of_day (op_add (Moment (mkdt 2000 1 1 0 0 0 0)) (Months 14))) = Ok (Moment (mkdt 2001 3 1 23 59 59 0)).
Proof. vm_compute. reflexivity. Qed.
(** src/timetype.rs 3073 *)
Example test_end_of_day_test_moment_plus_years : calculate Checked (mk_end_of_day (op_add (Moment (mkdt 2000 1 1 0 0 0 0)) (Years 62))) = Ok (Moment (mkdt 2062 1 1 23 59 59 0)).
Proof. vm_compute. reflexivity. Qed.
(** src/timetype.rs 3080 *)
Example test_end_of_day_test_moment_plus_more_than_one_year : calculate Checked (mk_end_of_day (op_add (Moment (mkdt 2000 1 1 0 0 0 0)) (op_add (Years 1) (Months 1)))) = Ok (Moment (mkdt 2001 2 1 23 59 59 0)).
Proof. vm_compute. reflexivity. Qed.
(** src/timetype.rs 3087 *)
Example test_end_of_day_test_moment_plus_more_than_one_month : calculate Checked (mk_end_of_day (op_add (Moment (mkdt 2000 1 1 0 0 0 0)) (op_add (Months 1) (Days 1)))) = Ok (Moment (mkdt 2000 2 1 23 59 59 0)).
Proof. vm_compute. reflexivity. Qed.
(** src/timetype.rs 3099 *)
Example test_end_of_day_test_moment_plus_more_than_one_day : calculate Checked (mk_end_of_day (op_add (Moment (mkdt 2000 1 1 0 0 0 0)) (op_add (Days 1) (Hours 1)))) = Ok (Moment (mkdt 2000 1 2 23 59 59 0)).
Proof. vm_compute. reflexivity. Qed.
(** src/timetype.rs 3106 *)
Example test_end_of_day_test_moment_plus_more_than_one_hour : calculate Checked (mk_end_of_day (op_add (Moment (mkdt 2000 1 1 0 0 0 0)) (op_add (Hours 1) (Minutes 1)))) = Ok (Moment (mkdt 2000 1 1 23 59 59 0)).
Proof. vm_compute. reflexivity. Qed.
(** src/timetype.rs 3113 *)
Example test_end_of_day_test_moment_plus_more_than_one_minute : calculate Checked (mk_end_of_day (op_add (Moment (mkdt 2000 1 1 0 0 0 0)) (op_add (Minutes 1) (Seconds 1)))) = Ok (Moment (mkdt 2000 1 1 23 59 59 0)).
Proof. vm_compute. reflexivity. Qed.
(** src/timetype.rs 3120 *)
Example test_end_of_day_test_moment_plus_invalid_months : calculate Checked (mk_end_of_day (op_add (Moment (mkdt 2000 1 1 0 0 0 0)) (Months 13))) = Ok (Moment (mkdt 2001 2 1 23 59 59 0)).
Proof. vm_compute. reflexivity. Qed.
(** src/timetype.rs 3127 *)
Example test_end_of_day_test_moment_plus_invalid_days : calculate Checked (mk_end_of_day (op_add (Moment (mkdt 2000 1 1 0 0 0 0)) (Days 31))) = Ok (Moment (mkdt 2000 2 1 23 59 59 0)).
Proof. vm_compute. reflexivity. Qed.
(** src/timetype.rs 3134 *)
Example test_end_of_day_test_moment_plus_invalid_hours : calculate Checked (mk_end_of_day (op_add (Moment (mkdt 2000 1 1 0 0 0 0)) (Hours 25))) = Ok (Moment (mkdt 2000 1 2 23 59 59 0)).
Proof. vm_compute. reflexivity. Qed.
(** src/timetype.rs 3141 *)
Example test_end_of_day_test_moment_plus_invalid_minutes : calculate Checked (mk_end_of_day (op_add (Moment (mkdt 2000 1 1 0 0 0 0)) (Minutes 61))) = Ok (Moment (mkdt 2000 1 1 23 59 59 0)).
Proof. vm_compute. reflexivity. Qed.
(** src/timetype.rs 3148 *)
Example test_end_of_day_test_moment_plus_invalid_seconds : calculate Checked (mk_end_of_day (op_add (Moment (mkdt 2000 1 1 0 0 0 0)) (Seconds 61))) = Ok (Moment (mkdt 2000 1 1 23 59 59 0)).
Proof. vm_compute. reflexivity. Qed.
(** src/timetype.rs 3155 *)
Example test_end_of_day_test_moment_minus_nothing : calculate Checked (mk_end_of_day (op_sub (Moment (mkdt 2000 1 1 0 0 0 0)) (Seconds 0))) = Ok (Moment (mkdt 2000 1 1 23 59 59 0)).
Proof. vm_compute. reflexivity. Qed.
(** src/timetype.rs 3162 *)
Example test_end_of_day_test_moment_minus_seconds : calculate Checked (mk_end_of_day (op_sub (Moment (mkdt 2000 1 1 0 0 0 0)) (Seconds 1))) = Ok (Moment (mkdt 1999 12 31 23 59 59 0)).
Proof. vm_compute. reflexivity. Qed.
(** src/timetype.rs 3169 *)
Example test_end_of_day_test_moment_minus_months : calculate Checked (mk_end_of_day (op_sub (Moment (mkdt 2000 1 1 0 0 0 0)) (Months 12))) = Ok (Moment (mkdt 1999 1 1 23 59 59 0)).
Proof. vm_compute. reflexivity. Qed.
(** src/timetype.rs 3242 *)
Example test_end_of_hour_test_moment_plus_zero_seconds : calculate Checked (mk_end_of_hour (op_add (Moment (mkdt 2000 1 1 0 0 0 0)) (Seconds 0))) = Ok (Moment (mkdt 2000 1 1 0 59 59 0)).
Proof. vm_compute. reflexivity. Qed.
(** src/timetype.rs 3249 *)
Example test_end_of_hour_test_moment_plus_seconds : calculate Checked (mk_end_of_hour (op_add (Moment (mkdt 2000 1 1 0 0 0 0)) (Seconds 1))) = Ok (Moment (mkdt 2000 1 1 0 59 59 0)).
Proof. vm_compute. reflexivity. Qed.
(** src/timetype.rs 3256 *)
Example test_end_of_hour_test_moment_plus_too_much_seconds : calculate Checked (mk_end_of_hour (op_add (Moment (mkdt 2000 1 1 0 0 0 0)) (Seconds 62))) = Ok (Moment (mkdt 2000 1 1 0 59 59 0)).
Proof. vm_compute. reflexivity. Qed.
(** src/timetype.rs 3263 *)
Example test_end_of_hour_test_moment_plus_minutes : calculate Checked (mk_end_of_hour (op_add (Moment (mkdt 2000 1 1 0 0 0 0)) (Minutes 2))) = Ok (Moment (mkdt 2000 1 1 0 59 59 0)).
Proof. vm_compute. reflexivity. Qed.
(** src/timetype.rs 3270 *)
Example test_end_of_hour_test_moment_plus_too_much_minutes : calculate Checked (mk_end_of_hour (op_add (Moment (mkdt 2000 1 1 0 0 0 0)) (Minutes 65))) = Ok (Moment (mkdt 2000 1 1 1 59 59 0)).
Proof. vm_compute. reflexivity. Qed.
(** src/timetype.rs 3277 *)
Example test_end_of_hour_test_moment_plus_minutes_in_seconds : calculate Checked (mk_end_of_hour (op_add (Moment (mkdt 2000 1 1 0 0 0 0)) (Seconds 62))) = Ok (Moment (mkdt 2000 1 1 0 59 59 0)).
Proof. vm_compute. reflexivity. Qed.
(** src/timetype.rs 3284 *)
Example test_end_of_hour_test_moment_plus_months : calculate Checked (mk_end_of_hour (op_add (Moment (mkdt 2000 1 1 0 0 0 0)) (Months 14))) = Ok (Moment (mkdt 2001 3 1 0 59 59 0)).
Proof. vm_compute. reflexivity. Qed.
(** src/timetype.rs 3291 *)
Example test_end_of_hour_test_moment_plus_years : calculate Checked (mk_end_of_hour (op_add (Moment (mkdt 2000 1 1 0 0 0 0)) (Years 62))) = Ok (Moment (mkdt 2062 1 1 0 59 59 0)).
Proof. vm_compute. reflexivity. Qed.
(** src/timetype.rs 3298 *)
Example test_end_of_hour_test_moment_plus_more_than_one_year : calculate Checked (mk_end_of_hour (op_add (Moment (mkdt 2000 1 1 0 0 0 0)) (op_add (Years 1) (Months 1)))) = Ok (Moment (mkdt 2001 2 1 0 59 59 0)).
Proof. vm_compute. reflexivity. Qed.
(** src/timetype.rs 3305 *)
Example test_end_of_hour_test_moment_plus_more_than_one_month : calculate Checked (mk_end_of_hour (op_add (Moment (mkdt 2000 1 1 0 0 0 0)) (op_add (Months 1) (Days 1)))) = Ok (Moment (mkdt 2000 2 1 0 59 59 0)).
Proof. vm_compute. reflexivity. Qed.
(** src/timetype.rs 3317 *)
Example test_end_of_hour_test_moment_plus_more_than_one_day : calculate Checked (mk_end_of_hour (op_add (Moment (mkdt 2000 1 1 0 0 0 0)) (op_add (Days 1) (Hours 1)))) = Ok (Moment (mkdt 2000 1 2 1 59 59 0)).
Proof. vm_compute. reflexivity. Qed.
(** src/timetype.rs 3324 *)
Example test_end_of_hour_test_moment_plus_more_than_one_hour : calculate Checked (mk_end_of_hour (op_add (Moment (mkdt 2000 1 1 0 0 0 0)) (op_add (Hours 1) (Minutes 1)))) = Ok (Moment (mkdt 2000 1 1 1 59 59 0)).
Proof. vm_compute. reflexivity. Qed.
(** src/timetype.rs 3331 *)
Example test_end_of_hour_test_moment_plus_more_than_one_minute : calculate Checked (mk_end_of_hour (op_add (Moment (mkdt 2000 1 1 0 0 0 0)) (op_add (Minutes 1) (Seconds 1)))) = Ok (Moment (mkdt 2000 1 1 0 59 59 0)).
Proof. vm_compute. reflexivity. Qed.
(** src/timetype.rs 3338 *)
Example test_end_of_hour_test_moment_plus_invalid_months : calculate Checked (mk_end_of_hour (op_add (Moment (mkdt 2000 1 1 0 0 0 0)) (Months 13))) = Ok (Moment (mkdt 2001 2 1 0 59 59 0)).
Proof. vm_compute. reflexivity. Qed.
(** src/timetype.rs 3345 *)
Example test_end_of_hour_test_moment_plus_invalid_days : calculate Checked (mk_end_of_hour (op_add (Moment (mkdt 2000 1 1 0 0 0 0)) (Days 31))) = Ok (Moment (mkdt 2000 2 1 0 59 59 0)).
Proof. vm_compute. reflexivity. Qed.
(** src/timetype.rs 3352 *)
Example test_end_of_hour_test_moment_plus_invalid_hours : calculate Checked (mk_end_of_hour (op_add (Moment (mkdt 2000 1 1 0 0 0 0)) (Hours 25))) = Ok (Moment (mkdt 2000 1 2 1 59 59 0)).
Proof. vm_compute. reflexivity. Qed.
(** src/timetype.rs 3359 *)
Example test_end_of_hour_test_moment_plus_invalid_minutes : calculate Checked (mk_end_of_hour (op_add (Moment (mkdt 2000 1 1 0 0 0 0)) (Minutes 61))) = Ok (Moment (mkdt 2000 1 1 1 59 59 0)).
Proof. vm_compute. reflexivity. Qed.
(** src/timetype.rs 3366 *)
Example test_end_of_hour_test_moment_plus_invalid_seconds : calculate Checked (mk_end_of_hour (op_add (Moment (mkdt 2000 1 1 0 0 0 0)) (Seconds 61))) = Ok (Moment (mkdt 2000 1 1 0 59 59 0)).
Proof. vm_compute. reflexivity. Qed.
(** src/timetype.rs 3373 *)
Example test_end_of_hour_test_moment_minus_nothing : calculate Checked (mk_end_of_hour (op_sub (Moment (mkdt 2000 1 1 0 0 0 0)) (Seconds 0))) = Ok (Moment (mkdt 2000 1 1 0 59 59 0)).
Proof. vm_compute. reflexivity. Qed.
(** src/timetype.rs 3380 *)
Example test_end_of_hour_test_moment_minus_seconds : calculate Checked (mk_end_of_hour (op_sub (Moment (mkdt 2000 1 1 0 0 0 0)) (Seconds 1))) = Ok (Moment (mkdt 1999 12 31 23 59 59 0)).
Proof. vm_compute. reflexivity. Qed.
(** src/timetype.rs 3387 *)
Example test_end_of_hour_test_moment_minus_months : calculate Checked (mk_end_of_hour (op_sub (Moment (mkdt 2000 1 1 0 0 0 0)) (Months 12))) = Ok (Moment (mkdt 1999 1 1 0 59 59 0)).
Proof. vm_compute. reflexivity. Qed.
(** src/timetype.rs 3460 *)
Example test_end_of_minute_test_moment_plus_zero_seconds : calculate Checked (mk_end_of_minute (op_add (Moment (mkdt 2000 1 1 0 0 0 0)) (Seconds 0))) = Ok (Moment (mkdt 2000 1 1 0 0 59 0)).
Proof. vm_compute. reflexivity. Qed.
(** src/timetype.rs 3467 *)
Example test_end_of_minute_test_moment_plus_seconds : calculate Checked (mk_end_of_minute (op_add (Moment (mkdt 2000 1 1 0 0 0 0)) (Seconds 1))) = Ok (Moment (mkdt 2000 1 1 0 0 59 0)).
Proof. vm_compute. reflexivity. Qed.
(** src/timetype.rs 3474 *)
Example test_end_of_minute_test_moment_plus_too_much_seconds : calculate Checked (mk_end_of_minute (op_add (Moment (mkdt 2000 1 1 0 0 0 0)) (Seconds 62))) = Ok (Moment (mkdt 2000 1 1 0 1 59 0)).
Proof. vm_compute. reflexivity. Qed.
(** src/timetype.rs 3481 *)
Example test_end_of_minute_test_moment_plus_minutes : calculate Checked (mk_end_of_minute (op_add (Moment (mkdt 2000 1 1 0 0 0 0)) (Minutes 2))) = Ok (Moment (mkdt 2000 1 1 0 2 59 0)).
Proof. vm_compute. reflexivity. Qed.
(** src/timetype.rs 3488 *)
Example test_end_of_minute_test_moment_plus_too_much_minutes : calculate Checked (mk_end_of_minute (op_add (Moment (mkdt 2000 1 1 0 0 0 0)) (Minutes 65))) = Ok (Moment (mkdt 2000 1 1 1 5 59 0)).
Proof. vm_compute. reflexivity. Qed.
(** src/timetype.rs 3495 *)
Example test_end_of_minute_test_moment_plus_minutes_in_seconds : calculate Checked (mk_end_of_minute (op_add (Moment (mkdt 2000 1 1 0 0 0 0)) (Seconds 62))) = Ok (Moment (mkdt 2000 1 1 0 1 59 0)).
Proof. vm_compute. reflexivity. Qed.
(** src/timetype.rs 3502 *)
Example test_end_of_minute_test_moment_plus_months : calculate Checked (mk_end_of_minute (op_add (Moment (mkdt 2000 1 1 0 0 0 0)) (Months 14))) = Ok (Moment (mkdt 2001 3 1 0 0 59 0)).
Proof. vm_compute. reflexivity. Qed.
(** src/timetype.rs 3509 *)
Example test_end_of_minute_test_moment_plus_years : calculate Checked (mk_end_of_minute (op_add (Moment (mkdt 2000 1 1 0 0 0 0)) (Years 62))) = Ok (Moment (mkdt 2062 1 1 0 0 59 0)).
Proof. vm_compute. reflexivity. Qed.
(** src/timetype.rs 3516 *)
Example test_end_of_minute_test_moment_plus_more_than_one_year : calculate Checked (mk_end_of_minute (op_add (Moment (mkdt 2000 1 1 0 0 0 0)) (op_add (Years 1) (Months 1)))) = Ok (Moment (mkdt 2001 2 1 0 0 59 0)).
Proof. vm_compute. reflexivity. Qed.
(** src/timetype.rs 3523 *)
Example test_end_of_minute_test_moment_plus_more_than_one_month : calculate Checked (mk_end_of_minute (op_add (Moment (mkdt 2000 1 1 0 0 0 0)) (op_add (Months 1) (Days 1)))) = Ok (Moment (mkdt 2000 2 1 0 0 59 0)).
Proof. vm_compute. reflexivity. Qed.
(** src/timetype.rs 3535 *)
Example test_end_of_minute_test_moment_plus_more_than_one_day : calculate Checked (mk_end_of_minute (op_add (Moment (mkdt 2000 1 1 0 0 0 0)) (op_add (Days 1) (Hours 1)))) = Ok (Moment (mkdt 2000 1 2 1 0 59 0)).
Proof. vm_compute. reflexivity. Qed.
(** src/timetype.rs 3542 *)
Example test_end_of_minute_test_moment_plus_more_than_one_hour : calculate Checked (mk_end_of_minute (op_add (Moment (mkdt 2000 1 1 0 0 0 0)) (op_add (Hours 1) (Minutes 1)))) = Ok (Moment (mkdt 2000 1 1 1 1 59 0)).
Proof. vm_compute. reflexivity. Qed.
(** src/timetype.rs 3549 *)
Example test_end_of_minute_test_moment_plus_more_than_one_minute : calculate Checked (mk_end_of_minute (op_add (Moment (mkdt 2000 1 1 0 0 0 0)) (op_add (Minutes 1) (Seconds 1)))) = Ok (Moment (mkdt 2000 1 1 0 1 59 0)).
Proof. vm_compute. reflexivity. Qed.
(** src/timetype.rs 3556 *)
Example test_end_of_minute_test_moment_plus_invalid_months : calculate Checked (mk_end_of_minute (op_add (Moment (mkdt 2000 1 1 0 0 0 0)) (Months 13))) = Ok (Moment (mkdt 2001 2 1 0 0 59 0)).
Proof. vm_compute. reflexivity. Qed.
(** src/timetype.rs 3563 *)
Example test_end_of_minute_test_moment_plus_invalid_days : calculate Checked (mk_end_of_minute (op_add (Moment (mkdt 2000 1 1 0 0 0 0)) (Days 31))) = Ok (Moment (mkdt 2000 2 1 0 0 59 0)).
Proof. vm_compute. reflexivity. Qed.
(** src/timetype.rs 3570 *)
Example test_end_of_minute_test_moment_plus_invalid_hours : calculate Checked (mk_end_of_minute (op_add (Moment (mkdt 2000 1 1 0 0 0 0)) (Hours 25))) = Ok (Moment (mkdt 2000 1 2 1 0 59 0)).
Proof. vm_compute. reflexivity. Qed.
(** src/timetype.rs 3577 *)
Example test_end_of_minute_test_moment_plus_invalid_minutes : calculate Checked (mk_end_of_minute (op_add (Moment (mkdt 2000 1 1 0 0 0 0)) (Minutes 61))) = Ok (Moment (mkdt 2000 1 1 1 1 59 0)).
Proof. vm_compute. reflexivity. Qed.
(** src/timetype.rs 3584 *)
Example test_end_of_minute_test_moment_plus_invalid_seconds : calculate Checked (mk_end_of_minute (op_add (Moment (mkdt 2000 1 1 0 0 0 0)) (Seconds 61))) = Ok (Moment (mkdt 2000 1 1 0 1 59 0)).
Proof. vm_compute. reflexivity. Qed.
(** src/timetype.rs 3591 *)
Example test_end_of_minute_test_moment_minus_nothing : calculate Checked (mk_end_of_minute (op_sub (Moment (mkdt 2000 1 1 0 0 0 0)) (Seconds 0))) = Ok (Moment (mkdt 2000 1 1 0 0 59 0)).
Proof. vm_compute. reflexivity. Qed.
(** src/timetype.rs 3598 *)
Example test_end_of_minute_test_moment_minus_seconds : calculate Checked (mk_end_of_minute (op_sub (Moment (mkdt 2000 1 1 0 0 0 0)) (Seconds 1))) = Ok (Moment (mkdt 1999 12 31 23 59 59 0)).
Proof. vm_compute. reflexivity. Qed.
(** src/timetype.rs 3605 *)
Example test_end_of_minute_test_moment_minus_months : calculate Checked (mk_end_of_minute (op_sub (Moment (mkdt 2000 1 1 0 0 0 0)) (Months 12))) = Ok (Moment (mkdt 1999 1 1 0 0 59 0)).
Proof. vm_compute. reflexivity. Qed.
(** src/timetype.rs 3626 *)
Example test_is_a_test_is_a_1 : is_a (Moment (mkdt 2000 1 1 0 0 0 0)) Monday = Ok false.
Proof. vm_compute. reflexivity. Qed.
(** src/timetype.rs 3632 *)
Example test_is_a_test_is_a_2 : is_a (Moment (mkdt 2000 1 1 0 0 0 0)) Tuesday = Ok false.
Proof. vm_compute. reflexivity. Qed.
(** src/timetype.rs 3638 *)
Example test_is_a_test_is_a_3 : is_a (Moment (mkdt 2000 1 1 0 0 0 0)) Wednesday = Ok false.
Proof. vm_compute. reflexivity. Qed.
(** src/timetype.rs 3644 *)
Example test_is_a_test_is_a_4 : is_a (Moment (mkdt 2000 1 1 0 0 0 0)) Thursday = Ok false.
Proof. vm_compute. reflexivity. Qed.
(** src/timetype.rs 3650 *)
Example test_is_a_test_is_a_5 : is_a (Moment (mkdt 2000 1 1 0 0 0 0)) Friday = Ok false.
Proof. vm_compute. reflexivity. Qed.
(** src/timetype.rs 3655 *)
Example test_is_a_test_is_a_6 : is_a (Moment (mkdt 2000 1 1 0 0 0 0)) Saturday = Ok true.
Proof. vm_compute. reflexivity. Qed.
(** src/timetype.rs 3661 *)
Example test_is_a_test_is_a_7 : is_a (Moment (mkdt 2000 1 1 0 0 0 0)) Sunday = Ok false.
Proof. vm_compute. reflexivity. Qed.
(** src/timetype.rs 3678 *)
Example test_is_in_test_is_in_1 : is_in (Moment (mkdt 2000 1 1 0 0 0 0)) January = Ok true.
Proof. vm_compute. reflexivity. Qed.
(** src/timetype.rs 3684 *)
Example test_is_in_test_is_in_2 : is_in (Moment (mkdt 2000 1 1 0 0 0 0)) February = Ok false.
Proof. vm_compute. reflexivity. Qed.
(** src/timetype.rs 3690 *)
Example test_is_in_test_is_in_3 : is_in (Moment (mkdt 2000 1 1 0 0 0 0)) March = Ok false.
Proof. vm_compute. reflexivity. Qed.
(** src/timetype.rs 3696 *)
Example test_is_in_test_is_in_4 : is_in (Moment (mkdt 2000 1 1 0 0 0 0)) April = Ok false.
Proof. vm_compute. reflexivity. Qed.
(** src/timetype.rs 3702 *)
Example test_is_in_test_is_in_5 : is_in (Moment (mkdt 2000 1 1 0 0 0 0)) May = Ok false.
Proof. vm_compute. reflexivity. Qed.
(** src/timetype.rs 3708 *)
Example test_is_in_test_is_in_6 : is_in (Moment (mkdt 2000 1 1 0 0 0 0)) June = Ok false.
Proof. vm_compute. reflexivity. Qed.
(** src/timetype.rs 3714 *)
Example test_is_in_test_is_in_7 : is_in (Moment (mkdt 2000 1 1 0 0 0 0)) July = Ok false.
Proof. vm_compute. reflexivity. Qed.
(** src/timetype.rs 3720 *)
Example test_is_in_test_is_in_8 : is_in (Moment (mkdt 2000 1 1 0 0 0 0)) August = Ok false.
Proof. vm_compute. reflexivity. Qed.
(** src/timetype.rs 3726 *)
Example test_is_in_test_is_in_9 : is_in (Moment (mkdt 2000 1 1 0 0 0 0)) September = Ok false.
Proof. vm_compute. reflexivity. Qed.
(** src/timetype.rs 3732 *)
Example test_is_in_test_is_in_10 : is_in (Moment (mkdt 2000 1 1 0 0 0 0)) October = Ok false.
Proof. vm_compute. reflexivity. Qed.
(** src/timetype.rs 3738 *)
Example test_is_in_test_is_in_11 : is_in (Moment (mkdt 2000 1 1 0 0 0 0)) November = Ok false.
Proof. vm_compute. reflexivity. Qed.
(** src/timetype.rs 3744 *)
Example test_is_in_test_is_in_12 : is_in (Moment (mkdt 2000 1 1 0 0 0 0)) December = Ok false.
Proof. vm_compute. reflexivity. Qed.
