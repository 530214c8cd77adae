(** The tests of /repo/src/util.rs, src/iter.rs, src/parser/timetype.rs and src/parser/iterator.rs, run
    against the model (tests of the translation, not properties). The tests of src/iter.rs that read the
    clock are treated for every clock reading in Props_Clock.v; those that only check that code compiles are
    left out. Generated from the source text; the line is cited. *)
Require Import ZArith Bool String List.
From Verif Require Import Prelude Spec Chrono Util TimeType Matcher Iter Nom ParserTimetype ParserIterator ParserMod.
Import ListNotations.
Local Open Scope string_scope.
Local Open Scope Z_scope.

(** `take(n)` of an iterator. *)
Fixpoint take {S} (nx : next_fn S) (n : nat) (s : S) : list item :=
  match n with
  | O => []
  | Datatypes.S n' => let '(i, s') := nx s in i :: take nx n' s'
  end.
(** Stand-ins for the iso8601 parsers on the texts of the tests. *)
Fixpoint lookup {A} (l : list (string * A)) : parser A := fun s =>
  match l with
  | [] => PError
  | (t, a) :: l' => match strip t s with Some r => Done r a | None => lookup l' s end
  end.
Definition iso_d : parser isodate := lookup [("2017-01-01", YMD 2017 1 1); ("2017-01-05", YMD 2017 1 5); ("2017-01-14", YMD 2017 1 14)].
Definition iso_dt : parser (isodate * isotime) :=
  lookup [("2017-01-01T22:00:11", (YMD 2017 1 1, mktime 22 0 11 0 0 0)); ("2017-01-01T01:02:03", (YMD 2017 1 1, mktime 1 2 3 0 0 0));
          ("2017-01-01T05:00:00", (YMD 2017 1 1, mktime 5 0 0 0 0 0)); ("2017-01-01T00:10:00", (YMD 2017 1 1, mktime 0 10 0 0 0 0))].
Definition now : datetime := mkdt 2016 5 6 7 8 9 123.

(** src/util.rs 88-101 *)
Example test_is_leap_year : forallb (fun i => is_leap_year i && negb (is_leap_year (i + 1))) [1880;1884;1888;1892;1896;1904;1908;1912;1916;1920;1924;1928;1932;1936;1940;1944;1948;1952;1956;1960;1964;1968;1972;1976;1980;1984;1988;1992;1996;2000;2004;2008;2012;2020;2024;2028;2032;2036;2040;2044;2048;2052;2056;2060;2064;2068;2072;2076;2080;2084;2088;2092;2096;2104;2108;2112;2116;2120;2124;2128;2132;2136;2140;2144;2148;2152;2156;2160;2164;2168;2172;2176;2180;2184;2188;2192;2196;2204;2208] = true.
Proof. vm_compute. reflexivity. Qed.
(** src/util.rs 103-169 *)
Example test_get_num_of_days_in_month : forallb (fun p : Z * Z * Z => let '(n, y, m) := p in get_num_of_days_in_month y m =? n) [(31, 2000, 1); (29, 2000, 2); (31, 2000, 3); (30, 2000, 4); (31, 2000, 5); (30, 2000, 6); (31, 2000, 7); (31, 2000, 8); (30, 2000, 9); (31, 2000, 10); (30, 2000, 11); (31, 2000, 12); (31, 2001, 1); (28, 2001, 2); (31, 2001, 3); (30, 2001, 4); (31, 2001, 5); (30, 2001, 6); (31, 2001, 7); (31, 2001, 8); (30, 2001, 9); (31, 2001, 10); (30, 2001, 11); (31, 2001, 12); (31, 2002, 1); (28, 2002, 2); (31, 2002, 3); (30, 2002, 4); (31, 2002, 5); (30, 2002, 6); (31, 2002, 7); (31, 2002, 8); (30, 2002, 9); (31, 2002, 10); (30, 2002, 11); (31, 2002, 12); (31, 2003, 1); (28, 2003, 2); (31, 2003, 3); (30, 2003, 4); (31, 2003, 5); (30, 2003, 6); (31, 2003, 7); (31, 2003, 8); (30, 2003, 9); (31, 2003, 10); (30, 2003, 11); (31, 2003, 12); (31, 2004, 1); (29, 2004, 2); (31, 2004, 3); (30, 2004, 4); (31, 2004, 5); (30, 2004, 6); (31, 2004, 7); (31, 2004, 8); (30, 2004, 9); (31, 2004, 10); (30, 2004, 11); (31, 2004, 12)] = true.
Proof. vm_compute. reflexivity. Qed.
(** src/iter.rs 431 *)
Example test_minutely : (do it <- minutely (Moment (mkdt 2000 1 1 0 0 0 0)) 1; Ok (take (iter_next Checked) 5 it)) = Ok [Some (Ok (Moment (mkdt 2000 1 1 0 0 0 0))); Some (Ok (Moment (mkdt 2000 1 1 0 1 0 0))); Some (Ok (Moment (mkdt 2000 1 1 0 2 0 0))); Some (Ok (Moment (mkdt 2000 1 1 0 3 0 0))); Some (Ok (Moment (mkdt 2000 1 1 0 4 0 0)))].
Proof. vm_compute. reflexivity. Qed.
(** src/iter.rs 446 *)
Example test_hourly : (do it <- hourly (Moment (mkdt 2000 1 1 0 0 0 0)) 1; Ok (take (iter_next Checked) 5 it)) = Ok [Some (Ok (Moment (mkdt 2000 1 1 0 0 0 0))); Some (Ok (Moment (mkdt 2000 1 1 1 0 0 0))); Some (Ok (Moment (mkdt 2000 1 1 2 0 0 0))); Some (Ok (Moment (mkdt 2000 1 1 3 0 0 0))); Some (Ok (Moment (mkdt 2000 1 1 4 0 0 0)))].
Proof. vm_compute. reflexivity. Qed.
(** src/iter.rs 461 *)
Example test_weekly : (do it <- weekly Checked (Moment (mkdt 2000 1 1 1 0 0 0)) 1; Ok (take (iter_next Checked) 5 it)) = Ok [Some (Ok (Moment (mkdt 2000 1 1 1 0 0 0))); Some (Ok (Moment (mkdt 2000 1 8 1 0 0 0))); Some (Ok (Moment (mkdt 2000 1 15 1 0 0 0))); Some (Ok (Moment (mkdt 2000 1 22 1 0 0 0))); Some (Ok (Moment (mkdt 2000 1 29 1 0 0 0)))].
Proof. vm_compute. reflexivity. Qed.
(** src/iter.rs 476 *)
Example test_monthly : (do it <- monthly (Moment (mkdt 2000 1 1 0 0 0 0)) 1; Ok (take (iter_next Checked) 5 it)) = Ok [Some (Ok (Moment (mkdt 2000 1 1 0 0 0 0))); Some (Ok (Moment (mkdt 2000 2 1 0 0 0 0))); Some (Ok (Moment (mkdt 2000 3 1 0 0 0 0))); Some (Ok (Moment (mkdt 2000 4 1 0 0 0 0))); Some (Ok (Moment (mkdt 2000 5 1 0 0 0 0)))].
Proof. vm_compute. reflexivity. Qed.
(** src/iter.rs 491 *)
Example test_yearly : (do it <- yearly (Moment (mkdt 2000 1 1 0 0 0 0)) 1; Ok (take (iter_next Checked) 5 it)) = Ok [Some (Ok (Moment (mkdt 2000 1 1 0 0 0 0))); Some (Ok (Moment (mkdt 2001 1 1 0 0 0 0))); Some (Ok (Moment (mkdt 2002 1 1 0 0 0 0))); Some (Ok (Moment (mkdt 2003 1 1 0 0 0 0))); Some (Ok (Moment (mkdt 2004 1 1 0 0 0 0)))].
Proof. vm_compute. reflexivity. Qed.
(** src/parser/timetype.rs 315 *)
Example integer_1 : forall cfg : nom_cfg, integer cfg "2" = Done "" 2.
Proof. intros [[] []]; vm_compute; reflexivity. Qed.
(** src/parser/timetype.rs 316 *)
Example integer_2 : forall cfg : nom_cfg, integer cfg "217" = Done "" 217.
Proof. intros [[] []]; vm_compute; reflexivity. Qed.
(** src/parser/timetype.rs 321 *)
Example unit_parser_3 : forall cfg : nom_cfg, unit_parser cfg "second" = Done "" PSecond.
Proof. intros [[] []]; vm_compute; reflexivity. Qed.
(** src/parser/timetype.rs 322 *)
Example unit_parser_4 : forall cfg : nom_cfg, unit_parser cfg "seconds" = Done "" PSecond.
Proof. intros [[] []]; vm_compute; reflexivity. Qed.
(** src/parser/timetype.rs 323 *)
Example unit_parser_5 : forall cfg : nom_cfg, unit_parser cfg "sec" = Done "" PSecond.
Proof. intros [[] []]; vm_compute; reflexivity. Qed.
(** src/parser/timetype.rs 324 *)
Example unit_parser_6 : forall cfg : nom_cfg, unit_parser cfg "secs" = Done "" PSecond.
Proof. intros [[] []]; vm_compute; reflexivity. Qed.
(** src/parser/timetype.rs 325 *)
Example unit_parser_7 : forall cfg : nom_cfg, unit_parser cfg "s" = Done "" PSecond.
Proof. intros [[] []]; vm_compute; reflexivity. Qed.
(** src/parser/timetype.rs 326 *)
Example unit_parser_8 : forall cfg : nom_cfg, unit_parser cfg "minute" = Done "" PMinute.
Proof. intros [[] []]; vm_compute; reflexivity. Qed.
(** src/parser/timetype.rs 327 *)
Example unit_parser_9 : forall cfg : nom_cfg, unit_parser cfg "minutes" = Done "" PMinute.
Proof. intros [[] []]; vm_compute; reflexivity. Qed.
(** src/parser/timetype.rs 328 *)
Example unit_parser_10 : forall cfg : nom_cfg, unit_parser cfg "min" = Done "" PMinute.
Proof. intros [[] []]; vm_compute; reflexivity. Qed.
(** src/parser/timetype.rs 329 *)
Example unit_parser_11 : forall cfg : nom_cfg, unit_parser cfg "mins" = Done "" PMinute.
Proof. intros [[] []]; vm_compute; reflexivity. Qed.
(** src/parser/timetype.rs 330 *)
Example unit_parser_12 : forall cfg : nom_cfg, unit_parser cfg "hour" = Done "" PHour.
Proof. intros [[] []]; vm_compute; reflexivity. Qed.
(** src/parser/timetype.rs 331 *)
Example unit_parser_13 : forall cfg : nom_cfg, unit_parser cfg "hours" = Done "" PHour.
Proof. intros [[] []]; vm_compute; reflexivity. Qed.
(** src/parser/timetype.rs 332 *)
Example unit_parser_14 : forall cfg : nom_cfg, unit_parser cfg "hr" = Done "" PHour.
Proof. intros [[] []]; vm_compute; reflexivity. Qed.
(** src/parser/timetype.rs 333 *)
Example unit_parser_15 : forall cfg : nom_cfg, unit_parser cfg "hrs" = Done "" PHour.
Proof. intros [[] []]; vm_compute; reflexivity. Qed.
(** src/parser/timetype.rs 334 *)
Example unit_parser_16 : forall cfg : nom_cfg, unit_parser cfg "day" = Done "" PDay.
Proof. intros [[] []]; vm_compute; reflexivity. Qed.
(** src/parser/timetype.rs 335 *)
Example unit_parser_17 : forall cfg : nom_cfg, unit_parser cfg "days" = Done "" PDay.
Proof. intros [[] []]; vm_compute; reflexivity. Qed.
(** src/parser/timetype.rs 336 *)
Example unit_parser_18 : forall cfg : nom_cfg, unit_parser cfg "d" = Done "" PDay.
Proof. intros [[] []]; vm_compute; reflexivity. Qed.
(** src/parser/timetype.rs 337 *)
Example unit_parser_19 : forall cfg : nom_cfg, unit_parser cfg "week" = Done "" PWeek.
Proof. intros [[] []]; vm_compute; reflexivity. Qed.
(** src/parser/timetype.rs 338 *)
Example unit_parser_20 : forall cfg : nom_cfg, unit_parser cfg "weeks" = Done "" PWeek.
Proof. intros [[] []]; vm_compute; reflexivity. Qed.
(** src/parser/timetype.rs 339 *)
Example unit_parser_21 : forall cfg : nom_cfg, unit_parser cfg "w" = Done "" PWeek.
Proof. intros [[] []]; vm_compute; reflexivity. Qed.
(** src/parser/timetype.rs 340 *)
Example unit_parser_22 : forall cfg : nom_cfg, unit_parser cfg "month" = Done "" PMonth.
Proof. intros [[] []]; vm_compute; reflexivity. Qed.
(** src/parser/timetype.rs 341 *)
Example unit_parser_23 : forall cfg : nom_cfg, unit_parser cfg "months" = Done "" PMonth.
Proof. intros [[] []]; vm_compute; reflexivity. Qed.
(** src/parser/timetype.rs 342 *)
Example unit_parser_24 : forall cfg : nom_cfg, unit_parser cfg "year" = Done "" PYear.
Proof. intros [[] []]; vm_compute; reflexivity. Qed.
(** src/parser/timetype.rs 343 *)
Example unit_parser_25 : forall cfg : nom_cfg, unit_parser cfg "years" = Done "" PYear.
Proof. intros [[] []]; vm_compute; reflexivity. Qed.
(** src/parser/timetype.rs 344 *)
Example unit_parser_26 : forall cfg : nom_cfg, unit_parser cfg "yrs" = Done "" PYear.
Proof. intros [[] []]; vm_compute; reflexivity. Qed.
(** src/parser/timetype.rs 349 *)
Example unit_alias_27 : forall cfg : nom_cfg, unit_alias cfg "secondly" = Done "" ASecondly.
Proof. intros [[] []]; vm_compute; reflexivity. Qed.
(** src/parser/timetype.rs 350 *)
Example unit_alias_28 : forall cfg : nom_cfg, unit_alias cfg "minutely" = Done "" AMinutely.
Proof. intros [[] []]; vm_compute; reflexivity. Qed.
(** src/parser/timetype.rs 351 *)
Example unit_alias_29 : forall cfg : nom_cfg, unit_alias cfg "hourly" = Done "" AHourly.
Proof. intros [[] []]; vm_compute; reflexivity. Qed.
(** src/parser/timetype.rs 352 *)
Example unit_alias_30 : forall cfg : nom_cfg, unit_alias cfg "daily" = Done "" ADaily.
Proof. intros [[] []]; vm_compute; reflexivity. Qed.
(** src/parser/timetype.rs 353 *)
Example unit_alias_31 : forall cfg : nom_cfg, unit_alias cfg "weekly" = Done "" AWeekly.
Proof. intros [[] []]; vm_compute; reflexivity. Qed.
(** src/parser/timetype.rs 354 *)
Example unit_alias_32 : forall cfg : nom_cfg, unit_alias cfg "monthly" = Done "" AMonthly.
Proof. intros [[] []]; vm_compute; reflexivity. Qed.
(** src/parser/timetype.rs 355 *)
Example unit_alias_33 : forall cfg : nom_cfg, unit_alias cfg "yearly" = Done "" AYearly.
Proof. intros [[] []]; vm_compute; reflexivity. Qed.
(** src/parser/timetype.rs 360 *)
Example operator_parser_34 : forall cfg : nom_cfg, operator_parser "+" = Done "" Plus.
Proof. intros [[] []]; vm_compute; reflexivity. Qed.
(** src/parser/timetype.rs 361 *)
Example operator_parser_35 : forall cfg : nom_cfg, operator_parser "-" = Done "" Minus.
Proof. intros [[] []]; vm_compute; reflexivity. Qed.
(** src/parser/timetype.rs 366 *)
Example amount_parser_36 : forall cfg : nom_cfg, amount_parser cfg "5s" = Done "" (Amount 5 PSecond).
Proof. intros [[] []]; vm_compute; reflexivity. Qed.
(** src/parser/timetype.rs 367 *)
Example amount_parser_37 : forall cfg : nom_cfg, amount_parser cfg "5min" = Done "" (Amount 5 PMinute).
Proof. intros [[] []]; vm_compute; reflexivity. Qed.
(** src/parser/timetype.rs 368 *)
Example amount_parser_38 : forall cfg : nom_cfg, amount_parser cfg "55hrs" = Done "" (Amount 55 PHour).
Proof. intros [[] []]; vm_compute; reflexivity. Qed.
(** src/parser/timetype.rs 369 *)
Example amount_parser_39 : forall cfg : nom_cfg, amount_parser cfg "25days" = Done "" (Amount 25 PDay).
Proof. intros [[] []]; vm_compute; reflexivity. Qed.
(** src/parser/timetype.rs 370 *)
Example amount_parser_40 : forall cfg : nom_cfg, amount_parser cfg "15weeks" = Done "" (Amount 15 PWeek).
Proof. intros [[] []]; vm_compute; reflexivity. Qed.
(** src/parser/timetype.rs 375 *)
Example amount_parser_41 : forall cfg : nom_cfg, amount_parser cfg "secondly" = Done "" (Amount 1 PSecond).
Proof. intros [[] []]; vm_compute; reflexivity. Qed.
(** src/parser/timetype.rs 376 *)
Example amount_parser_42 : forall cfg : nom_cfg, amount_parser cfg "minutely" = Done "" (Amount 1 PMinute).
Proof. intros [[] []]; vm_compute; reflexivity. Qed.
(** src/parser/timetype.rs 377 *)
Example amount_parser_43 : forall cfg : nom_cfg, amount_parser cfg "hourly" = Done "" (Amount 1 PHour).
Proof. intros [[] []]; vm_compute; reflexivity. Qed.
(** src/parser/timetype.rs 378 *)
Example amount_parser_44 : forall cfg : nom_cfg, amount_parser cfg "daily" = Done "" (Amount 1 PDay).
Proof. intros [[] []]; vm_compute; reflexivity. Qed.
(** src/parser/timetype.rs 379 *)
Example amount_parser_45 : forall cfg : nom_cfg, amount_parser cfg "weekly" = Done "" (Amount 1 PWeek).
Proof. intros [[] []]; vm_compute; reflexivity. Qed.
(** src/parser/timetype.rs 380 *)
Example amount_parser_46 : forall cfg : nom_cfg, amount_parser cfg "monthly" = Done "" (Amount 1 PMonth).
Proof. intros [[] []]; vm_compute; reflexivity. Qed.
(** src/parser/timetype.rs 381 *)
Example amount_parser_47 : forall cfg : nom_cfg, amount_parser cfg "yearly" = Done "" (Amount 1 PYear).
Proof. intros [[] []]; vm_compute; reflexivity. Qed.
(** src/parser/iterator.rs 160 *)
Example iter_spec_48 : forall cfg : nom_cfg, iter_spec cfg "secondly" = Done "" ISecondly.
Proof. intros [[] []]; vm_compute; reflexivity. Qed.
(** src/parser/iterator.rs 161 *)
Example iter_spec_49 : forall cfg : nom_cfg, iter_spec cfg "minutely" = Done "" IMinutely.
Proof. intros [[] []]; vm_compute; reflexivity. Qed.
(** src/parser/iterator.rs 162 *)
Example iter_spec_50 : forall cfg : nom_cfg, iter_spec cfg "hourly" = Done "" IHourly.
Proof. intros [[] []]; vm_compute; reflexivity. Qed.
(** src/parser/iterator.rs 163 *)
Example iter_spec_51 : forall cfg : nom_cfg, iter_spec cfg "daily" = Done "" IDaily.
Proof. intros [[] []]; vm_compute; reflexivity. Qed.
(** src/parser/iterator.rs 164 *)
Example iter_spec_52 : forall cfg : nom_cfg, iter_spec cfg "weekly" = Done "" IWeekly.
Proof. intros [[] []]; vm_compute; reflexivity. Qed.
(** src/parser/iterator.rs 165 *)
Example iter_spec_53 : forall cfg : nom_cfg, iter_spec cfg "monthly" = Done "" IMonthly.
Proof. intros [[] []]; vm_compute; reflexivity. Qed.
(** src/parser/iterator.rs 166 *)
Example iter_spec_54 : forall cfg : nom_cfg, iter_spec cfg "yearly" = Done "" IYearly.
Proof. intros [[] []]; vm_compute; reflexivity. Qed.
(** src/parser/iterator.rs 167 *)
Example iter_spec_55 : forall cfg : nom_cfg, iter_spec cfg "every 5min" = Done "" (IEvery 5 PMinute).
Proof. intros [[] []]; vm_compute; reflexivity. Qed.
(** src/parser/timetype.rs 384-392 *)
Example test_amountexpr_next : forall cfg : nom_cfg, (pdo op <- operator_parser;; pdo _ <- opt sp;; pdo e <- amount_expr cfg;; pret (op, e)) "+ 12minutes" = Done "" (Plus, AELast (Amount 12 PMinute)).
Proof. intros [[] []]; vm_compute; reflexivity. Qed.
(** src/parser/timetype.rs 395-402 *)
Example test_amountexpr : forall cfg : nom_cfg, amount_expr cfg "5minutes" = Done "" (AELast (Amount 5 PMinute)).
Proof. intros [[] []]; vm_compute; reflexivity. Qed.
(** src/parser/timetype.rs 404-414 *)
Example test_amountexpr_2 : forall cfg : nom_cfg, amount_expr cfg "5min + 12min" = Done "" (AENext (Amount 5 PMinute) Plus (AELast (Amount 12 PMinute))).
Proof. intros [[] []]; vm_compute; reflexivity. Qed.
(** src/parser/timetype.rs 417-437 *)
Example test_parse_expressions_date : forall cfg : nom_cfg, exact_date_parser cfg iso_d iso_dt "2017-01-01" = Done "" (Iso8601Date (YMD 2017 1 1)).
Proof. intros [[] []]; vm_compute; reflexivity. Qed.
(** src/parser/timetype.rs 439-465 *)
Example test_parse_expressions_datetime : forall cfg : nom_cfg, exact_date_parser cfg iso_d iso_dt "2017-01-01T22:00:11" = Done "" (Iso8601DateTime (YMD 2017 1 1) (mktime 22 0 11 0 0 0)).
Proof. intros [[] []]; vm_compute; reflexivity. Qed.
(** src/parser/timetype.rs 467-474 *)
Example test_simple_date_1 : forall cfg : nom_cfg, date cfg iso_d iso_dt "today" = Done "" (Date Today None).
Proof. intros [[] []]; vm_compute; reflexivity. Qed.
(** src/parser/timetype.rs 476-497 *)
Example test_simple_date_2 : forall cfg : nom_cfg, match date cfg iso_d iso_dt "2017-01-01" with Done _ o => do t <- date_into Checked now o; calculate Checked t | _ => Err UnknownError end = Ok (Moment (mkdt 2017 1 1 0 0 0 0)).
Proof. intros [[] []]; vm_compute; reflexivity. Qed.
(** src/parser/timetype.rs 499-520 *)
Example test_simple_date_3 : forall cfg : nom_cfg, match date cfg iso_d iso_dt "2017-01-01T01:02:03" with Done _ o => do t <- date_into Checked now o; calculate Checked t | _ => Err UnknownError end = Ok (Moment (mkdt 2017 1 1 1 2 3 0)).
Proof. intros [[] []]; vm_compute; reflexivity. Qed.
(** src/parser/timetype.rs 556-570 *)
Example test_expressions_to_date_3 : forall cfg : nom_cfg, match date cfg iso_d iso_dt "today + 5min + 12min" with Done _ o => do t <- date_into Checked now o; calculate Checked t | _ => Err UnknownError end = Ok (Moment (mkdt 2016 5 6 7 25 9 0)).
Proof. intros [[] []]; vm_compute; reflexivity. Qed.
(** src/parser/timetype.rs 572-594 *)
Example test_expressions_to_date_4 : forall cfg : nom_cfg, match date cfg iso_d iso_dt "2017-01-01 + 5min + 12min" with Done _ o => do t <- date_into Checked now o; calculate Checked t | _ => Err UnknownError end = Ok (Moment (mkdt 2017 1 1 0 17 0 0)).
Proof. intros [[] []]; vm_compute; reflexivity. Qed.
(** src/parser/timetype.rs 522-537 *)
Example test_expressions_to_date : forall cfg : nom_cfg, let g v := (get_seconds Checked v, get_minutes Checked v, get_hours Checked v, get_days Checked v, get_years v) in match amount_expr cfg "5min + 12min" with Done _ o => do t <- amountexpr_into Checked o; do v <- calculate Checked t; Ok (g v) | _ => Err UnknownError end = Ok (Ok 1020, Ok 17, Ok 0, Ok 0, Ok 0).
Proof. intros [[] []] g; vm_compute; reflexivity. Qed.
(** src/parser/timetype.rs 539-554 *)
Example test_expressions_to_date_2 : forall cfg : nom_cfg, let g v := (get_seconds Checked v, get_minutes Checked v, get_hours Checked v, get_days Checked v, get_years v) in match amount_expr cfg "5min + 12min + 15hours" with Done _ o => do t <- amountexpr_into Checked o; do v <- calculate Checked t; Ok (g v) | _ => Err UnknownError end = Ok (Ok 55020, Ok 917, Ok 15, Ok 0, Ok 0).
Proof. intros [[] []] g; vm_compute; reflexivity. Qed.
(** src/parser/timetype.rs 596-611 *)
Example test_expressions_to_timetype : forall cfg : nom_cfg, let g v := (get_seconds Checked v, get_minutes Checked v, get_hours Checked v, get_days Checked v, get_years v) in match timetype_parser cfg iso_d iso_dt "5min + 12min + 15hours" with Done _ o => do t <- ptimetype_into Checked now o; do v <- calculate Checked t; Ok (g v) | _ => Err UnknownError end = Ok (Ok 55020, Ok 917, Ok 15, Ok 0, Ok 0).
Proof. intros [[] []] g; vm_compute; reflexivity. Qed.
(** src/parser/timetype.rs 630-652 *)
Example test_expressions_to_timetype_subtract : forall cfg : nom_cfg, let g v := (get_seconds Checked v, get_minutes Checked v, get_hours Checked v, get_days Checked v, get_years v) in match timetype_parser cfg iso_d iso_dt "5min + 12min + 15hours - 1hour" with Done _ o => do t <- ptimetype_into Checked now o; do v <- calculate Checked t; Ok (g v) | _ => Err UnknownError end = Ok (Ok 51420, Ok 857, Ok 14, Ok 0, Ok 0).
Proof. intros [[] []] g; vm_compute; reflexivity. Qed.
(** src/parser/timetype.rs 613-628 *)
Example test_expressions_to_timetype_2 : forall cfg : nom_cfg, match timetype_parser cfg iso_d iso_dt "today + 5min + 12min" with Done _ o => do t <- ptimetype_into Checked now o; calculate Checked t | _ => Err UnknownError end = Ok (Moment (mkdt 2016 5 6 7 25 9 0)).
Proof. intros [[] []]; vm_compute; reflexivity. Qed.
(** src/parser/iterator.rs 170-192 *)
Example test_iterator_1 : forall cfg : nom_cfg, match iterator cfg iso_d iso_dt "2017-01-01 hourly" with Done _ i => do ui <- into_user_iterator Checked now now i; Ok (take (user_next Checked) 10 ui) | _ => Err UnknownError end = Ok [Some (Ok (Moment (mkdt 2017 1 1 0 0 0 0))); Some (Ok (Moment (mkdt 2017 1 1 1 0 0 0))); Some (Ok (Moment (mkdt 2017 1 1 2 0 0 0))); Some (Ok (Moment (mkdt 2017 1 1 3 0 0 0))); Some (Ok (Moment (mkdt 2017 1 1 4 0 0 0))); Some (Ok (Moment (mkdt 2017 1 1 5 0 0 0))); Some (Ok (Moment (mkdt 2017 1 1 6 0 0 0))); Some (Ok (Moment (mkdt 2017 1 1 7 0 0 0))); Some (Ok (Moment (mkdt 2017 1 1 8 0 0 0))); Some (Ok (Moment (mkdt 2017 1 1 9 0 0 0)))].
Proof. intros [[] []]; vm_compute; reflexivity. Qed.
(** src/parser/iterator.rs 194-216 *)
Example test_iterator_2 : forall cfg : nom_cfg, match iterator cfg iso_d iso_dt "2017-01-01 every 2mins" with Done _ i => do ui <- into_user_iterator Checked now now i; Ok (take (user_next Checked) 30 ui) | _ => Err UnknownError end = Ok [Some (Ok (Moment (mkdt 2017 1 1 0 0 0 0))); Some (Ok (Moment (mkdt 2017 1 1 0 2 0 0))); Some (Ok (Moment (mkdt 2017 1 1 0 4 0 0))); Some (Ok (Moment (mkdt 2017 1 1 0 6 0 0))); Some (Ok (Moment (mkdt 2017 1 1 0 8 0 0))); Some (Ok (Moment (mkdt 2017 1 1 0 10 0 0))); Some (Ok (Moment (mkdt 2017 1 1 0 12 0 0))); Some (Ok (Moment (mkdt 2017 1 1 0 14 0 0))); Some (Ok (Moment (mkdt 2017 1 1 0 16 0 0))); Some (Ok (Moment (mkdt 2017 1 1 0 18 0 0))); Some (Ok (Moment (mkdt 2017 1 1 0 20 0 0))); Some (Ok (Moment (mkdt 2017 1 1 0 22 0 0))); Some (Ok (Moment (mkdt 2017 1 1 0 24 0 0))); Some (Ok (Moment (mkdt 2017 1 1 0 26 0 0))); Some (Ok (Moment (mkdt 2017 1 1 0 28 0 0))); Some (Ok (Moment (mkdt 2017 1 1 0 30 0 0))); Some (Ok (Moment (mkdt 2017 1 1 0 32 0 0))); Some (Ok (Moment (mkdt 2017 1 1 0 34 0 0))); Some (Ok (Moment (mkdt 2017 1 1 0 36 0 0))); Some (Ok (Moment (mkdt 2017 1 1 0 38 0 0))); Some (Ok (Moment (mkdt 2017 1 1 0 40 0 0))); Some (Ok (Moment (mkdt 2017 1 1 0 42 0 0))); Some (Ok (Moment (mkdt 2017 1 1 0 44 0 0))); Some (Ok (Moment (mkdt 2017 1 1 0 46 0 0))); Some (Ok (Moment (mkdt 2017 1 1 0 48 0 0))); Some (Ok (Moment (mkdt 2017 1 1 0 50 0 0))); Some (Ok (Moment (mkdt 2017 1 1 0 52 0 0))); Some (Ok (Moment (mkdt 2017 1 1 0 54 0 0))); Some (Ok (Moment (mkdt 2017 1 1 0 56 0 0))); Some (Ok (Moment (mkdt 2017 1 1 0 58 0 0)))].
Proof. intros [[] []]; vm_compute; reflexivity. Qed.
(** src/parser/iterator.rs 218-240 *)
Example test_iterator_3 : forall cfg : nom_cfg, match iterator cfg iso_d iso_dt "2017-01-01 daily" with Done _ i => do ui <- into_user_iterator Checked now now i; Ok (take (user_next Checked) 29 ui) | _ => Err UnknownError end = Ok [Some (Ok (Moment (mkdt 2017 1 1 0 0 0 0))); Some (Ok (Moment (mkdt 2017 1 2 0 0 0 0))); Some (Ok (Moment (mkdt 2017 1 3 0 0 0 0))); Some (Ok (Moment (mkdt 2017 1 4 0 0 0 0))); Some (Ok (Moment (mkdt 2017 1 5 0 0 0 0))); Some (Ok (Moment (mkdt 2017 1 6 0 0 0 0))); Some (Ok (Moment (mkdt 2017 1 7 0 0 0 0))); Some (Ok (Moment (mkdt 2017 1 8 0 0 0 0))); Some (Ok (Moment (mkdt 2017 1 9 0 0 0 0))); Some (Ok (Moment (mkdt 2017 1 10 0 0 0 0))); Some (Ok (Moment (mkdt 2017 1 11 0 0 0 0))); Some (Ok (Moment (mkdt 2017 1 12 0 0 0 0))); Some (Ok (Moment (mkdt 2017 1 13 0 0 0 0))); Some (Ok (Moment (mkdt 2017 1 14 0 0 0 0))); Some (Ok (Moment (mkdt 2017 1 15 0 0 0 0))); Some (Ok (Moment (mkdt 2017 1 16 0 0 0 0))); Some (Ok (Moment (mkdt 2017 1 17 0 0 0 0))); Some (Ok (Moment (mkdt 2017 1 18 0 0 0 0))); Some (Ok (Moment (mkdt 2017 1 19 0 0 0 0))); Some (Ok (Moment (mkdt 2017 1 20 0 0 0 0))); Some (Ok (Moment (mkdt 2017 1 21 0 0 0 0))); Some (Ok (Moment (mkdt 2017 1 22 0 0 0 0))); Some (Ok (Moment (mkdt 2017 1 23 0 0 0 0))); Some (Ok (Moment (mkdt 2017 1 24 0 0 0 0))); Some (Ok (Moment (mkdt 2017 1 25 0 0 0 0))); Some (Ok (Moment (mkdt 2017 1 26 0 0 0 0))); Some (Ok (Moment (mkdt 2017 1 27 0 0 0 0))); Some (Ok (Moment (mkdt 2017 1 28 0 0 0 0))); Some (Ok (Moment (mkdt 2017 1 29 0 0 0 0)))].
Proof. intros [[] []]; vm_compute; reflexivity. Qed.
(** src/parser/iterator.rs 242-264 *)
Example test_iterator_4 : forall cfg : nom_cfg, match iterator cfg iso_d iso_dt "2017-01-01 weekly" with Done _ i => do ui <- into_user_iterator Checked now now i; Ok (take (user_next Checked) 3 ui) | _ => Err UnknownError end = Ok [Some (Ok (Moment (mkdt 2017 1 1 0 0 0 0))); Some (Ok (Moment (mkdt 2017 1 8 0 0 0 0))); Some (Ok (Moment (mkdt 2017 1 15 0 0 0 0)))].
Proof. intros [[] []]; vm_compute; reflexivity. Qed.
(** src/parser/iterator.rs 266-272 *)
Example test_until_spec_1 : forall cfg : nom_cfg, until_spec cfg iso_d iso_dt "until 2017-01-01T05:00:00" = Done "" (UExact (Iso8601DateTime (YMD 2017 1 1) (mktime 5 0 0 0 0 0))).
Proof. intros [[] []]; vm_compute; reflexivity. Qed.
(** src/parser/iterator.rs 274-304 *)
Example test_until_iterator_1 : forall cfg : nom_cfg, match iterator cfg iso_d iso_dt "2017-01-01 hourly until 2017-01-01T05:00:00" with Done _ i => do ui <- into_user_iterator Checked now now i; Ok (take (user_next Checked) 6 ui) | _ => Err UnknownError end = Ok [Some (Ok (Moment (mkdt 2017 1 1 0 0 0 0))); Some (Ok (Moment (mkdt 2017 1 1 1 0 0 0))); Some (Ok (Moment (mkdt 2017 1 1 2 0 0 0))); Some (Ok (Moment (mkdt 2017 1 1 3 0 0 0))); Some (Ok (Moment (mkdt 2017 1 1 4 0 0 0))); None].
Proof. intros [[] []]; vm_compute; reflexivity. Qed.
(** src/parser/iterator.rs 306-334 *)
Example test_until_iterator_2 : forall cfg : nom_cfg, match iterator cfg iso_d iso_dt "2017-01-01 every 2mins until 2017-01-01T00:10:00" with Done _ i => do ui <- into_user_iterator Checked now now i; Ok (take (user_next Checked) 6 ui) | _ => Err UnknownError end = Ok [Some (Ok (Moment (mkdt 2017 1 1 0 0 0 0))); Some (Ok (Moment (mkdt 2017 1 1 0 2 0 0))); Some (Ok (Moment (mkdt 2017 1 1 0 4 0 0))); Some (Ok (Moment (mkdt 2017 1 1 0 6 0 0))); Some (Ok (Moment (mkdt 2017 1 1 0 8 0 0))); None].
Proof. intros [[] []]; vm_compute; reflexivity. Qed.
(** src/parser/iterator.rs 336-364 *)
Example test_until_iterator_3 : forall cfg : nom_cfg, match iterator cfg iso_d iso_dt "2017-01-01 daily until 2017-01-05" with Done _ i => do ui <- into_user_iterator Checked now now i; Ok (take (user_next Checked) 5 ui) | _ => Err UnknownError end = Ok [Some (Ok (Moment (mkdt 2017 1 1 0 0 0 0))); Some (Ok (Moment (mkdt 2017 1 2 0 0 0 0))); Some (Ok (Moment (mkdt 2017 1 3 0 0 0 0))); Some (Ok (Moment (mkdt 2017 1 4 0 0 0 0))); None].
Proof. intros [[] []]; vm_compute; reflexivity. Qed.
(** src/parser/iterator.rs 366-394 *)
Example test_until_iterator_4 : forall cfg : nom_cfg, match iterator cfg iso_d iso_dt "2017-01-01 weekly until 2017-01-14" with Done _ i => do ui <- into_user_iterator Checked now now i; Ok (take (user_next Checked) 3 ui) | _ => Err UnknownError end = Ok [Some (Ok (Moment (mkdt 2017 1 1 0 0 0 0))); Some (Ok (Moment (mkdt 2017 1 8 0 0 0 0))); None].
Proof. intros [[] []]; vm_compute; reflexivity. Qed.
