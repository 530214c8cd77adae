(** Model of /repo/src/parser/timetype.rs (non-test part). *)
Require Import ZArith Bool String Ascii.
From Verif Require Import Prelude Spec Chrono TimeType Nom.
Local Open Scope Z_scope.

(** `i64::from_str` on a non-empty string of digits (src/parser/timetype.rs 19): the decimal value,
    or failure when it exceeds i64::MAX. `str::from_utf8` (17) always succeeds on digits. *)
Fixpoint digits_value (acc : Z) (s : string) : Z :=
  match s with
  | String c s' => digits_value (acc * 10 + (Z.of_nat (nat_of_ascii c) - 48)) s'
  | EmptyString => acc
  end.
(** The same, with the failure (src/parser/timetype.rs 19). *)
Definition i64_from_str (s : string) : option Z :=
  let v := digits_value 0 s in if v <=? i64_max then Some v else None.

(** src/parser/timetype.rs 51-60 `enum Unit` (constructors prefixed by P). *)
Inductive punit := PSecond | PMinute | PHour | PDay | PWeek | PMonth | PYear.

(** src/parser/timetype.rs 62-71 `enum UnitAlias`. *)
Inductive unitalias :=
| ASecondly | AMinutely | AHourly | ADaily | AWeekly | AMonthly | AYearly.

(** src/parser/timetype.rs 73-85 `Into<Unit> for UnitAlias`. *)
Definition alias_into (a : unitalias) : punit :=
  match a with
  | ASecondly => PSecond
  | AMinutely => PMinute
  | AHourly => PHour
  | ADaily => PDay
  | AWeekly => PWeek
  | AMonthly => PMonth
  | AYearly => PYear
  end.

(** src/parser/timetype.rs 92-96 `enum Operator`. *)
Inductive operator := Plus | Minus.

(** src/parser/timetype.rs 113-114 `struct Amount(i64, Unit)`. *)
Inductive amount := Amount (n : Z) (u : punit).

(** src/parser/timetype.rs 144-148 `struct AmountExpr`: an amount and optionally an operator with
    the following expression. *)
Inductive amountexpr :=
| AELast (a : amount)
| AENext (a : amount) (op : operator) (next : amountexpr).

(** iso8601 0.2 `Date` and `DateTime` (used in src/parser/timetype.rs 182-183, 194, 199, 209, 216-217).
    `millisecond`, `tz_offset_hours` and `tz_offset_minutes` of `Time` are never read by /repo but kept. *)
Inductive isodate :=
| YMD (year month day : Z)
| Week (year ww d : Z)
| Ordinal (year ddd : Z).
(** iso8601 `Time` (read in src/parser/timetype.rs 216-250). *)
Record isotime := mktime
  { t_hour : Z; t_minute : Z; t_second : Z; t_milli : Z; t_tzh : Z; t_tzm : Z }.

(** src/parser/timetype.rs 177-184 `enum ExactDate`. *)
Inductive exactdate :=
| Today
| Yesterday
| Tomorrow
| Iso8601Date (d : isodate)
| Iso8601DateTime (d : isodate) (t : isotime).

(** src/parser/timetype.rs 263-264 `struct Date`. *)
Inductive pdate := Date (e : exactdate) (o : option (operator * amountexpr)).

(** src/parser/timetype.rs 277-281 `enum TimeType`. *)
Inductive ptimetype := PTDate (d : pdate) | PTAmountExpr (a : amountexpr).

(** ** Lowering to TimeType, for a given build mode and clock reading *)
Section Lower.
Variable md : mode.

(** src/parser/timetype.rs 116-128 `IntoTimeType for Amount`. *)
Definition amount_into (a : amount) : result :=
  let 'Amount n u := a in
  match u with
  | PSecond => Ok (seconds n)
  | PMinute => Ok (minutes n)
  | PHour => Ok (hours n)
  | PDay => Ok (days n)
  | PWeek => weeks md n
  | PMonth => Ok (months n)
  | PYear => Ok (years n)
  end.

(** src/parser/timetype.rs 150-163 `IntoTimeType for AmountExpr`. *)
Fixpoint amountexpr_into (e : amountexpr) : result :=
  match e with
  | AELast a => amount_into a
  | AENext a op next =>
      do x <- amount_into a;
      do y <- amountexpr_into next;
      match op with
      | Plus => Ok (op_add x y)
      | Minus => Ok (op_sub x y)
      end
  end.

(** `NaiveDate::from_ymd_opt(year, 1, 1).ok_or(..).map(and_hms(0,0,0)).map(moment)`, the common prefix
    of src/parser/timetype.rs 199-202, 209-212, 225-228, 238-241. *)
Definition first_of_year (y : Z) : result :=
  do nd <- ok_or (from_ymd_opt y 1 1) (OutOfBounds y 1 1 0 0 0);
  do dt <- and_hms nd 0 0 0;
  Ok (moment dt).

(** src/parser/timetype.rs 186-253 `IntoTimeType for ExactDate`; [now] is what `today()` reads. *)
Definition exactdate_into (now : datetime) (e : exactdate) : result :=
  match e with
  | Today => Ok (today now)
  | Yesterday => Ok (op_sub (today now) (days 1))
  | Tomorrow => Ok (op_add (today now) (days 1))
  | Iso8601Date d =>
      match d with
      | YMD y m dd =>
          do nd <- ok_or (from_ymd_opt y m dd) (OutOfBounds y m dd 0 0 0);
          do dt <- and_hms nd 0 0 0;
          Ok (moment dt)
      | Week y ww dd =>
          do m <- first_of_year y;
          do w <- weeks md ww;
          Ok (op_add (op_add m w) (days dd))
      | Ordinal y ddd =>
          do m <- first_of_year y;
          Ok (op_add m (days ddd))
      end
  | Iso8601DateTime d t =>
      match d with
      | YMD y m dd =>
          do dt <- ok_or (match from_ymd_opt y m dd with
                          | Some nd => and_hms_opt nd (t_hour t) (t_minute t) (t_second t)
                          | None => None
                          end)
                         (OutOfBounds y m dd (t_hour t) (t_minute t) (t_second t));
          Ok (moment dt)
      | Week y ww dd =>
          do m <- first_of_year y;
          do w <- weeks md ww;
          Ok (op_add (op_add (op_add (op_add (op_add m w) (days dd)) (hours (t_hour t)))
                             (minutes (t_minute t))) (seconds (t_second t)))
      | Ordinal y ddd =>
          do m <- first_of_year y;
          Ok (op_add (op_add (op_add (op_add m (days ddd)) (hours (t_hour t)))
                             (minutes (t_minute t))) (seconds (t_second t)))
      end
  end.

(** src/parser/timetype.rs 266-275 `IntoTimeType for Date`. *)
Definition date_into (now : datetime) (d : pdate) : result :=
  let 'Date e o := d in
  do b <- exactdate_into now e;
  match o with
  | Some (Plus, a) => do x <- amountexpr_into a; Ok (op_add b x)
  | Some (Minus, a) => do x <- amountexpr_into a; Ok (op_sub b x)
  | None => Ok b
  end.

(** src/parser/timetype.rs 283-290 `IntoTimeType for TimeType`. *)
Definition ptimetype_into (now : datetime) (t : ptimetype) : result :=
  match t with
  | PTDate d => date_into now d
  | PTAmountExpr a => amountexpr_into a
  end.
End Lower.

(** ** Parsers *)
Section Parsers.
Variable cfg : nom_cfg.
(** `iso8601::parsers::parse_date`, `parse_datetime` (src/parser/timetype.rs 165-166): not
    modelled, arbitrary. *)
Variable parse_date : parser isodate.
Variable parse_datetime : parser (isodate * isotime).

(** src/parser/timetype.rs 13-21 `integer`; an `alt!` with one alternative is that alternative. *)
Definition integer : parser Z := map_res (ws (digit cfg)) i64_from_str.

(** `tag!(t) => { |_| v }`, the form of all alternatives below (src/parser/timetype.rs 25-48, 88-89, 99-105, 170-172). *)
Definition tagv {A} (t : string) (v : A) : parser A := pmap (fun _ => v) (tag t).

(** src/parser/timetype.rs 23-49 `unit_parser`. *)
Definition unit_parser : parser punit :=
  alt_c (tagv "seconds" PSecond) (
  alt_c (tagv "second" PSecond) (
  alt_c (tagv "secs" PSecond) (
  alt_c (tagv "sec" PSecond) (
  alt_c (tagv "s" PSecond) (
  alt_c (tagv "minutes" PMinute) (
  alt_c (tagv "minute" PMinute) (
  alt_c (tagv "mins" PMinute) (
  alt_c (tagv "min" PMinute) (
  alt_c (tagv "hours" PHour) (
  alt_c (tagv "hour" PHour) (
  alt_c (tagv "hrs" PHour) (
  alt_c (tagv "hr" PHour) (
  alt_c (tagv "days" PDay) (
  alt_c (tagv "day" PDay) (
  alt_c (tagv "d" PDay) (
  alt_c (tagv "weeks" PWeek) (
  alt_c (tagv "week" PWeek) (
  alt_c (tagv "w" PWeek) (
  alt_c (tagv "months" PMonth) (
  alt_c (tagv "month" PMonth) (
  alt_c (tagv "years" PYear) (
  alt_c (tagv "year" PYear) (
  alt_last cfg (tagv "yrs" PYear)))))))))))))))))))))))).

(** src/parser/timetype.rs 87-90 `operator_parser`. *)
Definition operator_parser : parser operator := alt (tagv "+" Plus) (tagv "-" Minus).

(** src/parser/timetype.rs 98-106 `unit_alias`. *)
Definition unit_alias : parser unitalias :=
  alt_c (tagv "secondly" ASecondly) (
  alt_c (tagv "minutely" AMinutely) (
  alt_c (tagv "hourly" AHourly) (
  alt_c (tagv "daily" ADaily) (
  alt_c (tagv "weekly" AWeekly) (
  alt_c (tagv "monthly" AMonthly) (
  alt_last cfg (tagv "yearly" AYearly))))))).

(** src/parser/timetype.rs 108-111 `amount_parser`. *)
Definition amount_parser : parser amount :=
  alt (pdo number <- integer;; pdo u <- unit_parser;; pret (Amount number u))
      (pdo a <- unit_alias;; pret (Amount 1 (alias_into a))).

(** src/parser/timetype.rs 130-135 `amount_expr_next` and 137-142 `amount_expr`, mutually recursive;
    [fuel] bounds the recursion depth. [opt sp] is `opt!(sp)`. *)
Fixpoint amount_expr_fuel (fuel : nat) : parser amountexpr :=
  match fuel with
  | O => fun _ => PFuel
  | S fuel' =>
      pdo a <- amount_parser;;
      pdo _ <- opt sp;;
      pdo o <- opt (complete (
               pdo op <- operator_parser;;
               pdo _ <- opt sp;;
               pdo amexp <- amount_expr_fuel fuel';;
               pret (op, amexp)));;
      pret (match o with
            | Some (op, next) => AENext a op next
            | None => AELast a
            end)
  end.
(** src/parser/timetype.rs 137-142 `amount_expr`, with fuel for the length of the input. *)
Definition amount_expr : parser amountexpr := fun s => amount_expr_fuel (S (length s)) s.

(** src/parser/timetype.rs 167-175 `exact_date_parser`. *)
Definition exact_date_parser : parser exactdate :=
  alt_c (tagv "today" Today) (
  alt_c (tagv "yesterday" Yesterday) (
  alt_c (tagv "tomorrow" Tomorrow) (
  alt_c (pdo d <- parse_datetime;; pret (Iso8601DateTime (fst d) (snd d))) (
  alt_last cfg (pdo d <- parse_date;; pret (Iso8601Date d)))))).

(** src/parser/timetype.rs 255-261 `date`. *)
Definition date : parser pdate :=
  pdo exact <- exact_date_parser;;
  pdo o <- opt (complete (
           pdo _ <- sp;;
           pdo op <- operator_parser;;
           pdo _ <- sp;;
           pdo a <- amount_expr;;
           pret (op, a)));;
  pret (Date exact o).

(** src/parser/timetype.rs 300-303 `timetype` (here [timetype_parser]). *)
Definition timetype_parser : parser ptimetype :=
  alt (pdo d <- date;; pret (PTDate d))
      (pdo a <- amount_expr;; pret (PTAmountExpr a)).
End Parsers.
