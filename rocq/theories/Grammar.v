(** The parsers of /repo/src/parser as trees of combinators. (The same parsers as in ParserTimetype.v, ParserIterator.v and
    ParserMod.v, which is proved; the trees make it possible to count steps.) *)
Require Import ZArith Bool String.
From Verif Require Import Prelude Chrono TimeType Nom ParserTimetype ParserIterator ParserMod SpecWork.
Local Open Scope string_scope.

(** `do_parse!(x: e >> ...)` (e.g. /repo/src/parser/timetype.rs 109). *)
Notation "'gdo' x <- e ;; f" := (GBind e (fun x => f))
  (at level 200, x pattern, e at level 100, f at level 200, right associativity).

(** `tag!(t) => { |_| v }` (src/parser/timetype.rs 25-48, 88-89, 99-105, 170-172). *)
Definition g_tagv {A} (t : string) (v : A) : G A := GMap (fun _ => v) (GTag t).
(** `alt_complete!` but for its last alternative (src/parser/timetype.rs 24, 98, 169; iterator.rs 11, 39; mod.rs 64). *)
Definition g_alt_c {A} (p q : G A) : G A := GAlt (GComplete p) q.
(** `ws!` (src/parser/timetype.rs 16). *)
Definition g_ws {A} (p : G A) : G A := gdo _ <- GSp;; gdo a <- p;; gdo _ <- GSp;; GRet a.

Section Grammar.
Variable cfg : nom_cfg.
(** The parsers of the iso8601 crate (src/parser/timetype.rs 165-166). *)
Variable parse_date : parser isodate.
Variable parse_datetime : parser (isodate * isotime).

(** The last alternative of `alt_complete!` (src/parser/timetype.rs 24, 98, 169; iterator.rs 11, 39; mod.rs 64). *)
Definition g_last {A} (p : G A) : G A := if last_complete cfg then GComplete p else p.

(** src/parser/timetype.rs 13-21 `integer`; the conversion reads the digits once more. *)
Definition g_integer : G Z := GMapRes (g_ws GDigit) i64_from_str length.

(** src/parser/timetype.rs 23-49 `unit_parser`. *)
Definition g_unit_parser : G punit :=
  g_alt_c (g_tagv "seconds" PSecond) (
  g_alt_c (g_tagv "second" PSecond) (
  g_alt_c (g_tagv "secs" PSecond) (
  g_alt_c (g_tagv "sec" PSecond) (
  g_alt_c (g_tagv "s" PSecond) (
  g_alt_c (g_tagv "minutes" PMinute) (
  g_alt_c (g_tagv "minute" PMinute) (
  g_alt_c (g_tagv "mins" PMinute) (
  g_alt_c (g_tagv "min" PMinute) (
  g_alt_c (g_tagv "hours" PHour) (
  g_alt_c (g_tagv "hour" PHour) (
  g_alt_c (g_tagv "hrs" PHour) (
  g_alt_c (g_tagv "hr" PHour) (
  g_alt_c (g_tagv "days" PDay) (
  g_alt_c (g_tagv "day" PDay) (
  g_alt_c (g_tagv "d" PDay) (
  g_alt_c (g_tagv "weeks" PWeek) (
  g_alt_c (g_tagv "week" PWeek) (
  g_alt_c (g_tagv "w" PWeek) (
  g_alt_c (g_tagv "months" PMonth) (
  g_alt_c (g_tagv "month" PMonth) (
  g_alt_c (g_tagv "years" PYear) (
  g_alt_c (g_tagv "year" PYear) (
  g_last (g_tagv "yrs" PYear)))))))))))))))))))))))).

(** src/parser/timetype.rs 87-90 `operator_parser`. *)
Definition g_operator_parser : G operator := GAlt (g_tagv "+" Plus) (g_tagv "-" Minus).

(** src/parser/timetype.rs 98-106 `unit_alias`. *)
Definition g_unit_alias : G unitalias :=
  g_alt_c (g_tagv "secondly" ASecondly) (
  g_alt_c (g_tagv "minutely" AMinutely) (
  g_alt_c (g_tagv "hourly" AHourly) (
  g_alt_c (g_tagv "daily" ADaily) (
  g_alt_c (g_tagv "weekly" AWeekly) (
  g_alt_c (g_tagv "monthly" AMonthly) (
  g_last (g_tagv "yearly" AYearly))))))).

(** src/parser/timetype.rs 108-111 `amount_parser`. *)
Definition g_amount_parser : G amount :=
  GAlt (gdo number <- g_integer;; gdo u <- g_unit_parser;; GRet (Amount number u))
       (gdo a <- g_unit_alias;; GRet (Amount 1 (alias_into a))).

(** src/parser/timetype.rs 130-142 `amount_expr_next` and `amount_expr`. *)
Fixpoint g_amount_expr_fuel (fuel : nat) : G amountexpr :=
  match fuel with
  | O => GFuel
  | S fuel' =>
      gdo a <- g_amount_parser;;
      gdo _ <- GOpt GSp;;
      gdo o <- GOpt (GComplete (
               gdo op <- g_operator_parser;;
               gdo _ <- GOpt GSp;;
               gdo amexp <- g_amount_expr_fuel fuel';;
               GRet (op, amexp)));;
      GRet (match o with
            | Some (op, next) => AENext a op next
            | None => AELast a
            end)
  end.
(** src/parser/timetype.rs 137-142 `amount_expr`. *)
Definition g_amount_expr : G amountexpr := GOfInput (fun s => g_amount_expr_fuel (S (length s))).

(** src/parser/timetype.rs 167-175 `exact_date_parser`. *)
Definition g_exact_date_parser : G exactdate :=
  g_alt_c (g_tagv "today" Today) (
  g_alt_c (g_tagv "yesterday" Yesterday) (
  g_alt_c (g_tagv "tomorrow" Tomorrow) (
  g_alt_c (gdo d <- GIso parse_datetime;; GRet (Iso8601DateTime (fst d) (snd d))) (
  g_last (gdo d <- GIso parse_date;; GRet (Iso8601Date d)))))).

(** src/parser/timetype.rs 255-261 `date`. *)
Definition g_date : G pdate :=
  gdo exact <- g_exact_date_parser;;
  gdo o <- GOpt (GComplete (
           gdo _ <- GSp;;
           gdo op <- g_operator_parser;;
           gdo _ <- GSp;;
           gdo a <- g_amount_expr;;
           GRet (op, a)));;
  GRet (Date exact o).

(** src/parser/timetype.rs 300-303 `timetype`. *)
Definition g_timetype : G ptimetype :=
  GAlt (gdo d <- g_date;; GRet (PTDate d))
       (gdo a <- g_amount_expr;; GRet (PTAmountExpr a)).

(** src/parser/iterator.rs 11-25 `iter_spec`. *)
Definition g_iter_spec : G iterspec :=
  g_alt_c (g_tagv "secondly" ISecondly) (
  g_alt_c (g_tagv "minutely" IMinutely) (
  g_alt_c (g_tagv "hourly" IHourly) (
  g_alt_c (g_tagv "daily" IDaily) (
  g_alt_c (g_tagv "weekly" IWeekly) (
  g_alt_c (g_tagv "monthly" IMonthly) (
  g_alt_c (g_tagv "yearly" IYearly) (
  g_last (
    gdo _ <- GTag "every";;
    gdo number <- g_integer;;
    gdo u <- g_unit_parser;;
    GRet (IEvery number u))))))))).

(** src/parser/iterator.rs 39-50 `until_spec`. *)
Definition g_until_spec : G untilspec :=
  g_alt_c (
    gdo _ <- GTag "until";;
    gdo _ <- GSp;;
    gdo exact <- g_exact_date_parser;;
    GRet (UExact exact)) (
  g_last (
    gdo num <- g_integer;;
    gdo _ <- GSp;;
    gdo _ <- GTag "times";;
    GRet (UTimes num))).

(** src/parser/iterator.rs 58-63 `iterator`. *)
Definition g_iterator : G piterator :=
  gdo _ <- GOpt GSp;;
  gdo d <- g_date;;
  gdo _ <- GOpt GSp;;
  gdo spec <- g_iter_spec;;
  gdo _ <- GOpt GSp;;
  gdo u <- GOpt (GComplete g_until_spec);;
  GRet (Iterator d spec u).

(** src/parser/mod.rs 64-67 `do_parse`; the lowering is not counted. *)
Definition g_do_parse (md : mode) (now1 now2 : datetime) : G (outcome kek parsed) :=
  g_alt_c (gdo it <- g_iterator;; GRet (lower_iterator md now1 now2 it))
          (g_last (gdo t <- g_timetype;; GRet (lower_timetype md now1 t))).
End Grammar.
