(** Model of /repo/src/parser/iterator.rs (non-test part). *)
Require Import ZArith Bool String.
From Verif Require Import Prelude Chrono TimeType Iter Nom ParserTimetype.
Local Open Scope Z_scope.

(** src/parser/iterator.rs 27-37 `enum Iterspec`. *)
Inductive iterspec :=
| ISecondly | IMinutely | IHourly | IDaily | IWeekly | IMonthly | IYearly
| IEvery (n : Z) (u : punit).

(** src/parser/iterator.rs 52-56 `enum UntilSpec`. *)
Inductive untilspec := UExact (e : exactdate) | UTimes (n : Z).

(** src/parser/iterator.rs 65-66 `struct Iterator`. *)
Inductive piterator := Iterator (d : pdate) (spec : iterspec) (u : option untilspec).

Section Parsers.
Variable cfg : nom_cfg.
Variable parse_date : parser isodate.
Variable parse_datetime : parser (isodate * isotime).

(** src/parser/iterator.rs 11-25 `iter_spec`. *)
Definition iter_spec : parser iterspec :=
  alt_c (tagv "secondly" ISecondly) (
  alt_c (tagv "minutely" IMinutely) (
  alt_c (tagv "hourly" IHourly) (
  alt_c (tagv "daily" IDaily) (
  alt_c (tagv "weekly" IWeekly) (
  alt_c (tagv "monthly" IMonthly) (
  alt_c (tagv "yearly" IYearly) (
  alt_last cfg (
    pdo _ <- tag "every";;
    pdo number <- integer cfg;;
    pdo u <- unit_parser cfg;;
    pret (IEvery number u))))))))).

(** src/parser/iterator.rs 39-50 `until_spec`. *)
Definition until_spec : parser untilspec :=
  alt_c (
    pdo _ <- tag "until";;
    pdo _ <- sp;;
    pdo exact <- exact_date_parser cfg parse_date parse_datetime;;
    pret (UExact exact)) (
  alt_last cfg (
    pdo num <- integer cfg;;
    pdo _ <- sp;;
    pdo _ <- tag "times";;
    pret (UTimes num))).

(** src/parser/iterator.rs 58-63 `iterator`. *)
Definition iterator : parser piterator :=
  pdo _ <- opt sp;;
  pdo d <- date cfg parse_date parse_datetime;;
  pdo _ <- opt sp;;
  pdo spec <- iter_spec;;
  pdo _ <- opt sp;;
  pdo u <- opt (complete until_spec);;
  pret (Iterator d spec u).
End Parsers.

(** src/parser/iterator.rs 125-133 `enum UserIterator<Iter>`. *)
Inductive useriterator :=
| UIIterator (i : iter)
| UITimes (t : @times_iter iter)
| UIUntil (i : iter) (ending : datetime).

Section Lower.
Variable md : mode.

(** src/parser/iterator.rs 73-81 closure `unit_to_amount`. *)
Definition unit_to_amount (i : Z) (u : punit) : result :=
  match u with
  | PSecond => Ok (seconds i)
  | PMinute => Ok (minutes i)
  | PHour => Ok (hours i)
  | PDay => Ok (days i)
  | PWeek => weeks md i
  | PMonth => Ok (months i)
  | PYear => Ok (years i)
  end.

(** src/parser/iterator.rs 83-92 `recur`. *)
Definition recur_of (s : iterspec) : result :=
  match s with
  | IEvery i u => unit_to_amount i u
  | ISecondly => unit_to_amount 1 PSecond
  | IMinutely => unit_to_amount 1 PMinute
  | IHourly => unit_to_amount 1 PHour
  | IDaily => unit_to_amount 1 PDay
  | IWeekly => unit_to_amount 1 PWeek
  | IMonthly => unit_to_amount 1 PMonth
  | IYearly => unit_to_amount 1 PYear
  end.

(** src/parser/iterator.rs 94-98 closure `into_ndt`. *)
Definition into_ndt (e : timetype) : outcome kek datetime :=
  do v <- calculate md e;
  ok_or (get_moment v) NotADateInsideIterator.

(** src/parser/iterator.rs 68-122 `into_user_iterator`. The clock may be read twice: [now1] for the
    base date, [now2] for the `until` date. *)
Definition into_user_iterator (now1 now2 : datetime) (it : piterator) : outcome kek useriterator :=
  let 'Iterator d spec u := it in
  do recur <- recur_of spec;
  match u with
  | Some (UExact e) =>
      do b <- (do x <- date_into md now1 d; into_ndt x);
      do en <- (do x <- exactdate_into md now2 e; into_ndt x);
      do i <- build b recur;
      Ok (UIUntil i en)
  | Some (UTimes n) =>
      do b <- (do x <- date_into md now1 d; into_ndt x);
      do i <- build b recur;
      Ok (UITimes (times_new i n))
  | None =>
      do b <- (do x <- date_into md now1 d; into_ndt x);
      do i <- build b recur;
      Ok (UIIterator i)
  end.

(** src/parser/iterator.rs 135-147 `Iterator for UserIterator`. *)
Definition user_next : next_fn useriterator := fun u =>
  match u with
  | UIIterator i => let '(r, i') := iter_next md i in (r, UIIterator i')
  | UITimes t => let '(r, t') := times_next md (iter_next md) t in (r, UITimes t')
  | UIUntil i en => let '(r, i') := until_next md (iter_next md) en i in (r, UIUntil i' en)
  end.
End Lower.
