(** Model of /repo/src/parser/mod.rs (lines 59-78). *)
Require Import ZArith Bool String.
From Verif Require Import Prelude Chrono TimeType Iter Nom ParserTimetype ParserIterator.
Local Open Scope Z_scope.

(** src/parser/mod.rs 59-62 `enum Parsed`; the iterator variant holds a `Result` (its panic
    outcome cannot occur in a returned value, see [do_parse]). *)
Inductive parsed :=
| PIterator (r : outcome kek useriterator)
| PTimeType (t : timetype).

Section Parse.
Variable md : mode.
Variable cfg : nom_cfg.
Variable parse_date : parser isodate.
Variable parse_datetime : parser (isodate * isotime).
(** Clock readings in the order in which `today()` is called. *)
Variables now1 now2 : datetime.

(** src/parser/mod.rs 65: `Ok(Parsed::Iterator(it.into_user_iterator()))`; a panic of the call is a
    panic of the parser. *)
Definition lower_iterator (it : piterator) : outcome kek parsed :=
  match into_user_iterator md now1 now2 it with
  | Panic q => Panic q
  | OutOfFuel => OutOfFuel
  | r => Ok (PIterator r)
  end.

(** src/parser/mod.rs 66: `tt.into_timetype().map(Parsed::TimeType)`. *)
Definition lower_timetype (t : ptimetype) : outcome kek parsed :=
  do x <- ptimetype_into md now1 t; Ok (PTimeType x).

(** src/parser/mod.rs 64-67 `do_parse`. *)
Definition do_parse : parser (outcome kek parsed) :=
  alt_c (pdo it <- iterator cfg parse_date parse_datetime;; pret (lower_iterator it))
        (alt_last cfg
           (pdo t <- timetype_parser cfg parse_date parse_datetime;; pret (lower_timetype t))).

(** src/parser/mod.rs 69-78 `parse`. *)
Definition parse (s : string) : outcome kek parsed :=
  match do_parse s with
  | Done _ r => r
  | PError => Err NomError
  | Incomplete => Err UnknownParserError
  | PFuel => OutOfFuel
  end.
End Parse.
