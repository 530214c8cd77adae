(** Readings that take as much of the text as possible. *)
Require Import ZArith Bool List String Ascii.
From Verif Require Import Prelude Spec Chrono TimeType SpecTree Nom ParserTimetype ParserIterator SpecText SpecDoc.
Import ListNotations.
Local Open Scope string_scope.
Local Open Scope Z_scope.

(** Of all ways [P] to split [s] into something and a rest, the one with the shortest rest. *)
Definition most {A} (P : A -> string -> string -> Prop) (a : A) (s r : string) : Prop :=
  P a s r /\ forall a' r', P a' s r' -> (length r <= length r')%nat.
(** [s] is an amount expression, blanks and [r]. *)
Definition expr_begins (e : amountexpr) (s r : string) : Prop := exists t b, s = t ++ b ++ r /\ expr_text e t /\ blanks b.
(** [s] is an iteration step and [r]. *)
Definition step_begins (sp : iterspec) (s r : string) : Prop := exists t, step_text sp t /\ s = t ++ r.

Section Reads.
Variable cfg : nom_cfg.
Variable pd : parser isodate.
Variable pdt : parser (isodate * isotime).
(** [s] is a bound and [rest]. *)
Inductive bound_takes : untilspec -> string -> string -> Prop :=
| BT_until x s rest : exact_reads pd pdt x (drop_blanks s) rest -> bound_takes (UExact x) ("until" ++ s) rest
| BT_times b1 ds b2 rest : blanks b1 -> digits ds -> decimal ds <= i64_max -> blanks b2 ->
    bound_takes (UTimes (decimal ds)) (b1 ++ ds ++ b2 ++ "times" ++ rest) rest.
Definition bound_read (u : option untilspec) (s r : string) : Prop :=
  match u with Some b => bound_takes b s r | None => r = s /\ forall b r', ~ bound_takes b s r' end.
(** An iterator: date, step and bound, each as long as possible, blanks between them and in front. *)
Definition iterator_read (it : piterator) (s r : string) : Prop :=
  let 'Iterator d sp u := it in
  exists r1 r2, most (date_begins pd pdt) d (drop_blanks s) r1 /\ most step_begins sp (drop_blanks r1) r2 /\ bound_read u (drop_blanks r2) r.
(** The reading of a text: an iterator if possible, otherwise a date if possible, otherwise an amount expression. *)
Inductive reads : reading -> string -> string -> Prop :=
| R_iterator it s r : iterator_read it s r -> reads (AsIterator it) s r
| R_date d s r : (forall it r', ~ iterator_read it s r') -> most (date_begins pd pdt) d s r -> reads (AsTimeType (PTDate d)) s r
| R_amount e s r : (forall it r', ~ iterator_read it s r') -> ~ keyword s -> no_iso cfg pd pdt s -> most expr_begins e s r ->
    reads (AsTimeType (PTAmountExpr e)) s r.
End Reads.
