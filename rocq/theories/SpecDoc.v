(** Vocabulary for the claims of the documentation: /repo/doc/language.md, the comments of
    /repo/src/timetype.rs, and UTF-8 for the fuzz target. *)
Require Import ZArith Bool List String Ascii.
From Verif Require Import Prelude Spec Chrono TimeType SpecTree Nom ParserTimetype ParserIterator ParserMod SpecText.
Import ListNotations.
Local Open Scope string_scope.
Local Open Scope Z_scope.

Section Reads.
Variable pd : parser isodate.
Variable pdt : parser (isodate * isotime).
(** [s] is a date, an operator and an amount expression if there is one, and [rest]. *)
Inductive date_begins : pdate -> string -> string -> Prop :=
| DB_exact x s rest : exact_reads pd pdt x s rest -> date_begins (Date x None) s rest
| DB_op x s b1 op b2 e t b3 rest : exact_reads pd pdt x s (b1 ++ op_text op ++ b2 ++ t ++ b3 ++ rest) -> blanks b1 -> blanks b2 ->
    expr_text e t -> blanks b3 -> date_begins (Date x (Some (op, e))) s rest.
(** [s] is a bound, or nothing, and [rest]. *)
Inductive bound_begins : option untilspec -> string -> string -> Prop :=
| BB_none s : bound_begins None s s
| BB_until x b s rest : blanks b -> exact_reads pd pdt x s rest -> bound_begins (Some (UExact x)) ("until" ++ b ++ s) rest
| BB_times b1 ds b2 rest : blanks b1 -> digits ds -> decimal ds <= i64_max -> blanks b2 ->
    bound_begins (Some (UTimes (decimal ds))) (b1 ++ ds ++ b2 ++ "times" ++ rest) rest.
(** What a text can be read as. *)
Inductive reading := AsIterator (it : piterator) | AsTimeType (t : ptimetype).
(** What parse() (/repo/src/parser/mod.rs) makes of a reading. *)
Definition made (md : mode) (now1 now2 : datetime) (x : reading) : outcome kek parsed :=
  match x with AsIterator it => lower_iterator md now1 now2 it | AsTimeType t => lower_timetype md now1 t end.
(** [s] is a text of the language and [rest]: an iterator (blanks before it are allowed), a date or an amount expression. *)
Inductive begins_with : reading -> string -> string -> Prop :=
| BW_iterator d sp u b0 s b1 t b2 s2 rest : blanks b0 -> date_begins d s (b1 ++ t ++ b2 ++ s2) -> blanks b1 -> step_text sp t -> blanks b2 ->
    bound_begins u s2 rest -> begins_with (AsIterator (Iterator d sp u)) (b0 ++ s) rest
| BW_date d s rest : date_begins d s rest -> begins_with (AsTimeType (PTDate d)) s rest
| BW_amount e t b rest : expr_text e t -> blanks b -> begins_with (AsTimeType (PTAmountExpr e)) (t ++ b ++ rest) rest.
End Reads.

(** The date keywords. *)
Definition keywords : list (string * exactdate) := [("today", Today); ("yesterday", Yesterday); ("tomorrow", Tomorrow)].

(** ** UTF-8 *)
(** Unicode scalar values. *)
Definition scalar (c : Z) : Prop := 0 <= c < 55296 \/ 57344 <= c <= 1114111.
Definition chr (z : Z) : ascii := ascii_of_nat (Z.to_nat z).
(** Their encodings. *)
Definition utf8_char (c : Z) : string :=
  if c <? 128 then String (chr c) ""
  else if c <? 2048 then String (chr (192 + c / 64)) (String (chr (128 + c mod 64)) "")
  else if c <? 65536 then String (chr (224 + c / 4096)) (String (chr (128 + c / 64 mod 64)) (String (chr (128 + c mod 64)) ""))
  else String (chr (240 + c / 262144)) (String (chr (128 + c / 4096 mod 64)) (String (chr (128 + c / 64 mod 64)) (String (chr (128 + c mod 64)) ""))).
Definition utf8 (l : list Z) : string := fold_right (fun c s => utf8_char c ++ s) "" l.
