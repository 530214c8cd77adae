(** Texts that are rejected as unfinished. *)
Require Import ZArith Bool List String Ascii.
From Verif Require Import Prelude Spec Nom ParserTimetype ParserIterator SpecText SpecDoc SpecLong.
Import ListNotations.
Local Open Scope string_scope.
Local Open Scope Z_scope.

(** Texts that more characters could turn into an amount in years: nothing at all, a number without unit or with the beginning of "yrs", the
    beginning of "yearly". Whether blanks alone are such a text depends on the release of nom. *)
Inductive unfinished (cfg : nom_cfg) : string -> Prop :=
| UF_empty : unfinished cfg ""
| UF_blank b : digit_incomplete cfg = true -> blanks b -> unfinished cfg b
| UF_number b1 ds b2 u : blanks b1 -> digits ds -> decimal ds <= i64_max -> blanks b2 -> In u [""; "y"; "yr"] -> unfinished cfg (b1 ++ ds ++ b2 ++ u)
| UF_adverb u : In u ["y"; "ye"; "yea"; "year"; "yearl"] -> unfinished cfg u.

(** The ISO 8601 parser for dates asks for more characters, and nothing else recognises the beginning of the text as a date. *)
Definition waits (pd : parser isodate) (pdt : parser (isodate * isotime)) (s : string) : Prop :=
  ~ keyword s /\ (pdt s = PError \/ pdt s = Incomplete) /\ pd s = Incomplete.
(** Where nom hands on the request of the last alternative for more characters: texts that begin with no iterator, and could become a date, or are
    no dates and could become an amount. *)
Definition starved (cfg : nom_cfg) (pd : parser isodate) (pdt : parser (isodate * isotime)) (s : string) : Prop :=
  last_complete cfg = false /\ (forall it r, ~ iterator_read pd pdt it s r) /\ (waits pd pdt s \/ ~ keyword s /\ no_iso cfg pd pdt s /\ unfinished cfg s).
