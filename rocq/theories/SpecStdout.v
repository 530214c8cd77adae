(** Vocabulary for the standard output of the command line program. *)
Require Import ZArith Bool List String Ascii.
From Verif Require Import Prelude Spec Chrono TimeType Nom ParserTimetype SpecText Show Stdout.
Local Open Scope string_scope.

(** The text of an error of nom is not the beginning of the text of another error, nor the other way round. *)
Definition foreign (nom : string) : Prop := forall e r r', e <> NomError -> nom ++ r <> debug_error e ++ r'.
(** Number of line ends in a text. *)
Fixpoint line_ends (s : string) : nat :=
  match s with EmptyString => O | String c r => (if Ascii.eqb c "010" then 1 else 0) + line_ends r end.
(** External ISO 8601 parsers that read dates and times of the types they return. *)
Definition iso_parsers (pd : parser isodate) (pdt : parser (isodate * isotime)) : Prop :=
  (forall s, fine pd s) /\ (forall s, fine pdt s) /\
  (forall s r d, pd s = Done r d -> isodate_ok d) /\ (forall s r d t, pdt s = Done r (d, t) -> isodate_ok d /\ isotime_ok t).
