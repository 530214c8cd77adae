(** Vocabulary for what the clock has to do with the output. *)
Require Import ZArith Bool List String.
From Verif Require Import Prelude Spec Chrono TimeType SpecTree Nom ParserTimetype ParserIterator SpecText SpecDoc.
Import ListNotations.
Local Open Scope string_scope.

(** [w] occurs in [s]. *)
Definition contains (w s : string) : Prop := exists p q, s = p ++ w ++ q.
(** One of the words "today", "tomorrow", "yesterday" occurs in [s]. *)
Definition names_day (s : string) : Prop := exists w x, In (w, x) keywords /\ contains w s.
(** The text is "today", or an iteration that starts today. *)
Definition from_today (x : reading) : bool :=
  match x with
  | AsTimeType (PTDate (Date Today None)) | AsIterator (Iterator (Date Today None) _ _) => true
  | _ => false
  end.
(** The end of an iteration is "today". *)
Definition until_today (x : reading) : bool :=
  match x with AsIterator (Iterator _ _ (Some (UExact Today))) => true | _ => false end.
