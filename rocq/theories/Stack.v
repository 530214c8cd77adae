(** Stacks of iterator adapters, the way a caller of the library writes them:
    `Iter::build(m, inc)?.every(..).times(..).until(..)` in any order and to any depth (src/iter.rs 28-38 and 125-283:
    each adapter takes any `Iterator<Item = Result<TimeType>>`, so also another adapter).  The library has no such type:
    a caller's expression of this form has a type of its own, which [state] computes.  Parsed iterators (src/parser/iterator.rs
    125-147) are iterators too and can be at the bottom. *)
Require Import ZArith Bool.
From Verif Require Import Prelude Chrono TimeType Matcher Iter ParserIterator.
Local Open Scope Z_scope.

(** A caller's expression: the iterator of src/iter.rs 28-38 or the one of src/parser/iterator.rs 68-122 under calls of `every` (127), `without` (175), `until` (224)
    and `times` (272). *)
Inductive stack :=
| Stepping (m : datetime) (inc : timetype)
| Parsed (u : useriterator)
| EveryOf (p : stack) (mt : matcher)
| WithoutOf (p : stack) (mt : matcher)
| UntilOf (p : stack) (e : datetime)
| TimesOf (p : stack) (n : Z).

(** The type of the expression: `Iter` (src/iter.rs 12-17), `UserIterator` (src/parser/iterator.rs 125-133), `FilterIter` (91-93), `WithoutIter` (139-141), `UntilIter`
    (187-188), `TimesIter` (236-242).  The matcher and the end of the middle three never change, so they are left to [call]. *)
Fixpoint state (p : stack) : Type :=
  match p with
  | Stepping _ _ => iter
  | Parsed _ => useriterator
  | EveryOf p _ | WithoutOf p _ | UntilOf p _ => state p
  | TimesOf p _ => @times_iter (state p)
  end.

(** The value of the expression (src/iter.rs 28-38; the `new`s of 95-102, 143-150, 190-196, 244-256). *)
Fixpoint start (p : stack) : outcome kek (state p) :=
  match p with
  | Stepping m inc => build m inc
  | Parsed u => Ok u
  | EveryOf p _ => start p
  | WithoutOf p _ => start p
  | UntilOf p _ => start p
  | TimesOf p n => bind (start p) (fun s => Ok (times_new s n))
  end.

(** `next()` of the expression (src/iter.rs 77-89, 104-124, 152-172, 198-222, 257-270, src/parser/iterator.rs 135-147); every `loop` runs at most [fuel] times. *)
Fixpoint call (md : mode) (fuel : nat) (p : stack) : next_fn (state p) :=
  match p with
  | Stepping _ _ => iter_next md
  | Parsed _ => user_next md
  | EveryOf p mt => filter_next (call md fuel p) fuel mt
  | WithoutOf p mt => without_next (call md fuel p) fuel mt
  | UntilOf p e => until_next md (call md fuel p) e
  | TimesOf p n => times_next md (call md fuel p)
  end.
