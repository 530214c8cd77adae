(** Vocabulary for filtered iterations that come to an end or never return. *)
Require Import ZArith Bool List.
From Verif Require Import Prelude Spec Chrono TimeType Matcher Iter SpecTree SpecMoment SpecIter.
Import ListNotations.
Local Open Scope Z_scope.

(** Items that are moments, and items that are one error. *)
Definition listed (l : list datetime) : list item := map (fun x => Some (Ok (Moment x))) l.
Definition failing (e : kek) (j : nat) : list item := repeat (Some (Err e)) j.
Definition on_day (d : wday) (x : datetime) : bool := weekday (year x) (month x) (day x) =? wday_into d.
Definition in_ymonth (mo : ymonth) (x : datetime) : bool := month x =? ymonth_into mo.
(** Steps that move and stay within 32 bits. *)
Definition moving (u : tunit) (n : Z) : Prop := 0 < n /\ n * unit_secs u <= span32 \/ -2147483648 <= n < 0.
(** next() never returns. *)
Definition hangs {S} (next : nat -> next_fn S) (s : S) : Prop := forall fuel, fst (next fuel s) = Some OutOfFuel.
