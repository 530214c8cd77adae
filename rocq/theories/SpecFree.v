(** Leaving out several weekdays. *)
Require Import ZArith Bool List.
From Verif Require Import Prelude Spec Chrono TimeType Matcher Iter SpecHang.
Import ListNotations.
Local Open Scope Z_scope.

(** Moments as items of a collected iterator. *)
Definition moments (l : list datetime) : list result := map (fun x => Ok (Moment x)) l.
(** On none of the weekdays. *)
Definition free (ds : list wday) (x : datetime) : bool := forallb (fun d => negb (on_day d x)) ds.
(** `.without(d)` on a stepping iterator, for one weekday after the other (src/iter.rs 139-172); loops of at most [fuel] turns. *)
Fixpoint without_days (md : mode) (fuel : nat) (ds : list wday) : next_fn iter :=
  match ds with
  | [] => iter_next md
  | d :: r => without_next (without_days md fuel r) fuel (day_matches d)
  end.
