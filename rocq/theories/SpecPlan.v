(** Vocabulary for the iterations of the README: plain lists of moments [n] days apart. *)
Require Import ZArith Bool List.
From Verif Require Import Prelude Spec Chrono TimeType Matcher Iter SpecTree SpecMoment SpecIter.
Local Open Scope Z_scope.

(** [ds] lists [m], [m] + [n] days, [m] + 2 [n] days, ..., at the same time of day; the later ones have no sub-second part. *)
Definition days_apart (m : datetime) (n : Z) (ds : list datetime) : Prop :=
  forall k x, nth_error ds k = Some x ->
    dt_valid x = true /\ inst x = inst m + Z.of_nat k * (n * 86400) /\ nano x = match k with O => nano m | _ => 0 end.
(** What `collect()` returns for a list of moments. *)
Definition moments (l : list datetime) : list result := map (fun x => Ok (Moment x)) l.
(** The README's closure `|date| date.is(Mark::MONTH_START)`. *)
Definition month_start (t : timetype) : bool := match t with Moment x => day x =? 1 | _ => false end.
