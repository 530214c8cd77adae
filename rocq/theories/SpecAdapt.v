(** Vocabulary for the iterator adapters, on lists of items. *)
Require Import ZArith Bool List.
From Verif Require Import Prelude Spec Chrono TimeType Matcher Iter SpecTree SpecMoment SpecIter.
Import ListNotations.
Local Open Scope Z_scope.

(** The matcher decides [t] with answer [b]. *)
Definition decided (m : matcher) (b : bool) (i : item) : bool :=
  match i with
  | Some (Ok t) => match m t with Ok b' => Bool.eqb b b' | _ => false end
  | _ => false
  end.
(** What the caller sees of an item that is not dropped: the item itself, or the matcher's own
    failure. *)
Definition seen (m : matcher) (i : item) : item :=
  match i with
  | Some (Ok t) => match m t with Ok _ => i | Err e => Some (Err e) | Panic p => Some (Panic p) | OutOfFuel => Some OutOfFuel end
  | _ => i
  end.
(** Items of a list that are not decided [b]. *)
Definition keep (m : matcher) (b : bool) (l : list item) : list item := filter (fun i => negb (decided m b i)) l.

(** [a] is earlier than [b]. *)
Definition before (a b : datetime) : Prop := inst a < inst b \/ inst a = inst b /\ nano a < nano b.

(** A panic allowed in build mode [md]: arithmetic overflow in builds with overflow checks. *)
Definition allowed (md : mode) (p : panic) : Prop := md = Checked /\ p = PArith.
(** An outcome that is a return value or an allowed panic. *)
Definition returns {E A} (md : mode) (r : outcome E A) : Prop :=
  match r with Ok _ => True | Err _ => True | Panic p => allowed md p | OutOfFuel => False end.
Definition item_returns (md : mode) (i : item) : Prop := match i with None => True | Some r => returns md r end.
