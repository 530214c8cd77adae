(** Walks of a stepping iterator: any sequence of next(), skip() and rollback() calls. *)
Require Import ZArith Bool List.
From Verif Require Import Prelude Spec Chrono TimeType Iter SpecTree SpecMoment SpecIter.
Import ListNotations.
Local Open Scope Z_scope.

(** What a call gives back (specification; the result types of /repo/src/iter.rs 44, 50 and 80). *)
Inductive reply := Gives (i : item) | Says (r : outcome kek unit).
Definition call (md : mode) (o : iop) (it : iter) : reply * iter :=
  match o with
  | Next => let '(r, it') := iter_next md it in (Gives r, it')
  | Skip => let '(r, it') := skip md it in (Says r, it')
  | Rollback => let '(r, it') := rollback md it in (Says r, it')
  end.
Fixpoint replies (md : mode) (os : list iop) (it : iter) : list reply :=
  match os with nil => nil | o :: os' => fst (call md o it) :: replies md os' (snd (call md o it)) end.

(** Steps from the start: the first next() stays, later ones go one step forward, like skip(); rollback() goes one step back. *)
Definition steps (started : bool) (o : iop) : Z :=
  match o with Next => if started then 1 else 0 | Skip => 1 | Rollback => -1 end.
Definition starts (started : bool) (o : iop) : bool := match o with Next => true | _ => started end.
(** The numbers of steps after each call. *)
Fixpoint places (started : bool) (p : Z) (os : list iop) : list Z :=
  match os with nil => nil | o :: os' => (p + steps started o) :: places (starts started o) (p + steps started o) os' end.
(** The replies, if the moments are [at_step 0], [at_step 1], [at_step (-1)], and so on. *)
Fixpoint walk (at_step : Z -> datetime) (started : bool) (p : Z) (os : list iop) : list reply :=
  match os with
  | nil => nil
  | o :: os' =>
      match o with Next => Gives (Some (Ok (Moment (at_step (p + steps started o))))) | _ => Says (Ok tt) end
      :: walk at_step (starts started o) (p + steps started o) os'
  end.

(** [p] times [n] months or years from [m], on the same day; [p] times [n] units from [m], in the same month. *)
Definition months_away (m : datetime) (n p : Z) : datetime :=
  let i := year m * 12 + month m - 1 + p * n in mkdt (i / 12) (i mod 12 + 1) (day m) (hour m) (minute m) (second m) 0.
Definition years_away (m : datetime) (n p : Z) : datetime :=
  mkdt (year m + p * n) (month m) (day m) (hour m) (minute m) (second m) 0.
Definition day_away (m : datetime) (u : tunit) (n p : Z) : Z := day m + (sod m + p * (n * unit_secs u)) / 86400.
Definition time_away (m : datetime) (u : tunit) (n p : Z) : datetime :=
  at_time (year m) (month m) (day_away m u n p) ((sod m + p * (n * unit_secs u)) mod 86400).
