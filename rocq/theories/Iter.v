(** Model of /repo/src/iter.rs (non-test part). *)
Require Import ZArith Bool String.
From Verif Require Import Prelude Chrono TimeType Matcher.
Local Open Scope Z_scope.

(** What one `next()` call (src/iter.rs 80, 111, 159, 204, 262) produced: [None] is `None`; [Some (Ok t)] and [Some (Err e)] are
    `Some(Ok(t))` and `Some(Err(e))`; [Some (Panic p)] means that the call panicked and
    [Some OutOfFuel] that it did not return within the fuel (only the two `loop`s below use fuel). *)
Definition item : Type := option result.

(** An iterator with state [S]: one `next(&mut self)` call returns the item and the new state
    (`Iterator<Item = Result<TimeType>>`, the bound of every adapter in src/iter.rs 93, 141, 189, 238). *)
Definition next_fn (S : Type) : Type := S -> item * S.

(** ** Iter (src/iter.rs 12-89) *)
(** src/iter.rs 12-17 `struct Iter`. *)
Record iter := mkiter { base : timetype; increment : timetype; had_first : bool }.

(** src/iter.rs 28-38 `Iter::build`. *)
Definition build (b : datetime) (inc : timetype) : outcome kek iter :=
  if negb (is_a_amount inc) then Err (ArgumentErrorNotAnAmount inc)
  else Ok (mkiter (moment b) inc false).

(** src/iter.rs 40-42 `increment`. *)
Definition get_increment (it : iter) : timetype := increment it.

Section Mode.
Variable md : mode.

(** src/iter.rs 56-63 `recalculate`: on error `base` keeps the unevaluated expression. *)
Definition recalculate (it : iter) : outcome kek unit * iter :=
  match calculate md (base it) with
  | Ok res => (Ok tt, mkiter res (increment it) (had_first it))
  | Err e => (Err e, it)
  | Panic p => (Panic p, it)
  | OutOfFuel => (OutOfFuel, it)
  end.

(** src/iter.rs 44-48 `skip`. *)
Definition skip (it : iter) : outcome kek unit * iter :=
  recalculate (mkiter (op_add_assign (base it) (increment it)) (increment it) (had_first it)).

(** src/iter.rs 50-54 `rollback`. *)
Definition rollback (it : iter) : outcome kek unit * iter :=
  recalculate (mkiter (op_sub_assign (base it) (increment it)) (increment it) (had_first it)).

(** src/iter.rs 77-89 `Iterator for Iter`. *)
Definition iter_next : next_fn iter := fun it =>
  if negb (had_first it) then
    (Some (Ok (base it)), mkiter (base it) (increment it) true)
  else
    match skip it with
    | (Ok _, it') => (Some (Ok (base it')), it')
    | (Err e, it') => (Some (Err e), it')
    | (Panic p, it') => (Some (Panic p), it')
    | (OutOfFuel, it') => (Some OutOfFuel, it')
    end.

Section Adapters.
Context {S : Type}.
Variable inner_next : next_fn S.

(** src/iter.rs 91-124 `FilterIter::next`; the `loop` runs at most [fuel] times. *)
Fixpoint filter_next (fuel : nat) (m : matcher) (s : S) : item * S :=
  match fuel with
  | O => (Some OutOfFuel, s)
  | Datatypes.S fuel' =>
      match inner_next s with
      | (None, s') => (None, s')
      | (Some (Ok t), s') =>
          match m t with
          | Ok false => filter_next fuel' m s'
          | Ok true => (Some (Ok t), s')
          | Err e => (Some (Err e), s')
          | Panic p => (Some (Panic p), s')
          | OutOfFuel => (Some OutOfFuel, s')
          end
      | (other, s') => (other, s')
      end
  end.

(** src/iter.rs 139-172 `WithoutIter::next`; the `loop` runs at most [fuel] times. *)
Fixpoint without_next (fuel : nat) (m : matcher) (s : S) : item * S :=
  match fuel with
  | O => (Some OutOfFuel, s)
  | Datatypes.S fuel' =>
      match inner_next s with
      | (None, s') => (None, s')
      | (Some (Ok t), s') =>
          match m t with
          | Ok false => (Some (Ok t), s')
          | Ok true => without_next fuel' m s'
          | Err e => (Some (Err e), s')
          | Panic p => (Some (Panic p), s')
          | OutOfFuel => (Some OutOfFuel, s')
          end
      | (other, s') => (other, s')
      end
  end.

(** src/iter.rs 187-222 `UntilIter::next`. The state is the inner one; `self.1` is [ending]. *)
Definition until_next (ending : datetime) : next_fn S := fun s =>
  match inner_next s with
  | (None, s') => (None, s')
  | (Some (Ok t), s') =>
      (match calculate md t with
       | Ok t' =>
           if is_moment t' then
             match get_moment t' with
             | Some m => if dt_ltb m ending then Some (Ok t') else None
             | None => Some (Panic PUnwrap)
             end
           else Some (Err (ArgumentErrorNotAMoment (name t')))
       | other => Some other
       end, s')
  | (other, s') => (other, s')
  end.

(** src/iter.rs 236-256 `struct TimesIter`, `TimesIter::new`. *)
Record times_iter := mktimes { inner : S; times : Z; count : Z }.
(** src/iter.rs 272-282 `Times::times`. *)
Definition times_new (i : S) (n : Z) : times_iter := mktimes i n 0.

(** src/iter.rs 257-270 `TimesIter::next`. *)
Definition times_next : next_fn times_iter := fun t =>
  if times t =? count t then (None, t)
  else
    match addc (E := kek) md (Ok (count t)) (Ok 1) with
    | Ok c => let '(r, i') := inner_next (inner t) in (r, mktimes i' (times t) c)
    | Err e => (Some (Err e), t)
    | Panic p => (Some (Panic p), t)
    | OutOfFuel => (Some OutOfFuel, t)
    end.
End Adapters.

(** src/iter.rs 319-409 `minutely` .. `yearly`: with a `Moment` receiver, check that the increment
    is an amount (`assert!`) and build the iterator. *)
Definition build_checked (b : datetime) (inc : timetype) : outcome kek iter :=
  if is_a_amount inc then build b inc else Panic PAssert.

(** src/iter.rs 319-332 `minutely`. *)
Definition minutely (self : timetype) (i : Z) : outcome kek iter :=
  match self with
  | Moment mom => build_checked mom (minutes i)
  | _ => Err (ArgumentErrorNotAnAmount self)
  end.
(** src/iter.rs 334-347 `hourly`. *)
Definition hourly (self : timetype) (i : Z) : outcome kek iter :=
  match self with
  | Moment mom => build_checked mom (hours i)
  | _ => Err (ArgumentErrorNotAnAmount self)
  end.
(** src/iter.rs 349-362 `daily`. *)
Definition daily (self : timetype) (i : Z) : outcome kek iter :=
  match self with
  | Moment mom => build_checked mom (days i)
  | _ => Err (ArgumentErrorNotAnAmount self)
  end.
(** src/iter.rs 364-378 `weekly`; `i * 7` may overflow. *)
Definition weekly (self : timetype) (i : Z) : outcome kek iter :=
  match self with
  | Moment mom => do n <- mulc md (Ok i) 7; build_checked mom (days n)
  | _ => Err (ArgumentErrorNotAnAmount self)
  end.
(** src/iter.rs 380-393 `monthly`. *)
Definition monthly (self : timetype) (i : Z) : outcome kek iter :=
  match self with
  | Moment mom => build_checked mom (months i)
  | _ => Err (ArgumentErrorNotAnAmount self)
  end.
(** src/iter.rs 395-408 `yearly`. *)
Definition yearly (self : timetype) (i : Z) : outcome kek iter :=
  match self with
  | Moment mom => build_checked mom (years i)
  | _ => Err (ArgumentErrorNotAnAmount self)
  end.
(** src/iter.rs 411-418 `every`. *)
Definition every (self : timetype) (inc : timetype) : outcome kek iter :=
  match self with
  | Moment mom => build mom inc
  | _ => Err (ArgumentErrorNotAnAmount self)
  end.
End Mode.
