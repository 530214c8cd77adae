(** Vocabulary for iterators: the state and the item after a number of calls. *)
Require Import ZArith Bool List.
From Verif Require Import Prelude Spec Chrono TimeType Iter SpecTree SpecMoment.
Local Open Scope Z_scope.

(** State after [k] calls of next(). *)
Fixpoint after {S} (nx : next_fn S) (k : nat) (s : S) : S :=
  match k with O => s | Datatypes.S k' => after nx k' (snd (nx s)) end.
(** What call number [k] (counting from 0) returns. *)
Definition nth_item {S} (nx : next_fn S) (k : nat) (s : S) : item := fst (nx (after nx k s)).

(** The first [k] items. *)
Fixpoint items {S} (nx : next_fn S) (k : nat) (s : S) : list item :=
  match k with O => nil | Datatypes.S k' => fst (nx s) :: items nx k' (snd (nx s)) end.

(** The public operations on a stepping iterator, and what one of them reports. *)
Inductive iop := Next | Skip | Rollback.
Definition perform (md : mode) (o : iop) (it : iter) : option kek * iter :=
  match o with
  | Next => let '(r, it') := iter_next md it in (match r with Some (Err e) => Some e | _ => None end, it')
  | Skip => let '(r, it') := skip md it in (match r with Err e => Some e | _ => None end, it')
  | Rollback => let '(r, it') := rollback md it in (match r with Err e => Some e | _ => None end, it')
  end.
Fixpoint performs (md : mode) (os : list iop) (it : iter) : iter :=
  match os with nil => it | o :: os' => performs md os' (snd (perform md o it)) end.

(** An iterator over Rust values with a plain amount as increment, as Iter::build makes it. *)
Definition iter_ok (it : iter) : Prop :=
  tt_ok (base it) = true /\ tt_ok (increment it) = true /\ is_a_amount (increment it) = true.

(** Fragments in which subtracting an amount undoes adding it. *)
Definition undoable (u : tunit) (n : Z) (m : datetime) : Prop :=
  match u with
  | UYear => min_year <= year m + n <= max_year /\ ~ (month m = 2 /\ day m = 29 /\ leap (year m + n) = false)
  | UMonth => day m <= 28 /\ 0 <= n /\ month m + n <= 24 /\ year m * 12 + month m + n <= max_year * 12 + 12
  | _ => 0 <= n <= (match u with UDay => 28 | _ => modulus u - 1 end) /\
         inst m + n * unit_secs u < instant (max_year + 1) 1 1 0 0 0 /\
         (month_length (year m) (month m) = 31 \/
          inst m + n * unit_secs u < (day_number (year m) (month m) (month_length (year m) (month m)) + 1) * 86400)
  end.

(** A stepping iterator at moment [m] with increment [n] units. *)
Definition at_moment (u : tunit) (n : Z) (m : datetime) (h : bool) : iter := mkiter (Moment m) (mk u n) h.

(** The same day and time of day in month number [i] (12 * year + month - 1). *)
Definition in_month (i d : Z) (m : datetime) : datetime :=
  mkdt (i / 12) (i mod 12 + 1) d (hour m) (minute m) (second m) 0.

(** ** Month steps: [i] is the month number (12 * year + month - 1) aimed at by a step of [n] months *)
(** The step passes the end of a year. *)
Definition passes_year (n i : Z) : bool := (i - n) / 12 <? i / 12.
(** Length of the month aimed at, as the step sees it: 30 days after the end of the year. *)
Definition seen_length (n i : Z) : Z := if passes_year n i then 30 else month_length (i / 12) (i mod 12 + 1).
(** Day [d] exists in the month aimed at, also as the step sees it. *)
Definition fits (n i d : Z) : bool := (d <=? seen_length n i) && (d <=? month_length (i / 12) (i mod 12 + 1)).
