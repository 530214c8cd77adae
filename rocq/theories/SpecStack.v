(** What a stack of adapters returns, as lists: each adapter is an operation on the list of items below it. *)
Require Import ZArith Bool List.
From Verif Require Import Prelude Spec Chrono TimeType Matcher Iter SpecTree SpecMoment SpecIter SpecAdapt SpecAnswer SpecAnswer2 ParserIterator Stack.
Import ListNotations.
Local Open Scope Z_scope.

(** How many calls `times(n)` passes on, and what it returns after them: a negative count is met only where the counter
    overflows. *)
Definition passed_on (md : mode) (n : Z) : Z :=
  if 0 <=? n then n else match md with Checked => i64_max | Wrapping => n + 18446744073709551616 end.
Definition afterwards (md : mode) (n : Z) : item :=
  if 0 <=? n then None else match md with Checked => Some (Panic PArith) | Wrapping => None end.
(** What `until(e)` makes of an item: its value if that is a moment before [e]. *)
Definition cut (md : mode) (e : datetime) (i : item) : item :=
  match i with
  | Some (Ok t) =>
      match answer md t with
      | Ok (Moment m) => if (inst m <? inst e) || (inst m =? inst e) && (nano m <? nano e) then Some (Ok (Moment m)) else None
      | Ok v => Some (Err (ArgumentErrorNotAMoment (name v)))
      | r => Some r
      end
  | _ => i
  end.

(** The operations on lists: [Y] holds of the lists of items below. *)
Definition stepped (md : mode) (m : datetime) (inc : timetype) (l : list item) : Prop := l = map (fun k => Some (call_answer md m inc k)) (seq 0 (length l)).
Definition filtered_by (mt : matcher) (b : bool) (Y : list item -> Prop) (l : list item) : Prop := exists l', Y l' /\ l = map (seen mt) (keep mt b l').
Definition cut_at (md : mode) (e : datetime) (Y : list item -> Prop) (l : list item) : Prop := exists l', Y l' /\ l = map (cut md e) l'.
Definition counted_to (md : mode) (n : Z) (Y : list item -> Prop) (l : list item) : Prop :=
  exists l' j, Y l' /\ l = l' ++ repeat (afterwards md n) j /\
    Z.of_nat (length l') <= passed_on md n /\ (j <> 0%nat -> Z.of_nat (length l') = passed_on md n).
Definition moment_in (i : iter) : datetime := match base i with Moment m => m | _ => mkdt 1970 1 1 0 0 0 0 end.

(** The first calls of the stack return the items [l]. *)
Fixpoint yields (md : mode) (p : stack) : list item -> Prop :=
  match p with
  | Stepping m inc => stepped md m inc
  | Parsed (UIIterator i) => stepped md (moment_in i) (increment i)
  | Parsed (UITimes t) => counted_to md (times t) (stepped md (moment_in (inner t)) (increment (inner t)))
  | Parsed (UIUntil i e) => cut_at md e (stepped md (moment_in i) (increment i))
  | EveryOf p mt => filtered_by mt false (yields md p)
  | WithoutOf p mt => filtered_by mt true (yields md p)
  | UntilOf p e => cut_at md e (yields md p)
  | TimesOf p n => counted_to md n (yields md p)
  end.

(** An iterator no item of which has been taken. *)
Definition fresh (i : iter) : Prop :=
  base i = Moment (moment_in i) /\ dt_valid (moment_in i) = true /\ tt_ok (increment i) = true /\ is_a_amount (increment i) = true /\ had_first i = false.
(** An expression of Rust values whose matchers return; a parsed iterator has not been used. *)
Fixpoint stack_ok (p : stack) : Prop :=
  match p with
  | Stepping m inc => dt_valid m = true /\ tt_ok inc = true
  | Parsed (UIIterator i) => fresh i
  | Parsed (UITimes t) => fresh (inner t) /\ count t = 0 /\ in_i64 (times t) = true
  | Parsed (UIUntil i e) => fresh i /\ dt_valid e = true
  | EveryOf p mt | WithoutOf p mt => stack_ok p /\ forall v, mt v <> OutOfFuel
  | UntilOf p e => stack_ok p /\ dt_valid e = true
  | TimesOf p n => stack_ok p /\ in_i64 n = true
  end.
(** Every call returned (or panicked). *)
Definition returned (l : list item) : Prop := Forall (fun i => i <> Some OutOfFuel) l.

(** The step at the bottom. *)
Fixpoint root (p : stack) : timetype :=
  match p with
  | Stepping _ inc => inc
  | Parsed (UIIterator i) | Parsed (UIUntil i _) => increment i
  | Parsed (UITimes t) => increment (inner t)
  | EveryOf p _ | WithoutOf p _ | UntilOf p _ | TimesOf p _ => root p
  end.
