(** What the command line program prints, from what texts are worth. *)
Require Import ZArith Bool List String.
From Verif Require Import Prelude Spec Chrono TimeType Iter SpecTree SpecMoment SpecIter SpecAdapt SpecValue Nom ParserTimetype ParserIterator ParserMod SpecText SpecDoc SpecLong SpecValue2 Show Cli SpecCli.
Import ListNotations.
Local Open Scope string_scope.
Local Open Scope Z_scope.

(** Which date an out-of-bounds error names is left open. *)
Definition some_date : kek := OutOfBounds 0 0 0 0 0 0.
Definition blur_error (e : kek) : kek := match e with OutOfBounds _ _ _ _ _ _ => some_date | _ => e end.
Definition blur (x : line) : line :=
  match x with
  | ParseError e => ParseError (blur_error e)
  | CalcError e => CalcError (blur_error e)
  | BuildError e => BuildError (blur_error e)
  | _ => x
  end.
Definition blurred (o : list line * ending) : list line * ending := (map blur (fst o), snd o).

Inductive shown := Printed (s : string) | Failed (e : kek) | Crashed.
Definition show_worth (w : worth) : shown :=
  match w with
  | Amounts u n => Printed (show_int n ++ " " ++ word u)
  | Time m => Printed (show_moment m ++ " ")
  | Outside => Failed some_date
  | Unsummed a b => Failed (CannotAdd a b)
  | Overflow => Crashed
  end.

(** A date that is outside the calendar itself is an error of the parser, other errors are errors of the evaluation. *)
Definition text_shown (now : datetime) (p : ptimetype) : list line * ending :=
  if match p with PTDate (Date x _) => negb (starts_in x) | _ => false end then ([ParseError some_date], Exits 0)
  else match show_worth (text_worth now p) with
       | Printed s => ([Value s], Exits 0)
       | Failed e => ([CalcError e], Exits 0)
       | Crashed => ([], Panics PArith)
       end.

(** The first [n] items from number [k] on; no item where the iteration is over. *)
Fixpoint items_shown (n k : nat) (w : nat -> option worth) : list line * ending :=
  match n with
  | O => ([], Running)
  | S n' =>
      match option_map show_worth (w k) with
      | None => ([], Exits 0)
      | Some (Printed s) => (Value s :: fst (items_shown n' (S k) w), snd (items_shown n' (S k) w))
      | Some (Failed e) => ([CalcError e], Exits 1)
      | Some Crashed => ([], Panics PArith)
      end
  end.
Definition sooner (a b : datetime) : bool := (inst a <? inst b) || (inst a =? inst b) && (nano a <? nano b).
(** A start or an end of an iteration: a moment, or the program stops. *)
Definition from_date (w : worth) (f : datetime -> list line * ending) : list line * ending :=
  match w with
  | Time m => f m
  | _ => match show_worth w with Failed e => ([BuildError e], Exits 0) | _ => ([], Panics PArith) end
  end.
Definition iterator_shown (now1 now2 : datetime) (n : nat) (it : piterator) : list line * ending :=
  let 'Iterator d sp u := it in
  let item m k := item_worth m (step_unit sp) (step_count sp) k in
  if in_i64 (step_count sp) then
    from_date (text_worth now1 (PTDate d)) (fun m =>
      match u with
      | None => items_shown n 0 (fun k => Some (item m k))
      | Some (UTimes c) => items_shown n 0 (fun k => if Z.of_nat k <? c then Some (item m k) else None)
      | Some (UExact e) =>
          from_date (exact_worth now2 e) (fun en =>
            items_shown n 0 (fun k => match item m k with Time t => if sooner t en then Some (Time t) else None | w => Some w end))
      end)
  else ([], Panics PArith).

(** The output for a reading, up to the first [n] items of an iterator. *)
Definition program (now1 now2 : datetime) (n : nat) (x : reading) : list line * ending :=
  match x with AsTimeType p => text_shown now1 p | AsIterator it => iterator_shown now1 now2 n it end.
