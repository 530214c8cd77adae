(** Expressions as a client program of the library builds them, by calls of its public functions. *)
Require Import ZArith Bool List.
From Verif Require Import Prelude Spec Chrono TimeType SpecTree SpecMoment.
Local Open Scope Z_scope.

(** The calls (specification): an amount, an amount in weeks, a moment, `+` or `+=`, `-` or `-=`, and the end of a period. *)
Inductive asked :=
| Units (u : tunit) (n : Z) | InWeeks (n : Z) | At (m : datetime)
| Sum (assign : bool) (a b : asked) | Difference (assign : bool) (a b : asked) | EndOf (k : period) (a : asked).

(** What the calls return (the public functions of /repo/src/timetype.rs 42-68 and 134-226). *)
Fixpoint ask (md : mode) (a : asked) : result :=
  match a with
  | Units u n => Ok (match u with USec => seconds n | UMin => minutes n | UHour => hours n | UDay => days n | UMonth => months n | UYear => years n end)
  | InWeeks n => weeks md n
  | At m => Ok (moment m)
  | Sum assign a b => do x <- ask md a; do y <- ask md b; Ok (if assign then op_add_assign x y else op_add x y)
  | Difference assign a b => do x <- ask md a; do y <- ask md b; Ok (if assign then op_sub_assign x y else op_sub x y)
  | EndOf k a =>
      do x <- ask md a;
      Ok (match k with
          | PYear => mk_end_of_year x | PMonth => mk_end_of_month x | PDay => mk_end_of_day x
          | PHour => mk_end_of_hour x | PMinute => mk_end_of_minute x
          end)
  end.

(** The same expressions, without any calls; a week is seven days. *)
Fixpoint written (a : asked) : timetype :=
  match a with
  | Units u n => mk u n
  | InWeeks n => Days (7 * n)
  | At m => Moment m
  | Sum _ a b => Addition (written a) (written b)
  | Difference _ a b => Subtraction (written a) (written b)
  | EndOf k a => end_of k (written a)
  end.
(** Arguments that Rust can pass; weeks that fit 64 bits in days. *)
Fixpoint asked_ok (a : asked) : bool :=
  match a with
  | Units _ n | InWeeks n => in_i64 n
  | At m => dt_valid m
  | Sum _ a b | Difference _ a b => asked_ok a && asked_ok b
  | EndOf _ a => asked_ok a
  end.
Fixpoint weeks_fit (a : asked) : bool :=
  match a with
  | InWeeks n => in_i64 (7 * n)
  | Sum _ a b | Difference _ a b => weeks_fit a && weeks_fit b
  | EndOf _ a => weeks_fit a
  | _ => true
  end.
(** The last call. *)
Inductive sort := AnAmount | AMoment | ASum | ADifference | AnEnd.
Definition sort_of (a : asked) : sort :=
  match a with
  | Units _ _ | InWeeks _ => AnAmount | At _ => AMoment | Sum _ _ _ => ASum | Difference _ _ _ => ADifference | EndOf _ _ => AnEnd
  end.
