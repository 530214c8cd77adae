(** What the command line program prints, exactly, in builds with and without overflow checks. *)
Require Import ZArith Bool List String.
From Verif Require Import Prelude Spec Chrono TimeType Iter SpecTree SpecMoment SpecWide SpecValue SpecAnswer Nom ParserTimetype ParserIterator ParserMod SpecText SpecDoc SpecValue2 Show Cli SpecCli SpecProgram.
Import ListNotations.
Local Open Scope string_scope.
Local Open Scope Z_scope.

(** A number of units in a text; weeks are days. *)
Definition counted_units (md : mode) (u : tunit) (n : Z) : result := within md n (fun n => Ok (mk u n)).
(** The expression an amount text stands for. *)
Fixpoint expr_meant (md : mode) (e : amountexpr) : result :=
  match e with
  | AELast a => counted_units md (amount_unit a) (amount_count a)
  | AENext a op e' => do x <- counted_units md (amount_unit a) (amount_count a); do y <- expr_meant md e'; Ok (date_op op x y)
  end.
(** A date and time of the calendar, or an error that names it. *)
Definition calendar (y mo d h mi s : Z) : result :=
  if representable y mo d && (h <? 24) && (mi <? 60) && (s <? 60) then Ok (Moment (mkdt y mo d h mi s 0)) else Err (OutOfBounds y mo d h mi s).
Definition clock_added (t : isotime) (x : timetype) : timetype :=
  Addition (Addition (Addition x (Hours (t_hour t))) (Minutes (t_minute t))) (Seconds (t_second t)).
(** The expression a date stands for. *)
Definition day_meant (d : isodate) (h mi s : Z) : result :=
  match d with
  | YMD y mo dd => calendar y mo dd h mi s
  | Week y ww dd => do m <- calendar y 1 1 0 0 0; Ok (Addition (Addition m (Days (7 * ww))) (Days dd))
  | Ordinal y ddd => do m <- calendar y 1 1 0 0 0; Ok (Addition m (Days ddd))
  end.
Definition exact_meant (now : datetime) (x : exactdate) : result :=
  match x with
  | Today => Ok (Moment now)
  | Tomorrow => Ok (Addition (Moment now) (Days 1))
  | Yesterday => Ok (Subtraction (Moment now) (Days 1))
  | Iso8601Date d => day_meant d 0 0 0
  | Iso8601DateTime d t =>
      match d with
      | YMD _ _ _ => day_meant d (t_hour t) (t_minute t) (t_second t)
      | _ => do x <- day_meant d 0 0 0; Ok (clock_added t x)
      end
  end.
Definition date_meant (md : mode) (now : datetime) (d : pdate) : result :=
  let 'Date x o := d in
  do b <- exact_meant now x;
  match o with Some (op, e) => do y <- expr_meant md e; Ok (date_op op b y) | None => Ok b end.
Definition text_meant (md : mode) (now : datetime) (p : ptimetype) : result :=
  match p with PTDate d => date_meant md now d | PTAmountExpr e => expr_meant md e end.

Definition value_line (v : timetype) : line :=
  match v with
  | Moment m => Value (show_moment m ++ " ")
  | _ => Value (show_int (secs v / unit_secs (finest v)) ++ " " ++ word (finest v))
  end.
(** Errors of the dates in a text are errors of the parser, others are errors of the evaluation. *)
Definition text_output (md : mode) (now : datetime) (p : ptimetype) : list line * ending :=
  match text_meant md now p with
  | Ok t =>
      match answer md t with
      | Ok v => ([value_line v], Exits 0)
      | Err e => ([CalcError e], Exits 0)
      | _ => ([], Panics PArith)
      end
  | Err e => ([ParseError e], Exits 0)
  | _ => ([], Panics PArith)
  end.

(** The first [n] items from number [k] on. *)
Fixpoint listing (n k : nat) (w : nat -> option result) : list line * ending :=
  match n with
  | O => ([], Running)
  | S n' =>
      match w k with
      | None => ([], Exits 0)
      | Some (Ok v) => (value_line v :: fst (listing n' (S k) w), snd (listing n' (S k) w))
      | Some (Err e) => ([CalcError e], Exits 1)
      | Some _ => ([], Panics PArith)
      end
  end.
(** Item number [k]: the step [inc] added [k] times. *)
Definition item_answer (md : mode) (m : datetime) (inc : timetype) (k : nat) : result := Nat.iter k (fun r => do v <- r; plus_values md v inc) (Ok (Moment m)).
(** A start or an end of an iteration. *)
Definition with_moment (r : result) (f : datetime -> list line * ending) : list line * ending :=
  match r with
  | Ok (Moment m) => f m
  | Ok _ => ([BuildError NotADateInsideIterator], Exits 0)
  | Err e => ([BuildError e], Exits 0)
  | _ => ([], Panics PArith)
  end.
Definition iterator_output (md : mode) (now1 now2 : datetime) (n : nat) (it : piterator) : list line * ending :=
  let 'Iterator d sp u := it in
  match counted_units md (step_unit sp) (step_count sp) with
  | Ok inc =>
      with_moment (do t <- date_meant md now1 d; answer md t) (fun m =>
        let item := item_answer md m inc in
        match u with
        | None => listing n 0 (fun k => Some (item k))
        | Some (UTimes c) => listing n 0 (fun k => if Z.of_nat k <? c then Some (item k) else None)
        | Some (UExact e) =>
            with_moment (do t <- exact_meant now2 e; answer md t) (fun en =>
              listing n 0 (fun k => match item k with Ok (Moment t) => if sooner t en then Some (item k) else None | r => Some r end))
        end)
  | _ => ([], Panics PArith)
  end.

(** The output for a reading, up to the first [n] items of an iterator. *)
Definition exact_program (md : mode) (now1 now2 : datetime) (n : nat) (x : reading) : list line * ending :=
  match x with AsTimeType p => text_output md now1 p | AsIterator it => iterator_output md now1 now2 n it end.
