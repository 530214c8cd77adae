(** What a text is worth. *)
Require Import ZArith Bool List String.
From Verif Require Import Prelude Spec Chrono TimeType Iter SpecTree SpecMoment SpecIter SpecAdapt SpecWide SpecValue Nom ParserTimetype ParserIterator ParserMod SpecText SpecDoc.
Local Open Scope Z_scope.

Definition later (w : worth) (u : tunit) (n : Z) : worth := on_worth plus w (Amounts u n).
(** Midnight of a day; weeks and days of the year are counted from 1 January. *)
Definition day_worth (d : isodate) : worth :=
  match d with
  | YMD y mo dd => date_at (y, mo, dd) 0
  | Week y ww dd => later (later (date_at (y, 1, 1) 0) UDay (7 * ww)) UDay dd
  | Ordinal y ddd => later (date_at (y, 1, 1) 0) UDay ddd
  end.
Definition exact_worth (now : datetime) (x : exactdate) : worth :=
  match x with
  | Today => Time now
  | Tomorrow => plus now UDay 1
  | Yesterday => minus now UDay 1
  | Iso8601Date d => day_worth d
  | Iso8601DateTime (YMD y mo d) t =>
      if (t_hour t <? 24) && (t_minute t <? 60) && (t_second t <? 60) then date_at (y, mo, d) (clock_secs t) else Outside
  | Iso8601DateTime d t => later (later (later (day_worth d) UHour (t_hour t)) UMin (t_minute t)) USec (t_second t)
  end.
(** The date itself is in the calendar; days, weeks and times of day are counted from it when it is evaluated. *)
Definition starts_in (x : exactdate) : bool :=
  match x with
  | Iso8601Date (YMD y mo d) => representable y mo d
  | Iso8601DateTime (YMD y mo d) t => representable y mo d && ((t_hour t <? 24) && (t_minute t <? 60) && (t_second t <? 60))
  | Iso8601Date (Week y _ _) | Iso8601Date (Ordinal y _) | Iso8601DateTime (Week y _ _) _ | Iso8601DateTime (Ordinal y _) _ => representable y 1 1
  | _ => true
  end.
Definition counted (x : exactdate) : bool :=
  match x with
  | Tomorrow | Iso8601Date (Week _ _ _) | Iso8601Date (Ordinal _ _) | Iso8601DateTime (Week _ _ _) _ | Iso8601DateTime (Ordinal _ _) _ => true
  | _ => false
  end.

(** An amount expression, grouped from the right; weeks are days. *)
Definition amount_count (a : amount) : Z := let 'Amount n u := a in match u with PWeek => 7 * n | _ => n end.
Definition amount_tree (a : amount) : timetype := mk (amount_unit a) (amount_count a).
Fixpoint expr_tree (e : amountexpr) : timetype :=
  match e with
  | AELast a => amount_tree a
  | AENext a Plus e' => Addition (amount_tree a) (expr_tree e')
  | AENext a Minus e' => Subtraction (amount_tree a) (expr_tree e')
  end.
(** The amounts of the text fit, in days where they are weeks. *)
Fixpoint numbers_fit (e : amountexpr) : bool :=
  match e with AELast a => in_i64 (amount_count a) | AENext a _ e' => in_i64 (amount_count a) && numbers_fit e' end.
Definition first_op (e : amountexpr) : option operator := match e with AELast _ => None | AENext _ op _ => Some op end.
(** An amount expression as a number of its finest unit. *)
Definition expr_count (e : amountexpr) : Z := right_value e / unit_secs (expr_unit e).

(** Nothing can be added to `yesterday`; what was to be added is evaluated only if it is a sum. *)
Definition after_yesterday (now : datetime) (e : amountexpr) : worth :=
  match minus now UDay 1 with
  | Time m =>
      match first_op e with
      | Some Plus => match value (expr_tree e) with Amounts u n => Unsummed (mk u n) (Moment m) | w => w end
      | _ => Unsummed (expr_tree e) (Moment m)
      end
  | w => match first_op e, value (expr_tree e) with Some Plus, Overflow => Overflow | _, _ => w end
  end.
(** A date and an amount; a date outside the calendar is noticed first, then numbers that do not fit, then dates and amounts from left to right -
    except that a difference is evaluated before the sum it is subtracted from. *)
Definition sum_worth (now : datetime) (x : exactdate) (op : operator) (e : amountexpr) : worth :=
  if negb (starts_in x) then Outside
  else if negb (numbers_fit e) then Overflow
  else match op with
       | Plus => match x with Yesterday => after_yesterday now e | _ => on_worth plus (exact_worth now x) (value (expr_tree e)) end
       | Minus =>
           match counted x, first_op e, value (expr_tree e) with
           | true, Some Minus, Overflow => Overflow
           | _, _, w => on_worth minus (exact_worth now x) w
           end
       end.
Definition text_worth (now : datetime) (p : ptimetype) : worth :=
  match p with
  | PTAmountExpr e => value (expr_tree e)
  | PTDate (Date x None) => exact_worth now x
  | PTDate (Date x (Some (op, e))) => sum_worth now x op e
  end.
(** The result of a text that is not an iterator: parsed, and evaluated. *)
Definition text_result (md : mode) (p : outcome kek parsed) : result :=
  do x <- p; match x with PTimeType t => calculate md t | _ => Err UnknownError end.
(** Item number [k] of an iteration. *)
Definition item_worth (m : datetime) (u : tunit) (n : Z) (k : nat) : worth := Nat.iter k (fun w => later w u n) (Time m).
(** An item that is worth [w]; builds without overflow checks may give anything for an overflow. *)
Definition item_is (md : mode) (x : option result) (w : worth) : Prop :=
  (md = Wrapping /\ w = Overflow) \/ exists r, x = Some r /\ worth_result w r.
(** A date of an iterator text is worth [w]: the text is an error if it is outside the calendar, and [good] otherwise. *)
Definition with_date (md : mode) (w : worth) (o : outcome kek parsed) (good : datetime -> Prop) : Prop :=
  match w with
  | Time m => good m
  | Outside => exists y mo d h mi s, o = Ok (PIterator (Err (OutOfBounds y mo d h mi s)))
  | Overflow => md = Wrapping \/ o = Panic PArith
  | Unsummed a b => o = Ok (PIterator (Err (CannotAdd a b)))
  | Amounts _ _ => False
  end.
(** What an iterator text gives. *)
Definition iteration_is (md : mode) (now1 now2 : datetime) (it : piterator) (o : outcome kek parsed) : Prop :=
  let 'Iterator d sp u := it in
  let item m k := item_worth m (step_unit sp) (step_count sp) k in
  let gives (P : nat -> option result -> Prop) := exists ui, o = Ok (PIterator (Ok ui)) /\ forall k, P k (nth_item (user_next md) k ui) in
  if in_i64 (step_count sp) then
    with_date md (text_worth now1 (PTDate d)) o (fun m =>
      match u with
      | None => gives (fun k x => item_is md x (item m k))
      | Some (UTimes n) => gives (fun k x => if Z.of_nat k <? n then item_is md x (item m k) else x = None)
      | Some (UExact e) =>
          with_date md (exact_worth now2 e) o (fun ending =>
            gives (fun k x =>
              match item m k with
              | Time t => (before t ending -> x = Some (Ok (Moment t))) /\ (~ before t ending -> x = None)
              | w => item_is md x w
              end))
      end)
  else md = Wrapping \/ o = Panic PArith.
