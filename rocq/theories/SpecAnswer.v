(** Everything `calculate` answers, in builds with and without overflow checks: values, errors with what they report, panics. *)
Require Import ZArith Bool List.
From Verif Require Import Prelude Spec Chrono TimeType SpecTree SpecMoment SpecOver SpecWide SpecValue.
Local Open Scope Z_scope.

(** A number that is used if it fits 64 bits; otherwise a panic, or the number that is left of it. *)
Definition within (md : mode) (z : Z) (f : Z -> result) : result :=
  if in_i64 z then f z else match md with Checked => Panic PArith | Wrapping => f (wrap64 z) end.

(** Year, month, day, hour, minute and second, of any size. *)
Definition numbers : Type := (Z * Z * Z * Z * Z * Z)%type.
Definition numbers_of (m : datetime) (u : tunit) (x : Z) : numbers :=
  match u with
  | USec => (year m, month m, day m, hour m, minute m, x)
  | UMin => (year m, month m, day m, hour m, x, second m)
  | UHour => (year m, month m, day m, x, minute m, second m)
  | UDay => (year m, month m, x, hour m, minute m, second m)
  | UMonth => (year m, x, day m, hour m, minute m, second m)
  | UYear => (x, month m, day m, hour m, minute m, second m)
  end.
(** The moment with the last 32 bits of these numbers, or the error that reports them, the hour in place of the day. *)
Definition dated (f : numbers) : result :=
  let '(y, mo, d, h, mi, s) := f in
  let '(y, mo, d, h, mi, s) := (wrap32 y, low32 mo, low32 d, low32 h, low32 mi, low32 s) in
  if representable y mo d && (h <? 24) && (mi <? 60) && (s <? 60) then Ok (Moment (mkdt y mo d h mi s 0))
  else Err (OutOfBounds y mo h h mi s).

(** Month and day of day [d] of a month; months after December have 30 days. *)
Definition carry_days (y mo d : Z) : Z * Z :=
  let '(mo, d) := if (1 <=? mo) && (mo <=? 12) then month_day (Z.to_nat (13 - mo)) y mo d else (mo, d) in
  if (1 <=? mo) && (mo <=? 12) then (mo, d) else (mo + (d - 1) / 30, (d - 1) mod 30 + 1).
(** Minutes, hours and days take over what is too much, rounded toward zero, then months, then years. *)
Definition carried (md : mode) (f : numbers) : result :=
  let '(y, mo, d, h, mi, s) := f in
  let mi := mi + Z.quot s 60 in
  let h := h + Z.quot mi 60 in
  let '(mo, d) := carry_days (wrap32 y) mo (d + Z.quot h 24) in
  within md mo (fun mo =>
    let '(y, mo) := if 12 <? mo then (y + (mo - 1) / 12, (mo - 1) mod 12 + 1) else (y, mo) in
    dated (y, mo, d, Z.rem h 24, Z.rem mi 60, Z.rem s 60)).
(** [n] units after [m]. *)
Definition forward (md : mode) (m : datetime) (u : tunit) (n : Z) : result :=
  within md (field u m + n) (fun x => carried md (numbers_of m u x)).

(** A number below its least value takes from the next one; the least 64-bit number is its own absolute value. *)
Definition lend (least size top next x : Z) : Z * Z :=
  if x <? least then let a := wrap64 (Z.abs x) in (next - (Z.quot a size + 1), top - a) else (next, x).
Definition lent (f : numbers) : numbers :=
  let '(y, mo, d, h, mi, s) := f in
  let '(mi, s) := lend 0 60 60 mi s in
  let '(h, mi) := lend 0 60 60 h mi in
  let '(d, h) := lend 0 24 24 d h in
  let '(mo, d) := lend 1 32 31 mo d in
  let '(y, mo) := lend 1 13 12 y mo in
  (y, mo, d, h, mi, s).
(** [n] units before [m]. *)
Definition backward (md : mode) (m : datetime) (u : tunit) (n : Z) : result :=
  within md (field u m - n) (fun x => dated (lent (numbers_of m u x))).

(** The sum of an amount expression, in its finest unit. *)
Definition amount_of (md : mode) (t : timetype) : result :=
  let n := secs t / unit_secs (finest t) in
  if fits t then Ok (mk (finest t) n) else match md with Checked => Panic PArith | Wrapping => Ok (mk (finest t) (wrap64 n)) end.
(** Sums and differences of values; moments are left operands only. *)
Definition plus_values (md : mode) (v w : timetype) : result :=
  match v, w with
  | _, Moment _ => Err (CannotAdd v w)
  | Moment m, _ => forward md m (finest w) (secs w / unit_secs (finest w))
  | _, _ => amount_of md (Addition v w)
  end.
Definition minus_values (md : mode) (v w : timetype) : result :=
  match v, w with
  | _, Moment _ => Err (CannotSub v w)
  | Moment m, _ => backward md m (finest w) (secs w / unit_secs (finest w))
  | _, _ => amount_of md (Subtraction v w)
  end.
Definition moment_or_else {A} (v : timetype) (x y : A) : A := match v with Moment _ => x | _ => y end.
(** The coarser of two ends is named last. *)
Definition coarse (t : timetype) : Z :=
  match t with EndOfYear _ => 4 | EndOfMonth _ => 3 | EndOfDay _ => 2 | EndOfHour _ => 1 | _ => 0 end.
Definition ends_named (err : timetype -> timetype -> kek) (a b : timetype) : kek :=
  if coarse b <=? coarse a then err b a else err a b.
Definition ended (k : SpecMoment.period) (r : result) : result :=
  do v <- r; match v with Moment m => Ok (Moment (end_at k m)) | _ => Err (end_error k v) end.

Definition is_moment_leaf (t : timetype) : bool := match t with Moment _ => true | _ => false end.
Definition is_sum (t : timetype) : bool := match t with Addition _ _ => true | _ => false end.

(** The answer for an expression. Operands are evaluated from left to right, except that a sum is evaluated before it is added to a
    difference or to an end, and a difference before it is subtracted from a sum or an end. Ends and moments stay as they are where they cannot be operands. *)
Fixpoint answer (md : mode) (t : timetype) : result :=
  match t with
  | Addition a b =>
      if is_moment_leaf b then Err (CannotAdd a b)
      else if is_diff a then
        if is_sum b then do w <- answer md b; moment_or_else w (Err (CannotAdd a w)) (do v <- answer md a; plus_values md w v)
        else
          do v <- answer md a;
          moment_or_else v (Err (CannotAdd b v)) (if is_end b then Err (CannotAdd v b) else do w <- answer md b; plus_values md v w)
      else if is_end a then
        match b with
        | Addition _ _ => do w <- answer md b; Err (moment_or_else w (CannotAdd a w) (CannotAdd w a))
        | Subtraction c _ => do w <- answer md c; Err (moment_or_else w (CannotAdd a w) (CannotAdd w a))
        | _ => Err (if is_end b then ends_named CannotAdd a b else CannotAdd b a)
        end
      else do v <- answer md a; if is_end b then Err (CannotAdd v b) else do w <- answer md b; plus_values md v w
  | Subtraction a b =>
      if is_sum a && is_diff b then do w <- answer md b; do v <- answer md a; minus_values md v w
      else if is_end a then
        match b with
        | Subtraction _ _ => do w <- answer md b; Err (CannotSub w a)
        | Addition c _ => do w <- answer md c; Err (CannotSub w a)
        | _ => Err (if is_end b then ends_named CannotSub a b else CannotSub b a)
        end
      else do v <- answer md a; if is_end b then Err (CannotSub v b) else do w <- answer md b; minus_values md v w
  | EndOfYear e => ended PYear (answer md e)
  | EndOfMonth e => ended PMonth (answer md e)
  | EndOfDay e => ended PDay (answer md e)
  | EndOfHour e => ended PHour (answer md e)
  | EndOfMinute e => ended PMinute (answer md e)
  | _ => Ok t
  end.

(** Iterators: after an error the step stays on the expression that failed, and is added again. *)
Definition held (md : mode) (inc t : timetype) : timetype := match answer md (Addition t inc) with Ok v => v | _ => Addition t inc end.
Definition call_answer (md : mode) (m : datetime) (inc : timetype) (k : nat) : result :=
  match k with O => Ok (Moment m) | S k' => answer md (Addition (Nat.iter k' (held md inc) (Moment m)) inc) end.
