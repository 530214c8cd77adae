(** What an expression is worth: a reference evaluator, written from the closed forms of the calendar operations, without loops, carries or casts. *)
Require Import ZArith Bool List.
From Verif Require Import Prelude Spec Chrono TimeType SpecTree SpecMoment SpecSeq SpecOver SpecWide.
Local Open Scope Z_scope.

(** An amount, a moment, a date outside the calendar, a number outside 64 bits, or two things that cannot be added. *)
Inductive worth := Amounts (u : tunit) (n : Z) | Time (m : datetime) | Outside | Overflow | Unsummed (a b : timetype).

(** The moment at second [r] of day [y]-[mo]-[d]. *)
Definition date_at (ymd : Z * Z * Z) (r : Z) : worth :=
  let '(y, mo, d) := ymd in if representable y mo d then Time (at_time y mo d r) else Outside.

(** Month and day of day [K] of the months of year [y] from month [mo] on, the next [k] months being tried. *)
Fixpoint month_day (k : nat) (y mo K : Z) : Z * Z :=
  match k with
  | O => (mo, K)
  | S k => if K <=? month_length y mo then (mo, K) else month_day k y (mo + 1) (K - month_length y mo)
  end.

(** Day [K] of year [y]; years after it are 360 days long. *)
Definition day_of_year (y K : Z) : Z * Z * Z :=
  if K <=? year_length y then let '(mo, d) := month_day 11 y 1 K in (y, mo, d)
  else let e := K - year_length y - 1 in (wrap32 (y + 1 + e / 360), e mod 360 / 30 + 1, e mod 30 + 1).

(** [n] units after [m]. *)
Definition plus (m : datetime) (u : tunit) (n : Z) : worth :=
  if negb (add_fits u m n) then Overflow else
  match u with
  | UYear => date_at (in_year (wrap32 (year m + n)) (month m) (day m)) (sod m)
  | UMonth =>
      let M := month m + n in
      if 1 <=? M then let '(Y, Mo, D) := plus_months (year m) (month m) (day m) n in date_at (wrap32 Y, Mo, D) (sod m)
      else if day m <=? 30 then date_at (year m, low32 M, day m) (sod m) else date_at (year m, low32 (M + 1), 1) (sod m)
  | _ =>
      let T := sod m + n * unit_secs u in
      if 0 <=? n then date_at (day_of_year (year m) (days_before (year m) (month m) + day m + T / 86400)) (T mod 86400)
      else if no_borrow u m T then date_at (year m, month m, low32 (day m + T / 86400)) (T mod 86400) else Outside
  end.

(** [n] units before [m], where no field comes round. *)
Definition back (m : datetime) (u : tunit) (n : Z) : worth :=
  let x := field u m - n in
  match u with
  | UYear => date_at (wrap32 x, month m, day m) (sod m)
  | UMonth =>
      if n <? 0 then date_at (year m, low32 x, day m) (sod m)
      else if 1 <=? x then date_at (year m, x, day m) (sod m)
      else if -11 <=? x then date_at (year m - 1, x + 12, day m) (sod m) else Outside
  | UDay =>
      if n <? 0 then date_at (year m, month m, low32 x) (sod m)
      else if -30 <=? x then date_at (back_day (year m) (month m) x) (sod m) else Outside
  | _ =>
      if n <? 0 then
        if low32 x <? modulus u then date_at (year m, month m, day m) (sod m + (low32 x - field u m) * unit_secs u) else Outside
      else if x <? - modulus u then Outside
      else let T := sod m - n * unit_secs u - (if x =? - modulus u then modulus u * unit_secs u else 0) in
           date_at (back_day (year m) (month m) (day m + T / 86400)) (T mod 86400)
  end.
(** [n] units before [m]. Whole periods change nothing where the rest borrows from the year, and nothing else is a date. *)
Definition minus (m : datetime) (u : tunit) (n : Z) : worth :=
  if negb (sub_fits u m n) then Overflow
  else match u with
       | UYear => back m u n
       | _ => if n <? period u then back m u n
              else match back m u (n mod period u) with
                   | Time t => if year t =? year m - 1 then Time t else Outside
                   | w => w
                   end
       end.

Definition on_worth (f : datetime -> tunit -> Z -> worth) (x y : worth) : worth :=
  match x with Time m => match y with Amounts u n => f m u n | _ => y end | _ => x end.
(** In a difference of a sum and a difference the right operand overflows first. *)
Definition right_first (a b : timetype) : bool :=
  match a, b with Addition _ _, Subtraction _ _ => true | _, _ => false end.

(** What an expression is worth; meant for expressions that are amounts or moments. *)
Fixpoint value (t : timetype) : worth :=
  if amount_only t then if fits t then Amounts (finest t) (secs t / unit_secs (finest t)) else Overflow else
  match t with
  | Moment m => Time m
  | Addition a b => on_worth plus (value a) (value b)
  | Subtraction a b =>
      match right_first a b, value b with true, Overflow => Overflow | _, _ => on_worth minus (value a) (value b) end
  | EndOfYear e => match value e with Time m => Time (end_at PYear m) | x => x end
  | EndOfMonth e => match value e with Time m => Time (end_at PMonth m) | x => x end
  | EndOfDay e => match value e with Time m => Time (end_at PDay m) | x => x end
  | EndOfHour e => match value e with Time m => Time (end_at PHour m) | x => x end
  | EndOfMinute e => match value e with Time m => Time (end_at PMinute m) | x => x end
  | _ => Outside
  end.

(** The result that stands for a worth. *)
Definition worth_result (w : worth) (r : result) : Prop :=
  match w with
  | Amounts u n => r = Ok (mk u n)
  | Time m => r = Ok (Moment m)
  | Outside => oob r
  | Overflow => r = Panic PArith
  | Unsummed a b => r = Err (CannotAdd a b)
  end.
