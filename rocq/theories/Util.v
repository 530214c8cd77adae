(** Model of /repo/src/util.rs (lines 1-85; the rest of the file is tests). *)
Require Import ZArith Bool.
From Verif Require Import Prelude.
Local Open Scope Z_scope.

(** src/util.rs 82-85 `is_leap_year(y: i32)`; `%` truncates. *)
Definition is_leap_year (y : Z) : bool :=
  (Z.rem y 4 =? 0) && (negb (Z.rem y 100 =? 0) || (Z.rem y 400 =? 0)).

(** src/util.rs 67-80 `get_num_of_days_in_month(y: i64, m: i64)`, including `y as i32` (72). *)
Definition get_num_of_days_in_month (y m : Z) : Z :=
  if (m =? 1) || (m =? 3) || (m =? 5) || (m =? 7) || (m =? 8) || (m =? 10) || (m =? 12)
  then 31
  else if m =? 2
       then if is_leap_year (as_i32 y) then 29 else 28
       else 30.

(** The six fields threaded through the functions: y, mo, d, h, mi, s (src/util.rs 2-3, 36-37). *)
Definition fields : Type := (Z * Z * Z * Z * Z * Z)%type.

Section Util.
Context {E : Type}.
Variable md : mode.
(** Notation for i64 literals and operators, as in [Prelude] (e.g. src/util.rs 13-14, 40). *)
Local Notation "# a" := (@Ok E Z a) (at level 9, a at level 8).
Local Notation "a +! b" := (addc md a b) (at level 50, left associativity).
Local Notation "a -! b" := (subc md a b) (at level 50, left associativity).
Local Notation "a /! k" := (divc a k) (at level 40, left associativity).
Local Notation "a %! k" := (remc a k) (at level 40, left associativity).

(** src/util.rs 7-16, macro `fix!`: returns the new (next, base). *)
Definition fix_carry (base border next : Z) : outcome E (Z * Z) :=
  do next' <- #next +! ((#base -! (#base %! border)) /! border);
  do base' <- #base %! border;
  Ok (next', base').

(** src/util.rs 22-25, loop `while d > days(y, mo) { d -= days(y, mo); mo += 1 }`. State (d, mo). *)
Definition month_loop (y d mo : Z) : outcome E (Z * Z) :=
  while (fun st : Z * Z => let '(d, mo) := st in get_num_of_days_in_month y mo <? d)
        (fun st : Z * Z => let '(d, mo) := st in
           do d' <- #d -! #(get_num_of_days_in_month y mo);
           do mo' <- #mo +! #1;
           Ok (d', mo'))
        (d, mo).

(** src/util.rs 27-30, loop `while mo > 12 { y += 1; mo -= 12 }`. State (y, mo). *)
Definition year_loop (y mo : Z) : outcome E (Z * Z) :=
  while (fun st : Z * Z => let '(y, mo) := st in 12 <? mo)
        (fun st : Z * Z => let '(y, mo) := st in
           do y' <- #y +! #1;
           do mo' <- #mo -! #12;
           Ok (y', mo'))
        (y, mo).

(** src/util.rs 1-33 `adjust_times_add`. *)
Definition adjust_times_add (y mo d h mi s : Z) : outcome E fields :=
  do (mi, s) <- fix_carry s 60 mi;
  do (h, mi) <- fix_carry mi 60 h;
  do (d, h) <- fix_carry h 24 d;
  do (d, mo) <- month_loop y d mo;
  do (y, mo) <- year_loop y mo;
  Ok (y, mo, d, h, mi, s).

(** The repeated `if` of src/util.rs 39-62: when `base < limit`, the next field loses
    `|base| / div + 1` and `base` becomes `top - |0 - base|`. The five instances of
    the source differ only in these three numbers. *)
Definition borrow (limit div top next base : Z) : outcome E (Z * Z) :=
  if base <? limit then
    do next' <- #next -! ((absc md #base /! div) +! #1);
    do base' <- #top -! absc md (#0 -! #base);
    Ok (next', base')
  else Ok (next, base).

(** src/util.rs 35-65 `adjust_times_sub`. *)
Definition adjust_times_sub (y mo d h mi s : Z) : outcome E fields :=
  do (mi, s) <- borrow 0 60 60 mi s;
  do (h, mi) <- borrow 0 60 60 h mi;
  do (d, h) <- borrow 0 24 24 d h;
  do (mo, d) <- borrow 1 32 31 mo d;
  do (y, mo) <- borrow 1 13 12 y mo;
  Ok (y, mo, d, h, mi, s).
End Util.
