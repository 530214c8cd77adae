(** Spec for the order of two steps (C114): where a step leads. *)
Require Import ZArith Bool.
From Verif Require Import Prelude Spec Chrono TimeType SpecTree SpecMoment SpecExact SpecWide SpecOrder.
Local Open Scope Z_scope.

(** A step: so many units forward or backward. *)
Record move := mkmove { backward : bool; munit : tunit; mcount : Z }.
(** The expression that takes it from [m]. *)
Definition taking (m : datetime) (s : move) : timetype :=
  (if backward s then Subtraction else Addition) (Moment m) (mk (munit s) (mcount s)).
(** Counts for which [displacement] says where it leads. *)
Definition move_ok (s : move) : Prop :=
  -2147483648 <= mcount s /\
  (if backward s then mcount s < (if clock_unit (munit s) then period (munit s) else 2147483648)
   else mcount s * unit_secs (munit s) <= span32).

(** Months of a step of months or years. *)
Definition month_count (s : move) : Z :=
  (if backward s then -1 else 1) * (match munit s with UYear => 12 | _ => 1 end) * mcount s.
(** Day [d] of the month with index [i]. *)
Definition index_day (i d : Z) : Z := day_number (i / 12) (i mod 12 + 1) d.
(** Seconds from [m] to the moment reached. *)
Definition displacement (s : move) (m : datetime) : Z :=
  let u := munit s in let n := mcount s in
  if clock_unit u then
    if backward s then (if n <? 0 then - n * unit_secs u else given_back u n m - taken u n m)
    else (if n <? 0 then n * unit_secs u else n * unit_secs u + ahead u n m)
  else
    let c := if backward s then 0 else spill_any u n m in
    let i := month_index m + month_count s in
    86400 * ((if 0 <? c then index_day (i + 1) c else index_day i (day m)) - day_number (year m) (month m) (day m)).
