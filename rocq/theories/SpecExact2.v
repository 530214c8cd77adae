(** Further exact conditions (statements of Props_Exact2.v). *)
Require Import ZArith Bool List String.
From Verif Require Import Prelude Spec Chrono TimeType SpecTree SpecMoment SpecAdapt Nom ParserTimetype ParserIterator SpecText.
Local Open Scope Z_scope.

(** [m] has at least [n] of the unit to give without touching a coarser field, and the date arrived at exists. Of the year the last 32 bits count. *)
Definition mirrors (u : tunit) (n : Z) (m : datetime) : Prop :=
  match u with
  | UYear => let Y := wrap32 (year m - n) in min_year <= Y <= max_year /\ (month m = 2 -> day m = 29 -> leap Y = true)
  | UMonth => n < month m /\ day m <= month_length (year m) (month m - n)
  | UDay => n < day m
  | _ => n <= field u m
  end.

(** The amounts read with the wrong sign: those with an odd number of minus signs before their own operator, with the sign they are written with. *)
Fixpoint misread (odd : bool) (op : operator) (e : amountexpr) : Z :=
  match e with
  | AELast a => if odd then apply_op op 0 (amount_secs a) else 0
  | AENext a op' e' =>
      (if odd then apply_op op 0 (amount_secs a) else 0) + misread (xorb odd (match op with Plus => false | Minus => true end)) op' e'
  end.

(** Stepping from [m] by [n] clock units meets a moment that is not before [ending] and can be represented. *)
Definition reaches (u : tunit) (n : Z) (m ending : datetime) : Prop :=
  ~ before m ending \/
  exists k, 1 <= k /\ inst ending + (if 0 <? nano ending then 1 else 0) <= inst m + k * n * unit_secs u < instant (max_year + 1) 1 1 0 0 0.
