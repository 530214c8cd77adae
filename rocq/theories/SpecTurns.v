(** How often the bodies of the loops of src/util.rs 22-30 are executed during a whole evaluation. *)
Require Import ZArith Bool List.
From Verif Require Import Prelude Spec Chrono Util TimeType SpecMoment SpecCalls.
Import ListNotations.
Local Open Scope Z_scope.

(** A `while` loop with condition [c] and body [f], started in a state, executes its body [k] times and ends in another. *)
Inductive runs {E S} (c : S -> bool) (f : S -> outcome E S) : S -> nat -> S -> Prop :=
| runs_stop : forall s, c s = false -> runs c f s 0 s
| runs_step : forall s s' k s'', c s = true -> f s = Ok s' -> runs c f s' k s'' -> runs c f s (Datatypes.S k) s''.

Section Turns.
Variable md : mode.

(** The loops of src/util.rs 22-25 and 27-30. *)
Definition long_month (y : Z) (st : Z * Z) : bool := let '(d, mo) := st in get_num_of_days_in_month y mo <? d.
Definition next_month (y : Z) (st : Z * Z) : outcome kek (Z * Z) :=
  let '(d, mo) := st in
  do d' <- subc md (Ok d) (Ok (get_num_of_days_in_month y mo)); do mo' <- addc md (Ok mo) (Ok 1); Ok (d', mo').
Definition late_month (st : Z * Z) : bool := let '(y, mo) := st in 12 <? mo.
Definition next_year (st : Z * Z) : outcome kek (Z * Z) :=
  let '(y, mo) := st in do y' <- addc md (Ok y) (Ok 1); do mo' <- subc md (Ok mo) (Ok 12); Ok (y', mo').

(** What src/util.rs 18-20 does before: hours, minutes and seconds, and the days they make. *)
Definition carried (d h mi s : Z) : outcome kek (Z * Z * Z * Z) :=
  do (mi, s) <- fix_carry md s 60 mi; do (h, mi) <- fix_carry md mi 60 h; do (d, h) <- fix_carry md h 24 d; Ok (d, h, mi, s).

(** `adjust_times_add` executes the bodies of its two loops [k] times altogether. If the fields before the loops overflow, none. *)
Definition adjust_turns (y mo d h mi s : Z) (k : nat) : Prop :=
  match carried d h mi s with
  | Ok (d, _, _, _) => exists k1 d' mo' k2 e, runs (long_month y) (next_month y) (d, mo) k1 (d', mo') /\
      runs late_month next_year (y, mo') k2 e /\ k = (k1 + k2)%nat
  | _ => k = 0%nat
  end.
Definition given (x : outcome kek Z) (P : Z -> nat -> Prop) (k : nat) : Prop := match x with Ok v => P v k | _ => k = 0%nat end.

(** A call of a function of src/timetype.rs executes loop bodies [k] times, not counting what the calls it makes execute: only
    `add_to_moment` (790-899) has loops. *)
Definition call_turns (c : call) (k : nat) : Prop :=
  match c with
  | CAddToMoment m (Seconds a) => given (addc md (Ok (second m)) (Ok a)) (fun s => adjust_turns (year m) (month m) (day m) (hour m) (minute m) s) k
  | CAddToMoment m (Minutes a) => given (addc md (Ok (minute m)) (Ok a)) (fun mi => adjust_turns (year m) (month m) (day m) (hour m) mi (second m)) k
  | CAddToMoment m (Hours a) => given (addc md (Ok (hour m)) (Ok a)) (fun h => adjust_turns (year m) (month m) (day m) h (minute m) (second m)) k
  | CAddToMoment m (Days a) => given (addc md (Ok (day m)) (Ok a)) (fun d => adjust_turns (year m) (month m) d (hour m) (minute m) (second m)) k
  | CAddToMoment m (Months a) => given (addc md (Ok (month m)) (Ok a)) (fun mo => adjust_turns (year m) mo (day m) (hour m) (minute m) (second m)) k
  | CAddToMoment m (Years a) => given (addc md (Ok (year m)) (Ok a)) (fun y => adjust_turns y (month m) (day m) (hour m) (minute m) (second m)) k
  | _ => k = 0%nat
  end.

(** The calls of an evaluation, at most [n] deep, and all their loop turns. *)
Fixpoint all_calls (n : nat) (c : call) : list call :=
  match n with O => [] | Datatypes.S n' => c :: flat_map (all_calls n') (subcalls (run md n') c) end.
Definition total_turns (n : nat) (c : call) (k : nat) : Prop := exists ks, Forall2 call_turns (all_calls n c) ks /\ k = list_sum ks.
End Turns.

(** How many there are when [n] units are added to [m]: with seconds to days, one for each month passed and one for each year,
    where the months after the first December have 30 days. *)
Definition turns_expected (m : datetime) (u : tunit) (n k : Z) : Prop :=
  match u with
  | UYear => k = if (month m =? 2) && (day m =? 29) && negb (leap (wrap32 (year m + n))) then 1 else 0
  | UMonth => let M := month m + n in
      let j := if (if M <=? 12 then month_length (year m) M else 30) <? day m then 1 else 0 in k = j + (M + j - 1) / 12
  | _ => let K := days_before (year m) (month m) + day m + (sod m + n * unit_secs u) / 86400 in
      (K <= year_length (year m) -> 0 <= k <= 12 - month m /\ days_before (year m) (month m + k) < K <= days_before (year m) (month m + k + 1)) /\
      (year_length (year m) < K -> let e := K - year_length (year m) - 1 in k = 13 - month m + e / 30 + (1 + e / 360))
  end.
