(** Spec for moments to which adding one amount gives the same moment, and for the moments it gives at all (C118). *)
Require Import ZArith Bool.
From Verif Require Import Prelude Spec Chrono TimeType SpecTree SpecMoment SpecExact SpecOrder.
Local Open Scope Z_scope.

(** Days by which a month begins later than if all months before had 30 days. *)
Definition drift (y mo : Z) : Z := days_before y mo - 30 * (mo - 1).

(** For [a] before [b]: [a] and [b] plus [n] units are the same moment [x]. *)
Definition meet (u : tunit) (n : Z) (a b x : datetime) : Prop :=
  match u with
  | UYear => year a = year b /\ month a = 2 /\ day a = 29 /\ month b = 3 /\ day b = 1 /\ sod a = sod b /\ leap (year a + n) = false
  | UMonth => month_index b = month_index a + 1 /\ 0 < spill UMonth n a /\ day b = spill UMonth n a /\ sod b = sod a
  | _ => year b = year a + 1 /\ year b <= year x /\
         inst b - inst a = 86400 * (if year x =? year b then drift (year b) (month x) else year_length (year b) - 360)
  end.

(** The same if [n] is negative. *)
Definition meet_back (u : tunit) (n : Z) (a b : datetime) : Prop :=
  clock_unit u = false /\ month_index b = month_index a + 1 /\ 0 < spill_any u n a /\ day b = spill_any u n a /\ sod b = sod a.

(** Seconds from the beginning of the year of [x], and as if all months had 30 days. *)
Definition since_year (x : datetime) : Z := inst x - instant (year x) 1 1 0 0 0.
Definition since_year30 (x : datetime) : Z := 86400 * (30 * (month x - 1) + day x - 1) + sod x.
(** [x] is some moment plus [n] units. *)
Definition hit (u : tunit) (n : Z) (x : datetime) : Prop :=
  match u with
  | UYear => min_year <= year x - n /\ day x <= month_length (year x - n) (month x)
  | UMonth => 12 * min_year <= month_index x - n /\ day x <= index_length (month_index x - n) /\ (n < month x \/ day x <= 30)
  | _ => n * unit_secs u <= since_year x \/
         (day x <= 30 /\ since_year30 x < n * unit_secs u /\
          n * unit_secs u <= since_year30 x + 86400 * (year_length min_year + 360 * (year x - min_year - 1)) /\ min_year < year x)
  end.
