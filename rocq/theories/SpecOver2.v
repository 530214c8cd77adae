(** When reading a text overflows. *)
Require Import ZArith Bool List.
From Verif Require Import Prelude Spec Chrono TimeType ParserTimetype ParserIterator SpecTree SpecMoment SpecText SpecDoc SpecOver.
Local Open Scope Z_scope.

(** A number of weeks has too many days. *)
Definition big_week (a : amount) : bool := match a with Amount n PWeek => i64_max <? 7 * n | _ => false end.
Fixpoint big_weeks (e : amountexpr) : bool :=
  match e with AELast a => big_week a | AENext a _ e' => big_week a || big_weeks e' end.
(** A written date exists. *)
Definition year_exists (y : Z) : bool := (min_year <=? y) && (y <=? max_year).
Definition names_date (x : exactdate) : bool :=
  match x with
  | Today | Yesterday | Tomorrow => true
  | Iso8601Date (YMD y m d) => year_exists y && date_exists y m d
  | Iso8601DateTime (YMD y m d) t => year_exists y && date_exists y m d &&
      ((0 <=? t_hour t) && (t_hour t <? 24) && (0 <=? t_minute t) && (t_minute t <? 60) && (0 <=? t_second t) && (t_second t <? 60))
  | Iso8601Date (Week y _ _) | Iso8601DateTime (Week y _ _) _ | Iso8601Date (Ordinal y _) | Iso8601DateTime (Ordinal y _) _ => year_exists y
  end.
(** Making the expression of a date overflows. *)
Definition date_overflows (d : pdate) : bool :=
  match d with Date x (Some (_, e)) => names_date x && big_weeks e | Date _ None => false end.
(** The value of a date overflows (C84 says which values do). *)
Definition value_overflows (now : datetime) (d : pdate) : Prop := exists t, date_into Checked now d = Ok t /\ calculate Checked t = Panic PArith.
(** Making the result of a text overflows; [panics d] says that the value of the date [d] overflows. *)
Definition reading_overflows (panics : pdate -> Prop) (x : reading) : Prop :=
  match x with
  | AsTimeType (PTAmountExpr e) => big_weeks e = true
  | AsTimeType (PTDate d) => date_overflows d = true
  | AsIterator (Iterator d sp _) => i64_max < step_count sp \/ date_overflows d = true \/ panics d
  end.
