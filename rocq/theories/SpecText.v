(** The documented input language, as texts; nothing here refers to the parsers of the model. *)
Require Import ZArith Bool List String Ascii.
From Verif Require Import Prelude Spec Chrono TimeType SpecTree SpecMoment Nom ParserTimetype ParserIterator.
Import ListNotations.
Local Open Scope string_scope.
Local Open Scope Z_scope.

(** The unit spellings, in no particular order. *)
Definition spellings : list (string * punit) :=
  [("s", PSecond); ("sec", PSecond); ("secs", PSecond); ("second", PSecond); ("seconds", PSecond);
   ("min", PMinute); ("mins", PMinute); ("minute", PMinute); ("minutes", PMinute);
   ("hr", PHour); ("hrs", PHour); ("hour", PHour); ("hours", PHour);
   ("d", PDay); ("day", PDay); ("days", PDay);
   ("w", PWeek); ("week", PWeek); ("weeks", PWeek);
   ("month", PMonth); ("months", PMonth);
   ("yrs", PYear); ("year", PYear); ("years", PYear)].
(** The adverbs. *)
Definition adverbs : list (string * unitalias) :=
  [("secondly", ASecondly); ("minutely", AMinutely); ("hourly", AHourly); ("daily", ADaily);
   ("weekly", AWeekly); ("monthly", AMonthly); ("yearly", AYearly)].

(** The unit of an adverb. *)
Definition adverb_unit (a : unitalias) : punit :=
  match a with
  | ASecondly => PSecond | AMinutely => PMinute | AHourly => PHour | ADaily => PDay
  | AWeekly => PWeek | AMonthly => PMonth | AYearly => PYear
  end.

(** [p] begins [s]. *)
Definition begins (p s : string) : Prop := exists r, s = p ++ r.
(** [p] is the longest key of [l] that begins [s]. *)
Definition longest {A} (l : list (string * A)) (p s : string) : Prop :=
  begins p s /\ forall q a, In (q, a) l -> begins q s -> (length q <= length p)%nat.

(** Characters. *)
Definition blank_char (c : ascii) : bool := (c =? " ")%char || (c =? "009")%char || (c =? "010")%char || (c =? "013")%char.
Definition digit_char (c : ascii) : bool :=
  match c with
  | "0" | "1" | "2" | "3" | "4" | "5" | "6" | "7" | "8" | "9" => true
  | _ => false
  end%char.
Definition letter_char (c : ascii) : bool :=
  let n := Z.of_nat (nat_of_ascii c) in (97 <=? n) && (n <=? 122).
Fixpoint all (f : ascii -> bool) (s : string) : bool :=
  match s with EmptyString => true | String c s' => f c && all f s' end.
Definition starts (f : ascii -> bool) (s : string) : bool :=
  match s with EmptyString => false | String c _ => f c end.
Definition blanks (s : string) : Prop := all blank_char s = true.
Definition digits (s : string) : Prop := all digit_char s = true /\ s <> "".
Definition digit_val (c : ascii) : Z := Z.of_nat (nat_of_ascii c) - 48.
(** Decimal value. *)
Fixpoint decimal (s : string) : Z :=
  match s with EmptyString => 0 | String c s' => digit_val c * 10 ^ Z.of_nat (length s') + decimal s' end.

(** Texts of amounts: a number, blanks on both sides, and a spelling; or an adverb. *)
Inductive amount_text : amount -> string -> Prop :=
| AT_number b1 ds b2 sp u : blanks b1 -> digits ds -> decimal ds <= i64_max -> blanks b2 -> In (sp, u) spellings ->
    amount_text (Amount (decimal ds) u) (b1 ++ ds ++ b2 ++ sp)
| AT_adverb sp a : In (sp, a) adverbs -> amount_text (Amount 1 (adverb_unit a)) sp.
(** Texts of operators. *)
Definition op_text (o : operator) : string := match o with Plus => "+" | Minus => "-" end.
(** Texts of amount expressions: amounts separated by operators, blanks on both sides. *)
Inductive expr_text : amountexpr -> string -> Prop :=
| ET_last a s : amount_text a s -> expr_text (AELast a) s
| ET_next a s b1 op b2 e s' : amount_text a s -> blanks b1 -> blanks b2 -> expr_text e s' ->
    expr_text (AENext a op e) (s ++ b1 ++ op_text op ++ b2 ++ s').

(** Where an expression may stop: what follows, blanks aside, is no operator, and the first
    character is no letter. *)
Definition op_char (c : ascii) : bool := (c =? "+")%char || (c =? "-")%char.
Fixpoint drop_blanks (s : string) : string :=
  match s with String c s' => if blank_char c then drop_blanks s' else s | EmptyString => EmptyString end.
Definition stop (rest : string) : Prop := starts letter_char rest = false /\ starts op_char (drop_blanks rest) = false.

(** The external ISO 8601 parsers do not recognise [s] (an answer `Incomplete` of the last
    alternative counts only where nom turns it into an error). *)
Definition no_iso (cfg : nom_cfg) (pd : parser isodate) (pdt : parser (isodate * isotime)) (s : string) : Prop :=
  (pdt s = PError \/ pdt s = Incomplete) /\ (pd s = PError \/ pd s = Incomplete /\ last_complete cfg = true).

(** ** Values of amount expressions *)
Definition punit_secs (u : punit) : Z :=
  match u with
  | PSecond => 1 | PMinute => 60 | PHour => 3600 | PDay => 86400
  | PWeek => 604800 | PMonth => 2592000 | PYear => 31104000
  end.
(** The unit in which an amount is kept: weeks are kept as days. *)
Definition punit_kept (u : punit) : tunit :=
  match u with
  | PSecond => USec | PMinute => UMin | PHour => UHour | PDay | PWeek => UDay | PMonth => UMonth | PYear => UYear
  end.
Definition amount_secs (a : amount) : Z := let 'Amount n u := a in n * punit_secs u.
Definition amount_unit (a : amount) : tunit := let 'Amount _ u := a in punit_kept u.
Definition apply_op (op : operator) (a b : Z) : Z := match op with Plus => a + b | Minus => a - b end.
(** Seconds, operators applied from left to right. *)
Fixpoint left_value_from (acc : Z) (op : operator) (e : amountexpr) : Z :=
  match e with
  | AELast a => apply_op op acc (amount_secs a)
  | AENext a op' e' => left_value_from (apply_op op acc (amount_secs a)) op' e'
  end.
Definition left_value (e : amountexpr) : Z := left_value_from 0 Plus e.
(** Seconds, everything after an operator taken as its right operand. *)
Fixpoint right_value (e : amountexpr) : Z :=
  match e with
  | AELast a => amount_secs a
  | AENext a op e' => apply_op op (amount_secs a) (right_value e')
  end.
(** Sum of all amounts. *)
Fixpoint total (e : amountexpr) : Z :=
  match e with AELast a => amount_secs a | AENext a _ e' => amount_secs a + total e' end.
Fixpoint expr_unit (e : amountexpr) : tunit :=
  match e with AELast a => amount_unit a | AENext a _ e' => finer (amount_unit a) (expr_unit e') end.
(** No operator follows a minus. *)
Fixpoint minus_last (e : amountexpr) : bool :=
  match e with
  | AELast _ => true
  | AENext _ Plus e' => minus_last e'
  | AENext _ Minus e' => match e' with AELast _ => true | _ => false end
  end.
(** Numbers are those of digit strings that fit i64. *)
Definition amount_ok (a : amount) : Prop := let 'Amount n _ := a in 0 <= n <= i64_max.
Fixpoint expr_ok (e : amountexpr) : Prop :=
  match e with AELast a => amount_ok a | AENext a _ e' => amount_ok a /\ expr_ok e' end.

(** ** Dates *)
(** Field ranges of the iso8601 types (i32 year, u32 for the others). *)
Definition u32 (z : Z) : Prop := 0 <= z < 4294967296.
Definition i32 (z : Z) : Prop := -2147483648 <= z < 2147483648.
Definition isodate_ok (d : isodate) : Prop :=
  match d with
  | YMD y m dd => i32 y /\ u32 m /\ u32 dd
  | Week y ww dd => i32 y /\ u32 ww /\ u32 dd
  | Ordinal y ddd => i32 y /\ u32 ddd
  end.
Definition isotime_ok (t : isotime) : Prop := u32 (t_hour t) /\ u32 (t_minute t) /\ u32 (t_second t).
Definition exact_ok (x : exactdate) : Prop :=
  match x with
  | Iso8601Date d => isodate_ok d
  | Iso8601DateTime d t => isodate_ok d /\ isotime_ok t
  | _ => True
  end.
Definition date_ok (d : pdate) : Prop :=
  let 'Date x o := d in exact_ok x /\ match o with Some (_, e) => expr_ok e | None => True end.

Definition keyword (s : string) : Prop := begins "today" s \/ begins "yesterday" s \/ begins "tomorrow" s.

Section Reads.
Variable pd : parser isodate.
Variable pdt : parser (isodate * isotime).
(** The text [s] is a date followed by [rest], relative to the external ISO 8601 parsers. *)
Inductive exact_reads : exactdate -> string -> string -> Prop :=
| ER_today rest : exact_reads Today ("today" ++ rest) rest
| ER_yesterday rest : exact_reads Yesterday ("yesterday" ++ rest) rest
| ER_tomorrow rest : exact_reads Tomorrow ("tomorrow" ++ rest) rest
| ER_datetime d t s rest : ~ keyword s -> pdt s = Done rest (d, t) -> exact_reads (Iso8601DateTime d t) s rest
| ER_date d s rest : ~ keyword s -> pdt s = PError \/ pdt s = Incomplete -> pd s = Done rest d -> exact_reads (Iso8601Date d) s rest.
(** A date with an optional operator and amount expression. *)
Inductive date_reads : pdate -> string -> string -> Prop :=
| DR_exact x s rest : exact_reads x s rest -> starts op_char (drop_blanks rest) = false -> date_reads (Date x None) s rest
| DR_op x s b1 op b2 e es rest : exact_reads x s (b1 ++ op_text op ++ b2 ++ es ++ rest) -> blanks b1 -> blanks b2 ->
    expr_text e es -> stop rest -> date_reads (Date x (Some (op, e))) s (drop_blanks rest).
(** Iteration steps. *)
Definition adverb_spec (a : unitalias) : iterspec :=
  match a with
  | ASecondly => ISecondly | AMinutely => IMinutely | AHourly => IHourly | ADaily => IDaily
  | AWeekly => IWeekly | AMonthly => IMonthly | AYearly => IYearly
  end.
Inductive step_text : iterspec -> string -> Prop :=
| ST_adverb t a : In (t, a) adverbs -> step_text (adverb_spec a) t
| ST_every b1 ds b2 sp u : blanks b1 -> digits ds -> decimal ds <= i64_max -> blanks b2 -> In (sp, u) spellings ->
    step_text (IEvery (decimal ds) u) ("every" ++ b1 ++ ds ++ b2 ++ sp).
(** Bounds; the empty bound is any text that starts neither like "until" nor with a digit. *)
Inductive bound_reads : option untilspec -> string -> Prop :=
| BR_none s : ~ begins "until" s -> starts digit_char s = false -> bound_reads None s
| BR_until x b s rest : blanks b -> starts blank_char s = false -> exact_reads x s rest -> bound_reads (Some (UExact x)) ("until" ++ b ++ s)
| BR_times ds b rest : digits ds -> decimal ds <= i64_max -> blanks b ->
    bound_reads (Some (UTimes (decimal ds))) (ds ++ b ++ "times" ++ rest).
End Reads.

(** The step of an iteration as a number of kept units. *)
Definition times_kept (n : Z) (u : punit) : Z := match u with PWeek => 7 * n | _ => n end.
Definition step_count (sp : iterspec) : Z := match sp with IEvery n u => times_kept n u | IWeekly => 7 | _ => 1 end.
Definition step_unit (sp : iterspec) : tunit :=
  match sp with
  | ISecondly => USec | IMinutely => UMin | IHourly => UHour | IDaily | IWeekly => UDay | IMonthly => UMonth | IYearly => UYear
  | IEvery _ u => punit_kept u
  end.
Definition step_spec_ok (sp : iterspec) : Prop := match sp with IEvery n _ => 0 <= n <= i64_max | _ => True end.
Definition bound_ok (u : option untilspec) : Prop :=
  match u with Some (UExact x) => exact_ok x | Some (UTimes n) => 0 <= n <= i64_max | None => True end.
Definition iterator_ok (it : piterator) : Prop := let 'Iterator d sp u := it in date_ok d /\ step_spec_ok sp /\ bound_ok u.

(** ** ISO 8601 *)
(** Number of the day written as week [ww], weekday [d] (1 = Monday) of year [y]: week 1 is the
    week of 4 January. *)
Definition iso_week_day (y ww d : Z) : Z := day_number y 1 4 - weekday y 1 4 + 7 * (ww - 1) + (d - 1).
(** Number of the [ddd]-th day of year [y]. *)
Definition ordinal_day (y ddd : Z) : Z := day_number y 1 1 + (ddd - 1).

(** The moment meant by a date, as documented; offsets aside. *)
Definition clock_secs (t : isotime) : Z := 3600 * t_hour t + 60 * t_minute t + t_second t.
Definition means (now : datetime) (x : exactdate) (m : datetime) : Prop :=
  dt_valid m = true /\
  match x with
  | Today => m = now
  | Tomorrow => inst m = inst now + 86400 /\ nano m = 0
  | Yesterday => inst m = inst now - 86400 /\ nano m = 0
  | Iso8601Date (YMD y mo d) => m = mkdt y mo d 0 0 0 0
  | Iso8601Date (Week y ww d) => inst m = 86400 * iso_week_day y ww d /\ nano m = 0
  | Iso8601Date (Ordinal y ddd) => inst m = 86400 * ordinal_day y ddd /\ nano m = 0
  | Iso8601DateTime (YMD y mo d) t => m = mkdt y mo d (t_hour t) (t_minute t) (t_second t) 0
  | Iso8601DateTime (Week y ww d) t => inst m = 86400 * iso_week_day y ww d + clock_secs t /\ nano m = 0
  | Iso8601DateTime (Ordinal y ddd) t => inst m = 86400 * ordinal_day y ddd + clock_secs t /\ nano m = 0
  end.
(** An operator between two expressions. *)
Definition date_op (op : operator) (b x : timetype) : timetype := match op with Plus => Addition b x | Minus => Subtraction b x end.
(** Today and dates given by year, month and day. *)
Definition plain (x : exactdate) : bool :=
  match x with Today | Iso8601Date (YMD _ _ _) | Iso8601DateTime (YMD _ _ _) _ => true | _ => false end.
(** Year, month, day and time written in a plain date. *)
Definition written (x : exactdate) : Z * Z * Z * (Z * Z * Z) :=
  match x with
  | Iso8601Date (YMD y mo d) => (y, mo, d, (0, 0, 0))
  | Iso8601DateTime (YMD y mo d) t => (y, mo, d, (t_hour t, t_minute t, t_second t))
  | _ => (0, 0, 0, (0, 0, 0))
  end.

(** Week and ordinal dates inside the calendar (the last year excepted). *)
Definition dayno_ok (d : isodate) : Prop :=
  match d with
  | YMD _ _ _ => False
  | Week y ww d => min_year <= y < max_year /\ 1 <= ww <= 53 /\ 1 <= d <= 7
  | Ordinal y ddd => min_year <= y < max_year /\ 1 <= ddd <= 366
  end.
Definition counted (x : exactdate) : Prop :=
  match x with
  | Iso8601Date d => dayno_ok d
  | Iso8601DateTime d t => dayno_ok d /\ 0 <= t_hour t < 24 /\ 0 <= t_minute t < 60 /\ 0 <= t_second t < 60
  | _ => False
  end.
(** The instant they denote, and by how much the code is late. *)
Definition meant_secs (x : exactdate) : Z :=
  match x with
  | Iso8601Date (Week y ww d) => 86400 * iso_week_day y ww d
  | Iso8601Date (Ordinal y ddd) => 86400 * ordinal_day y ddd
  | Iso8601DateTime (Week y ww d) t => 86400 * iso_week_day y ww d + clock_secs t
  | Iso8601DateTime (Ordinal y ddd) t => 86400 * ordinal_day y ddd + clock_secs t
  | _ => 0
  end.
Definition late_secs (x : exactdate) : Z :=
  match x with
  | Iso8601Date (Week y _ _) | Iso8601DateTime (Week y _ _) _ => 86400 * (5 + weekday y 1 4)
  | Iso8601Date (Ordinal _ _) | Iso8601DateTime (Ordinal _ _) _ => 86400
  | _ => 0
  end.

(** ** Termination and consumption of a parser [p] on [s] *)
(** [r] is what remains of [s] after a prefix. *)
Definition suffix (r s : string) : Prop := exists p, s = p ++ r.
(** [p] answers on [s] (without running out of fuel) and leaves a suffix. *)
Definition fine {A} (p : parser A) (s : string) : Prop :=
  match p s with Done r _ => suffix r s | PFuel => False | _ => True end.
(** Fine, and consumes something. *)
Definition eats {A} (p : parser A) (s : string) : Prop :=
  match p s with Done r _ => suffix r s /\ (length r < length s)%nat | PFuel => False | _ => True end.

(** For examples: an ISO 8601 parser that knows finitely many texts. *)
Fixpoint table {A} (l : list (string * A)) : parser A := fun s =>
  match l with
  | nil => PError
  | (t, v) :: l' => match strip t s with Some r => Done r v | None => table l' s end
  end.
Definition toy_dates : parser isodate := table
  [("2016-02-29", YMD 2016 2 29); ("2016-02-30", YMD 2016 2 30); ("2015-12-31", YMD 2015 12 31); ("2016-060", Ordinal 2016 60); ("2016-W09-1", Week 2016 9 1)].
Definition toy_times : parser (isodate * isotime) := table
  [("2016-02-29T23:59:58Z", (YMD 2016 2 29, mktime 23 59 58 0 0 0)); ("2016-02-29T23:59:58+05:30", (YMD 2016 2 29, mktime 23 59 58 0 5 30));
   ("2016-060T24:00:00", (Ordinal 2016 60, mktime 24 0 0 0 0 0))].
