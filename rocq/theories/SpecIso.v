(** Dates and times written with all their digits, as documented (/repo/doc/language.md, "Exact dates") and as printed,
    and what is expected of an ISO 8601 parser that reads them. *)
Require Import ZArith Bool List String Ascii.
From Verif Require Import Prelude Spec Chrono TimeType SpecMoment Nom ParserTimetype SpecText.
Local Open Scope string_scope.
Local Open Scope Z_scope.

(** The last digit of a number, its last two, its last four. *)
Definition last_digit (n : Z) : ascii := ascii_of_nat (Z.to_nat (48 + n mod 10)).
Definition two (n : Z) : string := String (last_digit (n / 10)) (String (last_digit n) "").
Definition four (n : Z) : string := two (n / 100) ++ two n.
Definition date_text (y mo d : Z) : string := four y ++ "-" ++ two mo ++ "-" ++ two d.
Definition time_text (h mi s : Z) : string := two h ++ ":" ++ two mi ++ ":" ++ two s.
(** As printed, and as typed. *)
Definition printed (m : datetime) : string := date_text (year m) (month m) (day m) ++ " " ++ time_text (hour m) (minute m) (second m).
Definition typed (m : datetime) : string := date_text (year m) (month m) (day m) ++ "T" ++ time_text (hour m) (minute m) (second m).
(** Moments that can be written so. *)
Definition four_digits (m : datetime) : Prop := dt_valid m = true /\ 0 <= year m <= 9999 /\ nano m = 0.
(** [s] writes [m]; midnight may be left out. *)
Inductive writes : datetime -> string -> Prop :=
| W_time m : writes m (typed m)
| W_date m : hour m = 0 -> minute m = 0 -> second m = 0 -> writes m (date_text (year m) (month m) (day m)).

(** The end of the text, or a blank. *)
Definition apart (r : string) : Prop := r = "" \/ starts blank_char r = true.
(** The parsers read dates (existing or not) and times written so, and no time where there is none. *)
Definition reads_dates (pd : parser isodate) (pdt : parser (isodate * isotime)) : Prop :=
  forall y mo d r, 0 <= y <= 9999 -> 1 <= mo <= 12 -> 1 <= d <= 31 -> apart r ->
    pd (date_text y mo d ++ r) = Done r (YMD y mo d) /\
    (pdt (date_text y mo d ++ r) = PError \/ pdt (date_text y mo d ++ r) = Incomplete).
Definition reads_times (pdt : parser (isodate * isotime)) : Prop :=
  forall y mo d h mi s r, 0 <= y <= 9999 -> 1 <= mo <= 12 -> 1 <= d <= 31 -> 0 <= h <= 23 -> 0 <= mi <= 59 -> 0 <= s <= 59 -> apart r ->
    exists t, pdt (date_text y mo d ++ "T" ++ time_text h mi s ++ r) = Done r (YMD y mo d, t) /\ t_hour t = h /\ t_minute t = mi /\ t_second t = s.

(** A pair of parsers that do, to show that there are such: year, month and day with hyphens, then perhaps a T, hours, minutes and
    seconds with colons, and nothing else of ISO 8601. They are not part of /repo and no model of the crate it uses. *)
Definition some_digits (s : string) : option (Z * string) :=
  match s with
  | String a (String b r) => if digit_char a && digit_char b then Some (10 * digit_val a + digit_val b, r) else None
  | _ => None
  end.
Definition then_digits (c : ascii) (s : string) : option (Z * string) :=
  match s with String x r => if (x =? c)%char then some_digits r else None | EmptyString => None end.
Definition iso_date : parser isodate := fun s =>
  match some_digits s with
  | Some (a, r) =>
      match some_digits r with
      | Some (b, r) =>
          match then_digits "-" r with
          | Some (mo, r) =>
              match then_digits "-" r with
              | Some (d, r) => if (1 <=? mo) && (mo <=? 12) && (1 <=? d) && (d <=? 31) then Done r (YMD (100 * a + b) mo d) else PError
              | None => PError
              end
          | None => PError
          end
      | None => PError
      end
  | None => PError
  end.
Definition iso_datetime : parser (isodate * isotime) := fun s =>
  match iso_date s with
  | Done r d =>
      match then_digits "T" r with
      | Some (h, r) =>
          match then_digits ":" r with
          | Some (mi, r) =>
              match then_digits ":" r with
              | Some (sec, r) => Done r (d, mktime h mi sec 0 0 0)
              | None => PError
              end
          | None => PError
          end
      | None => PError
      end
  | _ => PError
  end.
