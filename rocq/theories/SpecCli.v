(** Vocabulary for the command line program: white space, and the words it prints. *)
Require Import ZArith Bool List String Ascii.
From Verif Require Import Prelude Spec Chrono TimeType SpecTree.
Import ListNotations.
Local Open Scope string_scope.

(** The Unicode characters with the property White_Space, in UTF-8. *)
Definition white : list string :=
  let one a := String a "" in
  let two a b := String a (String b "") in
  let three a b c := String a (String b (String c "")) in
  [one "009"; one "010"; one "011"; one "012"; one "013"; one " "; two "194" "133"; two "194" "160"; three "225" "154" "128";
   three "226" "128" "128"; three "226" "128" "129"; three "226" "128" "130"; three "226" "128" "131"; three "226" "128" "132";
   three "226" "128" "133"; three "226" "128" "134"; three "226" "128" "135"; three "226" "128" "136"; three "226" "128" "137";
   three "226" "128" "138"; three "226" "128" "168"; three "226" "128" "169"; three "226" "128" "175"; three "226" "129" "159";
   three "227" "128" "128"]%char.
(** Texts of white space only. *)
Inductive spaces : string -> Prop :=
| SP_nil : spaces ""
| SP_cons w s : In w white -> spaces s -> spaces (w ++ s).
(** No white space at either end. *)
Definition solid (s : string) : Prop :=
  (forall w r, In w white -> s <> w ++ r) /\ (forall w r, In w white -> s <> r ++ w).

(** Names of the units, as printed and as understood. *)
Definition word (u : tunit) : string :=
  match u with
  | USec => "Seconds" | UMin => "Minutes" | UHour => "Hours" | UDay => "Days" | UMonth => "Months" | UYear => "Years"
  end.
Definition input_word (u : tunit) : string :=
  match u with
  | USec => "seconds" | UMin => "minutes" | UHour => "hours" | UDay => "days" | UMonth => "months" | UYear => "years"
  end.

(** No leap second in a moment, in any moment of a tree, in any tree of an error. *)
Definition no_leap (m : datetime) : Prop := dt_valid m = true /\ (nano m < 1000000000)%Z.
Fixpoint no_leaps (t : timetype) : Prop :=
  match t with
  | Moment m => no_leap m
  | Addition a b | Subtraction a b => no_leaps a /\ no_leaps b
  | EndOfYear a | EndOfMonth a | EndOfDay a | EndOfHour a | EndOfMinute a => no_leaps a
  | _ => True
  end.
Definition error_no_leaps (e : kek) : Prop :=
  match e with
  | CannotAdd a b | CannotSub a b => no_leaps a /\ no_leaps b
  | ArgumentErrorNotAnAmount t | CannotCalculateEndOfYearOn t | CannotCalculateEndOfMonthOn t => no_leaps t
  | _ => True
  end.
