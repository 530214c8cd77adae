(** Model of /repo/examples/main.rs. *)
Require Import ZArith Bool List String Ascii.
From Verif Require Import Prelude Chrono TimeType Iter Nom ParserTimetype ParserIterator ParserMod Show.
Import ListNotations.
Local Open Scope string_scope.
Local Open Scope Z_scope.

(** Value of a byte, for the definition of white space below (/repo/examples/main.rs 21). *)
Definition byte (c : ascii) : Z := Z.of_nat (nat_of_ascii c).
(** One-byte white space: U+0009 to U+000D and U+0020 (`str::trim`, /repo/examples/main.rs 21). *)
Definition ws1 (a : ascii) : bool := (9 <=? byte a) && (byte a <=? 13) || (byte a =? 32).
(** Two-byte white space in UTF-8: U+0085, U+00A0 (/repo/examples/main.rs 21). *)
Definition ws2 (a b : ascii) : bool := (byte a =? 194) && ((byte b =? 133) || (byte b =? 160)).
(** Three-byte white space in UTF-8: U+1680, U+2000 to U+200A, U+2028, U+2029, U+202F, U+205F, U+3000
    (/repo/examples/main.rs 21). *)
Definition ws3 (a b c : ascii) : bool :=
  (byte a =? 225) && (byte b =? 154) && (byte c =? 128) ||
  (byte a =? 226) && (byte b =? 128) && ((128 <=? byte c) && (byte c <=? 138) || (byte c =? 168) || (byte c =? 169) || (byte c =? 175)) ||
  (byte a =? 226) && (byte b =? 129) && (byte c =? 159) ||
  (byte a =? 227) && (byte b =? 128) && (byte c =? 128).
(** `str::trim_start`, half of `s.trim()` (/repo/examples/main.rs 21). *)
Fixpoint trim_start (s : string) : string :=
  match s with
  | String a r1 =>
      if ws1 a then trim_start r1
      else match r1 with
           | String b r2 =>
               if ws2 a b then trim_start r2
               else match r2 with
                    | String c r3 => if ws3 a b c then trim_start r3 else s
                    | "" => s
                    end
           | "" => s
           end
  | "" => ""
  end.
(** `str::trim_end`, the other half (/repo/examples/main.rs 21): cuts where only white space follows. *)
Fixpoint trim_end (s : string) : string :=
  match trim_start s with
  | "" => ""
  | _ => match s with String a r => String a (trim_end r) | "" => "" end
  end.
(** `s.trim()` (/repo/examples/main.rs 21). *)
Definition trim (s : string) : string := trim_end (trim_start s).
(** /repo/examples/main.rs 20: the arguments after the program name, folded with `format!("{} {}", acc, obj)`.
    The arguments are given as valid UTF-8 (`env::args` panics on others). *)
Definition join (args : list string) : string := fold_left (fun acc obj => acc ++ " " ++ obj) args "".

(** A printed line: the text of a value, or an error with the prefix it is printed with. The `{:?}` text of a
    `failure::Error` (kind and backtrace) is kept as the kind (/repo/examples/main.rs 5-16, 24, 27, 33, 39). *)
Inductive line :=
| Value (s : string)
| CannotPrettyPrint (t : timetype)
| ParseError (e : kek)
| CalcError (e : kek)
| BuildError (e : kek).
(** How the program ends: by itself or by `exit(1)` with a status; by a panic (status 101); not within the
    number of items given; [Stuck] stands for the fuel of the model (/repo/examples/main.rs 18-42). *)
Inductive ending := Exits (status : Z) | Panics (p : panic) | Running | Stuck.

(** /repo/examples/main.rs 5-16 `pretty_print`. *)
Definition pretty_print (v : timetype) : line :=
  match v with
  | Seconds e => Value (show_int e ++ " Seconds")
  | Minutes e => Value (show_int e ++ " Minutes")
  | Hours e => Value (show_int e ++ " Hours")
  | Days e => Value (show_int e ++ " Days")
  | Months e => Value (show_int e ++ " Months")
  | Years e => Value (show_int e ++ " Years")
  | Moment ndt => Value (show_moment ndt ++ " ")
  | other => CannotPrettyPrint other
  end.

Section Main.
Variable md : mode.
Variable cfg : nom_cfg.
Variable parse_date : parser isodate.
Variable parse_datetime : parser (isodate * isotime).
Variables now1 now2 : datetime.

(** /repo/examples/main.rs 29-37: the loop over the items, for the first [n] of them. *)
Fixpoint print_items (n : nat) (ui : useriterator) : list line * ending :=
  match n with
  | O => ([], Running)
  | S n' =>
      match user_next md ui with
      | (None, _) => ([], Exits 0)
      | (Some (Ok r), ui') => let '(l, e) := print_items n' ui' in (pretty_print r :: l, e)
      | (Some (Err e), _) => ([CalcError e], Exits 1)
      | (Some (Panic p), _) => ([], Panics p)
      | (Some OutOfFuel, _) => ([], Stuck)
      end
  end.
(** /repo/examples/main.rs 18-42 `main`, up to [n] items. *)
Definition main (n : nat) (args : list string) : list line * ending :=
  match parse md cfg parse_date parse_datetime now1 now2 (trim (join args)) with
  | Err e => ([ParseError e], Exits 0)
  | Ok (PTimeType t) =>
      match calculate md t with
      | Ok r => ([pretty_print r], Exits 0)
      | Err e => ([CalcError e], Exits 0)
      | Panic p => ([], Panics p)
      | OutOfFuel => ([], Stuck)
      end
  | Ok (PIterator (Ok ui)) => print_items n ui
  | Ok (PIterator (Err e)) => ([BuildError e], Exits 0)
  | Ok (PIterator (Panic p)) | Panic p => ([], Panics p)
  | Ok (PIterator OutOfFuel) | OutOfFuel => ([], Stuck)
  end.
End Main.
