(** The nom 3.2 combinators used by /repo/src/parser (nom is a dependency, not part of /repo;
    these definitions state what is assumed of it). Input bytes are a [string]. *)
Require Import ZArith Bool String Ascii.
Local Open Scope Z_scope.

(** `nom::IResult` (/repo/src/parser/mod.rs 47, 70-76). Error contents and the `Needed` argument
    are dropped. [PFuel] is the model's fuel guard for the recursive grammar rule. *)
Inductive iresult (A : Type) : Type :=
| Done (rest : string) (a : A)
| PError
| Incomplete
| PFuel.
Arguments Done {A} rest a.
Arguments PError {A}.
Arguments Incomplete {A}.
Arguments PFuel {A}.

(** A parser, as declared by `named!` (e.g. /repo/src/parser/timetype.rs 13). *)
Definition parser (A : Type) : Type := string -> iresult A.

(** Points where nom releases differ; theorems quantify over them.
    [last_complete]: does `alt_complete!` wrap its last alternative in `complete!`;
    [digit_incomplete]: does `digit` answer `Incomplete` (rather than an error) on empty input.
    They concern /repo/src/parser/timetype.rs 16, 24, 98, 169, iterator.rs 11, 39 and mod.rs 64. *)
Record nom_cfg := mkcfg { last_complete : bool; digit_incomplete : bool }.

(** Sequencing in `do_parse!` (e.g. /repo/src/parser/timetype.rs 109). *)
Definition pbind {A B} (p : parser A) (f : A -> parser B) : parser B := fun s =>
  match p s with
  | Done rest a => f a rest
  | PError => PError
  | Incomplete => Incomplete
  | PFuel => PFuel
  end.
(** Final `(expr)` of `do_parse!` (e.g. /repo/src/parser/timetype.rs 109). *)
Definition pret {A} (a : A) : parser A := fun s => Done s a.

(** `do_parse!(x: e >> ...)` (e.g. /repo/src/parser/timetype.rs 109). *)
Notation "'pdo' x <- e ;; f" := (pbind e (fun x => f))
  (at level 200, x pattern, e at level 100, f at level 200, right associativity).

(** Strip a literal prefix, for `tag!` (e.g. /repo/src/parser/timetype.rs 25). *)
Fixpoint strip (t s : string) : option string :=
  match t, s with
  | EmptyString, _ => Some s
  | String a t', String b s' => if Ascii.eqb a b then strip t' s' else None
  | String _ _, EmptyString => None
  end.

(** Is [s] a proper prefix of [t] (then `tag!` needs more input; e.g. /repo/src/parser/timetype.rs 25). *)
Fixpoint too_short (t s : string) : bool :=
  match t, s with
  | String a t', String b s' => Ascii.eqb a b && too_short t' s'
  | String _ _, EmptyString => true
  | EmptyString, _ => false
  end.

(** `tag!("..")` (e.g. /repo/src/parser/timetype.rs 25). *)
Definition tag (t : string) : parser unit := fun s =>
  match strip t s with
  | Some rest => Done rest tt
  | None => if too_short t s then Incomplete else PError
  end.

(** `complete!(p)` (/repo/src/parser/timetype.rs 140, 258): `Incomplete` becomes an error. *)
Definition complete {A} (q : parser A) : parser A := fun s =>
  match q s with Incomplete => PError | r => r end.

(** `opt!(p)` (/repo/src/parser/timetype.rs 132, 139, 140): errors become `None`. *)
Definition opt {A} (q : parser A) : parser (option A) := fun s =>
  match q s with
  | Done rest a => Done rest (Some a)
  | PError => Done s None
  | Incomplete => Incomplete
  | PFuel => PFuel
  end.

(** `alt!(p | q)` (/repo/src/parser/timetype.rs 87, 108, 300): the next alternative is tried on an
    error only. *)
Definition alt {A} (q1 q2 : parser A) : parser A := fun s =>
  match q1 s with PError => q2 s | r => r end.

(** `alt_complete!(p | rest)`: [alt_c] for all but the last alternative, [alt_last] for the last
    (/repo/src/parser/timetype.rs 24, 98, 169; iterator.rs 11, 39; mod.rs 64). *)
Definition alt_c {A} (q1 q2 : parser A) : parser A := alt (complete q1) q2.
(** The last alternative (/repo/src/parser/timetype.rs 24, 98, 169; iterator.rs 11, 39; mod.rs 64). *)
Definition alt_last {A} (cfg : nom_cfg) (q : parser A) : parser A :=
  if last_complete cfg then complete q else q.

(** `p => { |_| v }` (e.g. /repo/src/parser/timetype.rs 25). *)
Definition pmap {A B} (f : A -> B) (q : parser A) : parser B := fun s =>
  match q s with
  | Done rest a => Done rest (f a)
  | PError => PError
  | Incomplete => Incomplete
  | PFuel => PFuel
  end.

(** `map_res!(p, f)` (/repo/src/parser/timetype.rs 14-20): a failing conversion is an error. *)
Definition map_res {A B} (q : parser A) (f : A -> option B) : parser B := fun s =>
  match q s with
  | Done rest a => match f a with Some b => Done rest b | None => PError end
  | PError => PError
  | Incomplete => Incomplete
  | PFuel => PFuel
  end.

(** Bytes skipped by `nom::whitespace::sp` (/repo/src/parser/timetype.rs 5): space, tab, CR, LF. *)
Definition is_space (c : ascii) : bool :=
  match nat_of_ascii c with
  | 32%nat | 9%nat | 13%nat | 10%nat => true
  | _ => false
  end.
(** Skipping them (/repo/src/parser/timetype.rs 5). *)
Fixpoint skip_spaces (s : string) : string :=
  match s with
  | String c s' => if is_space c then skip_spaces s' else s
  | EmptyString => EmptyString
  end.
(** `nom::whitespace::sp` (/repo/src/parser/timetype.rs 5): zero or more blanks, never fails. The
    consumed text is not used by any caller. *)
Definition sp : parser unit := fun s => Done (skip_spaces s) tt.

(** ASCII digits, for `nom::digit` (/repo/src/parser/timetype.rs 4). *)
Definition is_digit (c : ascii) : bool :=
  (48 <=? Z.of_nat (nat_of_ascii c)) && (Z.of_nat (nat_of_ascii c) <=? 57).
(** Longest prefix of decimal digits, and the rest (/repo/src/parser/timetype.rs 4, 16). *)
Fixpoint span_digits (s : string) : string * string :=
  match s with
  | String c s' =>
      if is_digit c then let '(ds, r) := span_digits s' in (String c ds, r) else (EmptyString, s)
  | EmptyString => (EmptyString, EmptyString)
  end.
(** `nom::digit` (/repo/src/parser/timetype.rs 4): one or more ASCII digits. *)
Definition digit (cfg : nom_cfg) : parser string := fun s =>
  match s with
  | EmptyString => if digit_incomplete cfg then Incomplete else PError
  | _ => match span_digits s with
         | (EmptyString, _) => PError
         | (ds, r) => Done r ds
         end
  end.

(** `ws!(p)` (/repo/src/parser/timetype.rs 16): blanks on both sides. *)
Definition ws {A} (q : parser A) : parser A :=
  pdo _ <- sp;; pdo a <- q;; pdo _ <- sp;; pret a.
