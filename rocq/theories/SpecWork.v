(** Work done by a parser: the combinators as a tree, what the tree reads, and how many steps that takes. *)
Require Import ZArith Bool String Ascii.
From Verif Require Import Nom.
Local Open Scope nat_scope.

(** Parsers written with the combinators of Nom.v. [GIso] is a call of a parser of the iso8601 crate; [GMapRes p f w] converts
    what [p] read by [f] in [w] steps; [GOfInput] only chooses the bound of the recursion that the model needs. *)
Inductive G : Type -> Type :=
| GRet : forall A, A -> G A
| GTag : string -> G unit
| GSp : G unit
| GDigit : G string
| GIso : forall A, parser A -> G A
| GBind : forall A B, G A -> (A -> G B) -> G B
| GComplete : forall A, G A -> G A
| GOpt : forall A, G A -> G (option A)
| GAlt : forall A, G A -> G A -> G A
| GMap : forall A B, (A -> B) -> G A -> G B
| GMapRes : forall A B, G A -> (A -> option B) -> (A -> nat) -> G B
| GFuel : forall A, G A
| GOfInput : forall A, (string -> G A) -> G A.
Arguments GRet {A}. Arguments GIso {A}. Arguments GBind {A B}. Arguments GComplete {A}. Arguments GOpt {A}.
Arguments GAlt {A}. Arguments GMap {A B}. Arguments GMapRes {A B}. Arguments GFuel {A}. Arguments GOfInput {A}.

(** Bytes of the tag compared with bytes of the text. *)
Fixpoint compared (t s : string) : nat :=
  match t, s with
  | String a t', String b s' => S (if Ascii.eqb a b then compared t' s' else 0)
  | _, _ => 0
  end.

Section Work.
Variable cfg : nom_cfg.

(** What the tree reads. *)
Fixpoint reads {A} (g : G A) : parser A :=
  match g in G A return parser A with
  | GRet a => pret a
  | GTag t => tag t
  | GSp => sp
  | GDigit => digit cfg
  | GIso p => p
  | GBind p f => pbind (reads p) (fun a => reads (f a))
  | GComplete p => complete (reads p)
  | GOpt p => opt (reads p)
  | GAlt p q => alt (reads p) (reads q)
  | GMap f p => pmap f (reads p)
  | GMapRes p f _ => map_res (reads p) f
  | GFuel => fun _ => PFuel
  | GOfInput g' => fun s => reads (g' s) s
  end.

(** Steps: one for each combinator that is run, and one for each byte that is compared, skipped or read. Nothing is counted inside the
    parsers of the iso8601 crate. *)
Fixpoint steps {A} (g : G A) (s : string) : nat :=
  match g with
  | GRet _ | GFuel | GIso _ => 1
  | GTag t => S (compared t s)
  | GSp => S (length s - length (skip_spaces s))
  | GDigit => S (length (fst (span_digits s)))
  | GBind p f => S (steps p s + match reads p s with Done r a => steps (f a) r | _ => 0 end)
  | GAlt p q => S (steps p s + match reads p s with PError => steps q s | _ => 0 end)
  | GComplete p | GOpt p | GMap _ p => S (steps p s)
  | GMapRes p _ w => S (steps p s + match reads p s with Done _ a => w a | _ => 0 end)
  | GOfInput g' => steps (g' s) s
  end.

(** Calls of parsers of the iso8601 crate. *)
Fixpoint iso_calls {A} (g : G A) (s : string) : nat :=
  match g with
  | GIso _ => 1
  | GRet _ | GFuel | GTag _ | GSp | GDigit => 0
  | GBind p f => iso_calls p s + match reads p s with Done r a => iso_calls (f a) r | _ => 0 end
  | GAlt p q => iso_calls p s + match reads p s with PError => iso_calls q s | _ => 0 end
  | GComplete p | GOpt p | GMap _ p => iso_calls p s
  | GMapRes p _ _ => iso_calls p s
  | GOfInput g' => iso_calls (g' s) s
  end.
End Work.

(** A parser that does not make up text. *)
Definition consumes {A} (p : parser A) : Prop := forall s r a, p s = Done r a -> length r <= length s.
