(** Outcomes of Rust code, machine integers and loops.

    Nothing in this file models a particular function of /repo; it fixes how
    Rust constructs used there are read. *)
Require Import ZArith Bool List.
Local Open Scope Z_scope.

(** Build mode of the crate: [Checked] is a build with overflow checks (the
    default `dev` and `test` profiles), [Wrapping] one without (`release`).
    /repo/Cargo.toml does not override the profiles, so both occur. *)
Inductive mode := Checked | Wrapping.

(** Why a call panicked: [PArith] i64 arithmetic overflow (any i64 `+ - *`/`abs` in
    /repo/src), [PAssert] an `assert!` (/repo/src/iter.rs 93, 140), [PUnwrap] an
    `unwrap` or a panicking chrono constructor such as `and_hms`
    (/repo/src/timetype.rs 486, 518, 548). *)
Inductive panic := PArith | PAssert | PUnwrap.

(** Outcome of a call returning `Fallible<A>` (/repo/src/timetype.rs 8: `failure::Fallible as
    Result`) or, with unused [Err], a plain value. [OutOfFuel] marks exhausted
    evaluation fuel of the model (proved never to happen where it matters). *)
Inductive outcome (E A : Type) : Type :=
| Ok (a : A)
| Err (e : E)
| Panic (p : panic)
| OutOfFuel.
Arguments Ok {E A} a.
Arguments Err {E A} e.
Arguments Panic {E A} p.
Arguments OutOfFuel {E A}.

(** Sequencing, i.e. `try!`, `?` and `and_then` (e.g. /repo/src/timetype.rs 476, 634). *)
Definition bind {E A B} (x : outcome E A) (f : A -> outcome E B) : outcome E B :=
  match x with
  | Ok a => f a
  | Err e => Err e
  | Panic p => Panic p
  | OutOfFuel => OutOfFuel
  end.

(** `try!(e)` and `e.and_then(|x| f)` (e.g. /repo/src/timetype.rs 476, 634). *)
Notation "'do' x <- e ; f" := (bind e (fun x => f))
  (at level 200, x pattern, e at level 100, f at level 200, right associativity).

(** `Option::ok_or` (e.g. /repo/src/timetype.rs 488). *)
Definition ok_or {E A} (o : option A) (e : E) : outcome E A :=
  match o with Some a => Ok a | None => Err e end.

(** ** i64, the type of all amounts (/repo/src/timetype.rs 23-28) and of the date fields in
    /repo/src/util.rs 2, 36 *)
(** `i64::MIN` (/repo/src/timetype.rs 23-28). *)
Definition i64_min : Z := -9223372036854775808.
(** `i64::MAX` (/repo/src/timetype.rs 23-28). *)
Definition i64_max : Z := 9223372036854775807.
(** Values of the type (/repo/src/timetype.rs 23-28). *)
Definition in_i64 (z : Z) : bool := (i64_min <=? z) && (z <=? i64_max).

(** Two's complement reduction to 64 bits: what `+ - *` (e.g. /repo/src/util.rs 13, 45) yield without overflow
    checks. *)
Definition wrap64 (z : Z) : Z :=
  (z + 9223372036854775808) mod 18446744073709551616 - 9223372036854775808.

(** Casts `as i32` and `as u32` from i64 (e.g. /repo/src/timetype.rs 804-806, /repo/src/util.rs 72). *)
Definition as_i32 (z : Z) : Z := (z + 2147483648) mod 4294967296 - 2147483648.
(** `as u32` (e.g. /repo/src/timetype.rs 804-806, /repo/src/util.rs 72). *)
Definition as_u32 (z : Z) : Z := z mod 4294967296.

Section Arith.
Context {E : Type}.
Variable md : mode.

(** Result of an i64 operation (e.g. /repo/src/util.rs 13, 40, 45) whose mathematical value is [z]. *)
Definition arith (z : Z) : outcome E Z :=
  if in_i64 z then Ok z
  else match md with
       | Checked => Panic PArith
       | Wrapping => Ok (wrap64 z)
       end.

(** `x + y` on i64 expressions, evaluated left to right (e.g. /repo/src/util.rs 13). *)
Definition addc (x y : outcome E Z) : outcome E Z := do a <- x; do b <- y; arith (a + b).
(** `x - y` (e.g. /repo/src/util.rs 13, 40). *)
Definition subc (x y : outcome E Z) : outcome E Z := do a <- x; do b <- y; arith (a - b).
(** `x * k` for a literal [k] (e.g. /repo/src/timetype.rs 244-251). *)
Definition mulc (x : outcome E Z) (k : Z) : outcome E Z := do a <- x; arith (a * k).
(** `x / k` for a literal [k > 0]: truncating, cannot overflow (e.g. /repo/src/timetype.rs 270, /repo/src/util.rs 13). *)
Definition divc (x : outcome E Z) (k : Z) : outcome E Z := do a <- x; Ok (Z.quot a k).
(** `x % k`, likewise (e.g. /repo/src/util.rs 13-14). *)
Definition remc (x : outcome E Z) (k : Z) : outcome E Z := do a <- x; Ok (Z.rem a k).
(** `x.abs()` (/repo/src/util.rs 40 ff.). *)
Definition absc (x : outcome E Z) : outcome E Z := do a <- x; arith (Z.abs a).
End Arith.

(** ** Loops

    [iter_pos p body s] runs [body] up to [p] times, stopping early when it
    returns [inr]. A `while` loop (/repo/src/util.rs 22-30) is run with 2^64 steps of fuel. *)
Fixpoint iter_pos {S R : Type} (p : positive) (body : S -> S + R) (s : S) : S + R :=
  match p with
  | xH => body s
  | xO q => match iter_pos q body s with
            | inl s' => iter_pos q body s'
            | inr r => inr r
            end
  | xI q => match body s with
            | inl s' =>
                match iter_pos q body s' with
                | inl s'' => iter_pos q body s''
                | inr r => inr r
                end
            | inr r => inr r
            end
  end.

(** 2^64 iterations; all loops of the code (/repo/src/util.rs 22-30) are shown to need fewer. *)
Definition loop_fuel : positive := 18446744073709551616%positive.

(** `while cond(s) { s = step(s) }` with a step that may panic (/repo/src/util.rs 22-30). *)
Definition while {E S : Type} (cond : S -> bool) (step : S -> outcome E S) (s : S) : outcome E S :=
  match iter_pos loop_fuel
          (fun st : S =>
             if cond st
             then match step st with
                  | Ok st' => inl st'
                  | other => inr other
                  end
             else inr (Ok st)) s
  with
  | inl _ => OutOfFuel
  | inr r => r
  end.
