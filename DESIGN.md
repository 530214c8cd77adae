# Formal model of kairos: design

The model is a hand translation of the Rust source in /repo into total Gallina
functions (Rocq/Coq 8.16.1).  Files live in `rocq/theories`.

## What is modelled

| file | models |
|---|---|
| `Prelude.v` | outcomes of Rust code (`Ok`, `Err`, panic, fuel guard), i64 arithmetic in both build modes, `as` casts, `while` loops |
| `Spec.v` | independent specification: Gregorian calendar, day numbers, elapsed seconds, weekdays. Uses nothing of the model |
| `Chrono.v` | the part of `chrono` that is called: `NaiveDateTime` fields, `from_ymd_opt`, `and_hms_opt`, `and_hms`, comparison, weekday |
| `Util.v` | src/util.rs |
| `TimeType.v` | src/timetype.rs (non-test part), src/error.rs |
| `Matcher.v` | src/indicator.rs, src/matcher.rs |
| `Indicator.v` | src/indicator.rs (derived comparisons of `Day` and `Month`) |
| `Iter.v` | src/iter.rs |
| `Nom.v` | the nom 3.2 combinators used by the parsers |
| `Grammar.v` | the parsers of src/parser once more, as trees of combinators (proved to read the same), for counting steps |
| `ParserTimetype.v`, `ParserIterator.v`, `ParserMod.v` | src/parser/*.rs |
| `Show.v` | the texts produced by `{}` and `{:?}` for amounts, moments, expressions (derived `Debug`) and the messages of src/error.rs |
| `Cli.v` | examples/main.rs: joining and trimming of arguments, what is printed, exit status |
| `Stdout.v` | the text examples/main.rs writes for the lines of `Cli.v`, with the derived `Debug` of src/error.rs |
| `Stack.v` | expressions a caller can write with the adapters of src/iter.rs, nested to any depth |
| `Fuzz.v` | fuzz/fuzz_targets/parse.rs, with the UTF-8 check of the standard library |

Specification vocabulary (uses only the datatypes of the model, never its functions, except that
`SpecIter`/`SpecAdapt`/`SpecSeq` talk about an arbitrary `next` function, and `SpecClient`, `SpecWalk` and `SpecCalls` about the calls of functions, `SpecWork` about the combinators of `Nom.v`, that `SpecGetter` collects the six getters, and that `made` in `SpecDoc` names what `parse` makes of a reading): `SpecTree` (denotation of expression
trees), `SpecGetter` (the getters by unit), `SpecMoment` (instants, whole dates), `SpecIter` (item after k calls), `SpecAdapt` (filters and
limits on lists), `SpecText` (grammar of the documented language as texts), `SpecMode` (agreement of two build modes),
`SpecSeq` (collected lists, number of steps before an end), `SpecCost` (number of loop turns), `SpecCli` (white space and
words), `SpecDoc` (texts of the language followed by anything, UTF-8 encoding of characters), `SpecOver`, `SpecOver2` (operations and readings that do not fit 64 bits), `SpecExact`, `SpecExact2` (conditions under which date arithmetic is exact or can be undone, texts are read as written, iterations end), `SpecLong` (readings that take as much text as possible), `SpecWide` (the last 32 bits of a number), `SpecValue`, `SpecValue2` (a reference evaluator for expressions, texts and iterations), `SpecProgram` (a reference command line program), `SpecAnswer`, `SpecAnswer2` (an evaluator and a program with exact errors and with numbers that do not fit), `SpecDepth` (heights of expressions), `SpecReject` (unfinished texts), `SpecHang` (filtered iterations), `SpecIso` (dates written with all their digits), `SpecClient` (calls of the public functions), `SpecWalk` (sequences of calls), `SpecCalls` (calls made by a call), `SpecWork` (trees of combinators and their steps), `SpecIterCalls` (calls made by an iteration), `SpecPlan` (lists of moments some days apart), `SpecStdout` (texts of nom's errors, line ends), `SpecStack` (adapters as operations on lists), `SpecTurns` (turns of the loops in all calls of an evaluation), `SpecShift` (expressions with changed moments), `SpecAsks` (words that read the clock), `SpecFar` (undoing amounts below zero), `SpecTwice` (the calendar against months of 30 days), `SpecOrder` (by how much sums and differences miss the true instant), `SpecSwap` (where a step leads), `SpecReach` (the amount from a moment to a later one), `SpecBack` (chains of subtractions), `SpecVisit` (a moment being among the items), `SpecMeet` (when two moments meet, which moments are hit), `SpecApart` (which moments are some moment less an amount), `SpecEndStep` (units at least as long as a period), `SpecOff` (how late sums and differences are), `SpecDebug` (the printed parts of an expression), `SpecFormat` (format strings), `SpecEndMonth` (the last day of a numbered month), `SpecForever` (years that stay leap years), `SpecDown` (lowering one field of a moment), `SpecFree` (leaving out several weekdays), `SpecDerive` (derived Debug of errors, format strings of the program).

Tests of the translation, not properties: `ModelTests.v`, `RepoTests.v`, `RepoTests2.v` run every unit test of
src/timetype.rs, src/util.rs, src/iter.rs, src/parser/*.rs against the model (with `vm_compute`).  The three tests that
read the clock are proved for every clock reading (C67).

`Props_*.v` contain only the property theorems, their non-vacuity examples and
`Print Assumptions`; the proofs are lemmas in `*Proofs.v` files.

### Conventions

* `Result` is data; `panic!` is the explicit outcome `Panic why`; a loop or
  recursion that needs fuel returns `OutOfFuel` when the fuel is exhausted and a theorem
  shows that it never is.
* i64 arithmetic takes a mode: `Checked` (debug builds, overflow panics) or `Wrapping`
  (release builds, modulo 2^64).  Every theorem is for both modes unless it says otherwise.
  `/` and `%` are `Z.quot` and `Z.rem`; `as u32`, `as i32` are explicit modular casts.
* `&mut self` becomes a returned state.
* The mutually recursive functions behind `calculate` are written one by one with the
  recursive call abstracted (`rec : call -> outcome`) and tied by recursion on fuel; the fuel
  given by `calculate` is computed from the size of the tree and proved sufficient.
* `while` loops run with 2^64 steps of (binary) fuel, proved sufficient for all i64 inputs.

## What is not modelled

* `chrono` internals: `from_ymd_opt`/`and_hms_opt` are assumed to accept exactly the dates of
  the proleptic Gregorian calendar with year in -262144..262143 and times h<24, mi<60, s<60; the order
  of `NaiveDateTime` to be lexicographic on the fields; `weekday` to be the Gregorian weekday.
* the wall clock (`Local::now`): an arbitrary function argument.
* the `iso8601` crate parsers: arbitrary functions (oracles) `pd`, `pdt`.  Theorems assume of them, where needed and
  visibly in the statement: they return and leave a suffix of the input; the numbers they return are in the
  ranges of their types; or they read a given text as a given date (C97: every text of the forms YYYY-MM-DD and
  YYYY-MM-DDTHH:MM:SS).  No theorem assumes that they implement ISO 8601.  `iso_date` and `iso_datetime` in `SpecIso.v`
  show that these assumptions can be met together; they are not a model of the crate.
* the `Debug` text of nom's error and of the backtrace in a `failure::Error`: the lines of `Cli.v` carry the error value itself, `Stdout.v` takes both texts as arguments.
* stack size: recursive functions of the code are modelled without a bound on the stack (C94 says how many calls are nested).
* the `filters` crate (feature `with-filters`): a filter is a Boolean function; what src/indicator.rs and src/matcher.rs
  build on it is in `Matcher.v`.
* nom internals beyond the combinators used; two points where nom versions differ are parameters
  of the model and theorems hold for every choice (see `Nom.v`).
* derive-generated `Clone`, `failure` plumbing, `#[cfg(test)]` code, memory exhaustion, stack overflow.

## Trusted base

Coq's kernel (plus `vm_compute` for concrete witnesses), the translation itself, and the
assumptions about chrono/nom/iso8601 above.  No axioms are declared.  `Print Assumptions` follows each property
theorem and prints "Closed under the global context" for every one of them; no axiom of the standard
library is used either.  (A listing of all loaded libraries shows the parameters of `Coq.ssr.ssrunder`, which the
standard library loads with `ZifyBool`; no theorem depends on them.)

The translation of sums and differences of a moment and an amount can be compared with the text of the source:
`tools/differential.py` reads the fields and errors of `add_to_moment` and `sub_from_moment` from
`/repo/src/timetype.rs` by pattern, evaluates random cases and lets Coq compute the same cases in the model.
Of 7297 cases (seeds 1 to 4) all agreed, about a third of them errors; cases that try a month beyond 12 as an unsigned number are left out.
`tools/expressions.py` does the same for whole expressions and for `get_seconds` to `get_years`, with overflow checks on:
it interprets the match arms of the evaluator as they stand in the source. The two adjustments of fields,
the length of a month and chrono's validity check are written out by hand in it.
All of 6000 cases (seeds 1 to 4, 1500 each) agreed: 3074 values, 464 getters, 253 overflows and 2209 errors.
Not covered are the arms no expression reaches, such as the errors for an end of an hour that is not a time.

## Properties and plan

Statuses: P = to be proved as stated; P/R = the statement is false of the code, so the strongest true
part is proved as `..._partial` and the failure is shown by `..._refuted` with a concrete witness.

| id | plan |
|---|---|
| C01, C02, C04 | P. denotation `secs : tree -> Z` and finest unit in Spec terms; induction on fuel/size over the mutual recursion |
| C03 | P. quotient algebra |
| C05 | P. size measure for the mutual recursion; result-is-leaf invariant |
| C06 | P. boolean shape recogniser, induction on size |
| C07 | P. evaluation of amount trees (C01/C02) plus one step |
| C08 | P/R. every such expression is `Err CannotAdd` |
| C09 | P from C06 |
| C10 | P. carries are Euclidean division; month loop invariant: day number is preserved while month <= 12 |
| C11 | P/R. C10 is the true part, witness 2000-12-31 + 31 days; exact condition |
| C12 | P. closed form of the month loop past December (30-day months) |
| C13, C14 | P. closed forms |
| C15 | P/R. within 32 bits true, witness Years(2^32); C15_exactly_partial: exactly when a sum beyond the last year succeeds |
| C16 | P. sign of remainders |
| C17 | P from C12-C14 |
| C18 | P/R. true part within C10 range; witness around year end; exact conditions for all units |
| C19-C21 | P. case analysis of `adjust_times_sub` |
| C22 | P/R. exact fragment; witness 00:05:00 - 60 s; exact condition |
| C23 | P |
| C24 | P/R. exact fragment; witness; exact condition, for amounts below zero and of any size too |
| C25 | P. invariant of all moment constructors |
| C26 | P/R. all fields except the day; witness |
| C27, C28, C30 | P |
| C29 | P/R. day/hour/minute with whole seconds; witness for month/year; exact condition |
| C31-C33 | P. leap arithmetic, weekday of day number, lexicographic order on trees |
| C34, C35, C39 | P. state machine invariants |
| C36, C37 | P. induction on the number of calls from C10/C13/C14 |
| C38 | P/R. witness |
| C40 | P/R. skip = next; rollback only in the fragment where C24 holds; exact condition for one step and rollback |
| C41, C42, C44 | P. for an arbitrary inner iterator (state machine), induction on calls |
| C43 | P/R. terminates for C36 steps; witness of endless errors; exactly when (`Props_Exact2.v`) |
| C45 | P. except `parse`/`weeks` overflow which is arithmetic too |
| C46-C48 | P. induction on strings / expression lists |
| C49 | P/R. right association: witness `3 days - 2 days + 1 day` ; true for sums; exact deviation (`Props_Exact2.v`) |
| C50 | P. given what the ISO oracle returned |
| C51 | P/R. tomorrow exact; yesterday witness |
| C52 | P/R. exact characterisation, witnesses |
| C53 | P/R. witness |
| C54 | P |
| C55 | P |
| C56 | P/R. release builds never panic; debug witness `2000000000000000000 weeks`; exact condition on the reading |
| C57 | P. congruence of `calculate` on well-shaped trees |
| C58 | P. weekday of the k-th item from C36; month of the k-th item from C37 |
| C59 | P. induction over the evaluator |
| C60 | P. simulation between the two modes, operation by operation |
| C61 | P. number of items of `times` and `until`, from C36, C41, C43 |
| C62 | P/R. successive additions; witnesses around month and year ends; exact conditions for years and months |
| C63 | P. closed forms at zero |
| C64 | P. closed forms for negative amounts |
| C65 | P/R. witnesses where subtraction and adding the opposite differ; exactly when they agree (`Props_Exact2.v`) |
| C66 | P. turns of the loops as a function of the amount |
| C67 | P/R. `test_until` fails on certain days |
| C68, C69 | P. composition of the parser theorems with `Cli.v` |
| C70 | P/R. capitalised units; the time of a moment is dropped; exactly which moments are read back (`Props_Exact2.v`) |
| C71 | P. injectivity of the printed forms |
| C72 | P. one step moves strictly forward or backward, for every unit; induction on the calls |
| C73 | P. equality of the composed step functions; lists of kept items for every/without |
| C74 | P. induction on the list from C10 and C13 |
| C75 | P. case analysis; every/without on finite streams |
| C76 | P/R. closed form of the getters; witnesses 28 days, 60 seconds; exactly when weeks follow the rule (`Props_Exact2.v`) |
| C77 | P. soundness of each parser in turn |
| C78 | P/R. no step can begin with a digit, so the date alone is read |
| C79 | P/R. only `iterator` and `integer` skip blanks first; witness ` today` |
| C80 | P. C72 and the bounds of the calendar; errors repeat (C34) |
| C81 | P/R. case analysis on the UTF-8 table; C56 |
| C82 | P. C77, then the shape analysis of C06 |
| C83 | P. both results are determined by the reading |
| C84 | P. each branch of the evaluator with its arithmetic; induction over the tree |
| C85 | P. subtraction of days (complete behaviour) and ends of months; the variant by C08 |
| C86 | P. shape of sums, errors of the left operand; induction over operations |
| C87 | P/R. closed forms of subtraction; exact condition; witness at seconds |
| C88 | P. each parser is sound and takes the longest reading; induction over expressions |
| C89 | P/R. witnesses where a field comes round at 32 bits; subtractions exactly (modulo a period of 13*2^32 months to 60*60*24*32*13*2^32 seconds); negative amounts exactly |
| C90 | P. induction over expressions with the closed forms of each operation; readings (C88); iterator state holds an expression of known worth |
| C91 | P. the readings of C88 and the worth of C90, induction over the printing loop |
| C92 | P. induction over sizes of expressions, closed forms of carries and borrows for any 64-bit numbers |
| C93 | P. C92, the readings of C88, induction over the printing loop |
| C94 | P. a measure on calls that decreases with every nested call; families of expressions that need it |
| C95 | P. which parsers hand on a request for more input, case by case; with C88 and C93 every command line is covered |
| C96 | P. C80 and the list form of C44; for hanging calls the first item that is not passed over |
| C97 | P. C36, C69, C88 and C92 for the parts in the middle; the assumptions on the parsers are met by `iso_date` and `iso_datetime` |
| C98 | P. C92 for the value; the rest by cases on the last call |
| C99 | P. an invariant on the state; C13, C14, C10 and C19 to C21 for the steps |
| C100 | P. induction on the depth of calls (C94 for the depth); every operand is a value after its first evaluation |
| C101 | P. case analysis; the weekday is the remainder of the number of the day |
| C102 | P. bounds by structure of the tree; induction on the number of operands, each takes at least one byte |
| C103 | P. from what the iterator holds (C86) and the calls of nested sums |
| C104 | P. by lists: a filter over a list in which chosen elements are not too far apart; a month is left after 31 days, a first is followed by an eighth |
| C105 | P. from C95: lines are values without line ends, then at most one error, whose text no other error's text continues |
| C106 | P. by induction on the stack, more fuel changes no answer that was given |
| C107 | P. closed forms of the loops, exact counts from the runs that prove them |
| C108 | P. the closed form of C92 commutes with the change |
| C109 | P. relation between the closed forms of C92 on both expressions |
| C110 | P. the exact output of C93 for both readings |
| C111 | P (partial, _refuted) and the exact conditions. closed forms of +/- for both units |
| C112 | P (partial, _refuted) and the exact distance. closed forms of - |
| C113 | P. closed forms of + and -, compared as year, month, day and second of the day |
| C114 | P (partial, _refuted) and the exact condition. closed forms of + and - as ways from the moment |
| C115 | P. inverse of the closed forms of + |
| C116 | P (partial, _refuted) and the exact condition. ways put together from the closed forms of -, and an invariant of all subtractions where there is none |
| C117 | P. the k-th item in closed form, and the error that follows the last representable one, in both directions |
| C118 | P (partial, _refuted) and the exact conditions for all units. from the exact amounts of C115 and the closed forms of months and years |
| C119 | P. for all units; from the closed forms of subtraction (C57, C112) |
| C120 | P. the lower fields never borrow or carry when the changed unit is longer, so both orders run the same loops and agree also when these overflow |
| C121 | P. from the closed forms of addition (C12) and subtraction (C19, C20) |
| C122 | P. the state after an item holds only this item and the step; distances from C36, common items from C117 |
| C123 | P. sums of months by spill (C54), ends by C10 |
| C124 | P. both items by C36 and C37 |
| C125 | P. exact conditions of C11 and C22 met or missed at chosen moments; months and years by C37 and validity of dates |
| C126 | P. the exact conditions of C11 and C37 met by number theory over the 400-year cycle (two tables by computation) |
| C127 | P. induction over the steps; each step by C64 |
| C128 | P. a table of the multiples of a step on a circle of 7 or 12; then C58's periodic filter |
| C129 | P. C128 and the counting of C61 |
| C130 | P. C44 for each filter, C61 and C129 |
| C131 | P. C37 and the calendar of `Spec`; tables over month, leap flags and the 400-year cycle |
| C132 | P. Format strings of the source, filled in, against the bytes of `Stdout` |

Not expressible: real time behaviour and memory use of endless iterators; behaviour under concurrent
use (the API is single threaded `&mut`).

## The log of wrong programs

`seeded/LOG.jsonl` has three kinds of lines. Where the edit is marked "(automatic)", the build was run up to the first proof that stopped; `failed` then lists the theorems whose proofs lead to that lemma according to the references Coq recorded (`.glob`), and these theorems were not rebuilt one by one. Earlier versions of the log derived these lists from equal names in the text of the files, which named far too many theorems (all of them for some 80 edits). Where the note says "shown false", the negation of each listed theorem was proved for the edited model at a concrete case. For all other lines the whole edited model was rebuilt, and the listed theorems are those whose proofs no longer went through or rested on one that did not.
