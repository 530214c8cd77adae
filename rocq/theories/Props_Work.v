(** Property C102: how much work parsing is. [cfg] is any of the nom behaviours of Nom.v; [pd], [pdt] are any ISO 8601 parsers. *)
Require Import ZArith Bool List String Ascii Lia.
From Verif Require Import Prelude Chrono TimeType Nom ParserTimetype ParserIterator ParserMod SpecText SpecWork Grammar WorkProofs.
Import ListNotations.
Local Open Scope string_scope.
Local Open Scope nat_scope.

(** C102. The tree of combinators whose steps are counted reads what the parser reads. *)
Theorem C102_grammar : forall cfg pd pdt md now1 now2 s,
  reads cfg (g_do_parse cfg pd pdt md now1 now2) s = do_parse md cfg pd pdt now1 now2 s.
Proof. exact reads_parse. Qed.
Print Assumptions C102_grammar.
(** Parsing takes a number of steps proportional to the length of the text, accepted or not. *)
Theorem C102_linear : forall cfg pd pdt md now1 now2 s, consumes pd -> consumes pdt ->
  steps cfg (g_do_parse cfg pd pdt md now1 now2) s <= 1000 * length s + 1500.
Proof. exact (fun cfg pd pdt md now1 now2 s H1 H2 => bound_parse cfg pd pdt H1 H2 md now1 now2 s). Qed.
Print Assumptions C102_linear.
(** Amount expressions of any number of operands. *)
Theorem C102_expression : forall cfg, (forall s, reads cfg (g_amount_expr cfg) s = amount_expr cfg s) /\
  (forall s, steps cfg (g_amount_expr cfg) s <= 304 * length s + 281).
Proof. exact (fun cfg => conj (reads_expr cfg) (bound_expr cfg)). Qed.
Print Assumptions C102_expression.
(** At most four calls of the parsers of the iso8601 crate. *)
Theorem C102_iso_calls : forall cfg pd pdt md now1 now2 s, iso_calls cfg (g_do_parse cfg pd pdt md now1 now2) s <= 4.
Proof. exact calls_parse. Qed.
Print Assumptions C102_iso_calls.

Definition C102_now : datetime := mkdt 2017 3 4 5 6 7 0.
(** For the examples: ISO 8601 parsers that know finitely many texts. *)
Definition C102_pd : parser isodate := table [("2017-01-01", YMD 2017 1 1); ("2018-01-01", YMD 2018 1 1)].
Definition C102_pdt : parser (isodate * isotime) := table [].
Example C102_consumes : consumes C102_pd /\ consumes C102_pdt.
Proof.
  split; intros s r a; [|discriminate]. unfold C102_pd. cbn [table].
  destruct (strip "2017-01-01" s) eqn:E1; [intro H; injection H as <- _; apply strip_len in E1; lia|].
  destruct (strip "2018-01-01" s) eqn:E2; [intro H; injection H as <- _; apply strip_len in E2; lia|discriminate].
Qed.
Notation C102_steps s := (steps (mkcfg true true) (g_do_parse (mkcfg true true) C102_pd C102_pdt Checked C102_now C102_now) s).
(** Every further operand takes as many steps as the one before. *)
Example C102_case : map (fun s => C102_steps s)
  ["3days"; "3days + 3days"; "3days + 3days + 3days"; "3days + 3days + 3days + 3days"] = [159; 266; 373; 480].
Proof. vm_compute. reflexivity. Qed.
(** A text that is not accepted, and one of which only the beginning is. *)
Example C102_rejected_case : map (fun s => C102_steps s) ["yesterdax"; "today + 3days + 4"] = [119; 610] /\
  parse Checked (mkcfg true true) C102_pd C102_pdt C102_now C102_now "yesterdax" = Err NomError.
Proof. vm_compute. repeat split. Qed.
(** Two dates that are tried as date-times first: four calls. *)
Example C102_iso_case :
  iso_calls (mkcfg true true) (g_do_parse (mkcfg true true) C102_pd C102_pdt Checked C102_now C102_now) "2017-01-01 daily until 2018-01-01" = 4 /\
  iso_calls (mkcfg true true) (g_do_parse (mkcfg true true) C102_pd C102_pdt Checked C102_now C102_now) "2017-01-01 + 3days" = 4 /\
  iso_calls (mkcfg true true) (g_do_parse (mkcfg true true) C102_pd C102_pdt Checked C102_now C102_now) "today + 3days" = 0.
Proof. vm_compute. repeat split. Qed.
