(** Property C95: which error a rejected text gives, and the output of the program for every command line. *)
Require Import ZArith Bool List String Ascii Lia.
From Verif Require Import Prelude Spec Chrono TimeType Iter SpecTree SpecMoment Nom ParserTimetype ParserIterator ParserMod SpecText SpecDoc SpecLong SpecReject Show Cli SpecCli SpecProgram
  SpecAnswer SpecAnswer2 NomProofs ParserProofs3 ParserProofs6 DocProofs LongProofs LongProofs2 RejectProofs.
Import ListNotations.
Local Open Scope string_scope.
Local Open Scope Z_scope.

(** C95. A text that could go on is no text of the language, and the error says nothing about it. *)
Theorem C95_unfinished : forall cfg pd pdt, (forall s, fine pd s) -> (forall s, fine pdt s) -> forall md now1 now2 s, starved cfg pd pdt s ->
  (forall x r, ~ reads cfg pd pdt x s r) /\ parse md cfg pd pdt now1 now2 s = Err UnknownParserError.
Proof. exact starved_rejected. Qed.
Print Assumptions C95_unfinished.
(** All other texts that have no reading give an error of nom. *)
Theorem C95_others : forall cfg pd pdt, (forall s, fine pd s) -> (forall s, fine pdt s) -> forall md now1 now2 s,
  (forall x r, ~ reads cfg pd pdt x s r) -> ~ starved cfg pd pdt s -> parse md cfg pd pdt now1 now2 s = Err NomError.
Proof. exact others_rejected. Qed.
Print Assumptions C95_others.
(** Every text is of one of three kinds. *)
Theorem C95_texts : forall cfg pd pdt, (forall s, fine pd s) -> (forall s, fine pdt s) -> forall md now1 now2 s,
  (exists x r, reads cfg pd pdt x s r /\ parse md cfg pd pdt now1 now2 s = made md now1 now2 x) \/
  (starved cfg pd pdt s /\ parse md cfg pd pdt now1 now2 s = Err UnknownParserError) \/
  ((forall x r, ~ reads cfg pd pdt x s r) /\ ~ starved cfg pd pdt s /\ parse md cfg pd pdt now1 now2 s = Err NomError).
Proof. exact parse_cases. Qed.
Print Assumptions C95_texts.
(** The output for every command line. *)
Theorem C95_program : forall cfg pd pdt, (forall s, fine pd s) -> (forall s, fine pdt s) ->
  (forall s r d, pd s = Done r d -> isodate_ok d) -> (forall s r d t, pdt s = Done r (d, t) -> isodate_ok d /\ isotime_ok t) ->
  forall md now1 now2 n args, dt_valid now1 = true -> dt_valid now2 = true ->
  exists w1 s w2, concat " " args = w1 ++ s ++ w2 /\ spaces w1 /\ spaces w2 /\ solid s /\
  ((exists x r, reads cfg pd pdt x s r /\ main md cfg pd pdt now1 now2 n args = exact_program md now1 now2 n x) \/
   (starved cfg pd pdt s /\ main md cfg pd pdt now1 now2 n args = ([ParseError UnknownParserError], Exits 0)) \/
   ((forall x r, ~ reads cfg pd pdt x s r) /\ ~ starved cfg pd pdt s /\ main md cfg pd pdt now1 now2 n args = ([ParseError NomError], Exits 0))).
Proof. exact program_total. Qed.
Print Assumptions C95_program.

(** A number without unit, the beginnings of the last units; a number that is too large or has another unit. *)
Example C95_case : let cfg := mkcfg false true in
  (forall s, fine toy_dates s) /\ (forall s, fine toy_times s) /\
  starved cfg toy_dates toy_times " 5 	yr" /\ starved cfg toy_dates toy_times "yearl" /\ starved cfg toy_dates toy_times " " /\
  ~ starved cfg toy_dates toy_times "99999999999999999999" /\ ~ starved cfg toy_dates toy_times "5 m" /\
  (forall md, map (parse md cfg toy_dates toy_times noon2 noon2) [" 5 	yr"; "yearl"; " "; "99999999999999999999"; "5 m"] =
    [Err UnknownParserError; Err UnknownParserError; Err UnknownParserError; Err NomError; Err NomError]).
Proof.
  assert (F1 : forall s, fine toy_dates s) by exact (table_fine _ _). assert (F2 : forall s, fine toy_times s) by exact (table_fine _ _).
  assert (N : forall s it r, iterator (mkcfg false true) toy_dates toy_times s = PError \/ iterator (mkcfg false true) toy_dates toy_times s = Incomplete ->
    ~ iterator_read toy_dates toy_times it s r).
  { intros s it r E I. apply (iterator_most (mkcfg false true) _ _ F1 F2) in I. destruct E; congruence. }
  assert (M : forall s, do_parse Checked (mkcfg false true) toy_dates toy_times noon2 noon2 s = PError -> ~ starved (mkcfg false true) toy_dates toy_times s).
  { intros s E S. apply (do_parse_waits _ _ _ F1 F2 Checked noon2 noon2) in S. congruence. }
  cbv zeta. split; [exact F1|]. split; [exact F2|].
  split; [|split; [|split; [|split; [|split]]]].
  - split; [reflexivity|]. split; [intros it r; apply N; vm_compute; tauto|]. right. split; [intros [[q K]|[[q K]|[q K]]]; discriminate K|].
    split; [split; left; reflexivity|]. apply (UF_number _ " " "5" " 	" "yr"); try reflexivity; [split; [reflexivity|discriminate]|vm_compute; discriminate|cbn; tauto].
  - split; [reflexivity|]. split; [intros it r; apply N; vm_compute; tauto|]. right. split; [intros [[q K]|[[q K]|[q K]]]; discriminate K|].
    split; [split; left; reflexivity|]. apply UF_adverb. cbn. tauto.
  - split; [reflexivity|]. split; [intros it r; apply N; vm_compute; tauto|]. right. split; [intros [[q K]|[[q K]|[q K]]]; discriminate K|].
    split; [split; left; reflexivity|]. apply UF_blank; reflexivity.
  - apply M. vm_compute. reflexivity.
  - apply M. vm_compute. reflexivity.
  - intros []; vm_compute; reflexivity.
Qed.
(** A date parser that wants four characters for the year keeps short amounts from being read, unless nom turns the request into an error. *)
Definition C95_dates (s : string) : iresult isodate := if (length s <? 4)%nat then Incomplete else toy_dates s.
Example C95_short_case : (forall s, fine C95_dates s) /\ (forall s r d, C95_dates s = Done r d -> isodate_ok d) /\
  starved (mkcfg false true) C95_dates toy_times "5 d" /\
  reads (mkcfg true true) C95_dates toy_times (AsTimeType (PTAmountExpr (AELast (Amount 5 PDay)))) "5 d" "" /\
  forall md, main md (mkcfg false true) C95_dates toy_times noon2 noon2 3 ["5"; "d"] = ([ParseError UnknownParserError], Exits 0) /\
    main md (mkcfg true true) C95_dates toy_times noon2 noon2 3 ["5"; "d"] = ([Value "5 Days"], Exits 0) /\
    main md (mkcfg false true) C95_dates toy_times noon2 noon2 3 ["5"; "days"] = ([Value "5 Days"], Exits 0).
Proof.
  assert (F1 : forall s, fine C95_dates s).
  { intro s. pose proof (table_fine _ _ s : fine toy_dates s) as F. unfold fine, C95_dates in *. destruct (length s <? 4)%nat; [exact I|exact F]. }
  assert (F2 : forall s, fine toy_times s) by exact (table_fine _ _).
  assert (N : forall cfg s it r, iterator cfg C95_dates toy_times s = PError \/ iterator cfg C95_dates toy_times s = Incomplete -> ~ iterator_read C95_dates toy_times it s r).
  { intros cfg s it r E J. apply (iterator_most cfg _ _ F1 F2) in J. destruct E; congruence. }
  split; [exact F1|]. split; [|split; [|split]].
  - intros s r d H. unfold C95_dates in H. destruct (length s <? 4)%nat; [discriminate H|]. eapply toy_dates_ok. exact H.
  - split; [reflexivity|]. split; [intros it r; apply (N (mkcfg false true)); vm_compute; tauto|]. left. split; [intros [[q K]|[[q K]|[q K]]]; discriminate K|].
    split; [left; reflexivity|reflexivity].
  - apply R_amount; [intros it r; apply (N (mkcfg true true)); vm_compute; tauto|intros [[q K]|[[q K]|[q K]]]; discriminate K|split; [left|right; split]; reflexivity|].
    apply (expr_most (mkcfg true true)). vm_compute. reflexivity.
  - intros []; (split; [|split]); vm_compute; reflexivity.
Qed.
