(** Properties C53, C79 (exactly) and C88: the parser takes as much of the text as possible. *)
Require Import ZArith Bool List String Ascii Lia.
From Verif Require Import Prelude Spec Chrono TimeType Iter SpecTree SpecMoment Nom ParserTimetype ParserIterator ParserMod SpecText SpecDoc SpecLong
  NomProofs ParserProofs ParserProofs2 ParserProofs3 ParserProofs6 DocProofs LongProofs LongProofs2 LongProofs3.
Import ListNotations.
Local Open Scope string_scope.
Local Open Scope Z_scope.

(** C88. Every text is read as an iterator if possible, otherwise as a date, otherwise as an amount expression; each part is as long as
    possible, and the result is that of the reading. A text without reading is rejected. *)
Theorem C88_parse : forall cfg pd pdt, (forall s, fine pd s) -> (forall s, fine pdt s) -> forall md now1 now2 s,
  (exists x r, reads cfg pd pdt x s r /\ parse md cfg pd pdt now1 now2 s = made md now1 now2 x) \/
  ((forall x r, ~ reads cfg pd pdt x s r) /\
   (parse md cfg pd pdt now1 now2 s = Err NomError \/ parse md cfg pd pdt now1 now2 s = Err UnknownParserError /\ last_complete cfg = false)).
Proof. exact parse_reads. Qed.
Print Assumptions C88_parse.
(** There is at most one reading. *)
Theorem C88_one_reading : forall cfg pd pdt, (forall s, fine pd s) -> (forall s, fine pdt s) -> forall x x' s r r',
  reads cfg pd pdt x s r -> reads cfg pd pdt x' s r' -> x = x' /\ r = r'.
Proof. exact reads_fun. Qed.
Print Assumptions C88_one_reading.
Definition C88_it : piterator :=
  Iterator (Date Today (Some (Plus, AENext (Amount 5 PDay) Minus (AELast (Amount 3 PHour))))) IDaily (Some (UTimes 4)).
Example C88_case : (forall s, fine toy_dates s) /\ (forall s, fine toy_times s) /\
  reads (mkcfg true true) toy_dates toy_times (AsIterator C88_it) "	today + 5 days - 3hrs daily 4 times, please" ", please" /\
  reads (mkcfg true true) toy_dates toy_times (AsTimeType (PTDate (Date Today (Some (Plus, AELast (Amount 5 PHour)))))) "today + 5 hrsecondly" "econdly" /\
  reads (mkcfg true true) toy_dates toy_times (AsTimeType (PTAmountExpr (AELast (Amount 5 PSecond)))) "5 secondly - 1 d" "ly - 1 d" /\
  forall x r, ~ reads (mkcfg true true) toy_dates toy_times x " today" r.
Proof.
  assert (F1 : forall s, fine toy_dates s) by exact (table_fine _ _). assert (F2 : forall s, fine toy_times s) by exact (table_fine _ _).
  assert (N : forall s it r, iterator (mkcfg true true) toy_dates toy_times s = PError -> ~ iterator_read toy_dates toy_times it s r).
  { intros s it r E I. apply (iterator_most (mkcfg true true) _ _ F1 F2) in I. congruence. }
  split; [exact F1|]. split; [exact F2|]. split; [apply R_iterator; apply (iterator_most (mkcfg true true) _ _ F1 F2); vm_compute; reflexivity|].
  split; [apply R_date; [intros it0 r0; apply N; vm_compute; reflexivity|apply (date_most (mkcfg true true) _ _ F1 F2); vm_compute; reflexivity]|].
  split; [apply R_amount; [intros it0 r0; apply N; vm_compute; reflexivity|intros [[q K]|[[q K]|[q K]]]; discriminate K|split; left; reflexivity|
    apply (expr_most (mkcfg true true)); vm_compute; reflexivity]|].
  intros x r R. pose proof (proj2 (do_parse_reads (mkcfg true true) _ _ F1 F2 Checked noon2 noon2 " today" r (made Checked noon2 noon2 x)) (ex_intro _ x (conj R eq_refl))) as H.
  replace (do_parse _ _ _ _ _ _ _) with (PError (A := outcome kek parsed)) in H by (vm_compute; reflexivity). discriminate H.
Qed.
(** The longest unit is taken, even where only a shorter one lets an iteration step follow. *)
Theorem C88_shorter_not_tried : exists x, begins_with toy_dates toy_times (AsIterator x) "today + 5 hrsecondly" "" /\
  (forall cfg md, exists t, parse md cfg toy_dates toy_times noon2 noon2 "today + 5 hrsecondly" = Ok (PTimeType t)).
Proof.
  exists (Iterator (Date Today (Some (Plus, AELast (Amount 5 PHour)))) ISecondly None). split.
  - apply (BW_iterator toy_dates toy_times _ ISecondly None "" "today + 5 hrsecondly" "" "secondly" "" ""); try reflexivity.
    + apply (DB_op toy_dates toy_times Today _ " " Plus " " (AELast (Amount 5 PHour)) "5 hr" ""); try reflexivity.
      * apply (ER_today toy_dates toy_times " + 5 hrsecondly").
      * apply ET_last. apply (AT_number "" "5" " " "hr" PHour); try (vm_compute; tauto); [split; [reflexivity|discriminate]|vm_compute; discriminate].
    + apply (ST_adverb "secondly" ASecondly). vm_compute. tauto.
    + apply BB_none.
  - intros [[] []] []; exists (Addition (Moment noon2) (Hours 5)); vm_compute; reflexivity.
Qed.
Print Assumptions C88_shorter_not_tried.

(** C53. A text is accepted if and only if it has a reading; what remains is ignored. *)
Theorem C53_exactly_partial : forall cfg pd pdt, (forall s, fine pd s) -> (forall s, fine pdt s) -> forall md now1 now2 s r p,
  do_parse md cfg pd pdt now1 now2 s = Done r p <-> exists x, reads cfg pd pdt x s r /\ p = made md now1 now2 x.
Proof. exact do_parse_reads. Qed.
Print Assumptions C53_exactly_partial.
Example C53_exactly_case : exists p, do_parse Checked (mkcfg true true) toy_dates toy_times noon2 noon2 "2016-02-29 - 2 w garbage" = Done "garbage" p /\
  (exists x, reads (mkcfg true true) toy_dates toy_times x "2016-02-29 - 2 w garbage" "garbage").
Proof.
  assert (F1 : forall s, fine toy_dates s) by exact (table_fine _ _). assert (F2 : forall s, fine toy_times s) by exact (table_fine _ _).
  assert (H : do_parse Checked (mkcfg true true) toy_dates toy_times noon2 noon2 "2016-02-29 - 2 w garbage" =
    Done "garbage" (Ok (PTimeType (Subtraction (Moment (mkdt 2016 2 29 0 0 0 0)) (Days 14))))) by (vm_compute; reflexivity).
  eexists. split; [exact H|]. apply (do_parse_reads _ _ _ F1 F2) in H. destruct H as (x & R & _). exists x. exact R.
Qed.

(** C79. A text after blanks has exactly these readings: an iterator as without the blanks, and otherwise the longest amount expression, if the
    first character is a digit. *)
Theorem C79_exactly_partial : forall cfg pd pdt x b s r, blanks b -> b <> "" -> starts blank_char s = false -> no_iso cfg pd pdt (b ++ s) ->
  (reads cfg pd pdt x (b ++ s) r <->
   (exists it, x = AsIterator it /\ iterator_read pd pdt it s r) \/
   ((forall it r', ~ iterator_read pd pdt it s r') /\ starts digit_char s = true /\ exists e, x = AsTimeType (PTAmountExpr e) /\ most expr_begins e s r)).
Proof. exact reads_blank. Qed.
Print Assumptions C79_exactly_partial.
Example C79_exactly_case : let cfg := mkcfg true true in no_iso cfg toy_dates toy_times " 	5 days!" /\
  reads cfg toy_dates toy_times (AsTimeType (PTAmountExpr (AELast (Amount 5 PDay)))) (" 	" ++ "5 days!") "!" /\
  reads cfg toy_dates toy_times (AsTimeType (PTAmountExpr (AELast (Amount 1 PDay)))) "daily!" "!" /\
  forall x r, ~ reads cfg toy_dates toy_times x (" " ++ "daily!") r.
Proof.
  assert (F1 : forall s, fine toy_dates s) by exact (table_fine _ _). assert (F2 : forall s, fine toy_times s) by exact (table_fine _ _).
  assert (N : forall s it r, iterator (mkcfg true true) toy_dates toy_times s = PError -> ~ iterator_read toy_dates toy_times it s r).
  { intros s it r E I. apply (iterator_most (mkcfg true true) _ _ F1 F2) in I. congruence. }
  cbv zeta. split; [split; left; reflexivity|]. split; [|split].
  - apply reads_blank; [reflexivity|discriminate|reflexivity|split; left; reflexivity|]. right. split; [intros it0 r0; apply N; vm_compute; reflexivity|].
    split; [reflexivity|]. exists (AELast (Amount 5 PDay)). split; [reflexivity|]. apply (expr_most (mkcfg true true)). vm_compute. reflexivity.
  - apply R_amount; [intros it0 r0; apply N; vm_compute; reflexivity|intros [[q K]|[[q K]|[q K]]]; discriminate K|split; left; reflexivity|].
    apply (expr_most (mkcfg true true)). vm_compute. reflexivity.
  - intros x r R. apply reads_blank in R; [|reflexivity|discriminate|reflexivity|split; left; reflexivity].
    destruct R as [(it & _ & I)|(_ & D & _)]; [|discriminate D]. revert I. apply N. vm_compute. reflexivity.
Qed.
