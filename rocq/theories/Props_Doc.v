(** Properties C76-C83: claims of the documentation and of the fuzz target. *)
Require Import ZArith Bool List String Ascii Lia.
From Verif Require Import Prelude Spec Chrono TimeType SpecTree SpecGetter SpecMoment SpecIter SpecAdapt Iter Nom ParserTimetype ParserIterator ParserMod Fuzz SpecText SpecDoc
  AmountProofs ParserProofs2 ParserProofs3 ParserProofs4 ParserProofs5 ParserProofs6 FuzzProofs DocProofs.
Import ListNotations.
Local Open Scope string_scope.
Local Open Scope Z_scope.

(** The ISO 8601 parsers return fields within their types. *)
Definition ok_dates4 (pd : parser isodate) : Prop := forall s r d, pd s = Done r d -> isodate_ok d.
Definition ok_times4 (pdt : parser (isodate * isotime)) : Prop := forall s r d t, pdt s = Done r (d, t) -> isodate_ok d /\ isotime_ok t.
(** For examples: a clock reading. *)
Definition noon : datetime := mkdt 2016 2 29 12 0 0 0.

(** C76. The rules for getters stated in the documentation of TimeType: 4 weeks make a month, and a smaller
    amount yields zero.
    Missing: a month is 30 days, so 28 days are no month and a month is 30 days; a smaller amount yields zero
    only if it is worth less than one of the queried unit. *)
Theorem C76_smaller_partial : forall md u v n, in_i64 n = true -> unit_secs v < unit_secs u ->
  exists q, getter md u (mk v n) = Ok q /\ (q = 0 <-> Z.abs n * unit_secs v < unit_secs u).
Proof. exact smaller_zero. Qed.
Print Assumptions C76_smaller_partial.
Theorem C76_weeks_partial : forall md n t, 0 <= n -> weeks md n = Ok t -> in_i64 (7 * n) = true ->
  exists q, get_months md t = Ok q /\ q <= n / 4 /\ (60 <= n -> q < n / 4).
Proof. exact weeks_months. Qed.
Print Assumptions C76_weeks_partial.
Theorem C76_rules_refuted : forall md,
  (exists t, weeks md 4 = Ok t /\ get_months md t = Ok 0) /\ get_days md (Months 1) = Ok 30 /\
  get_minutes md (Seconds 60) = Ok 1 /\ unit_secs USec < unit_secs UMin.
Proof. intros []; (split; [exists (Days 28); split; reflexivity|repeat split]). Qed.
Print Assumptions C76_rules_refuted.
Example C76_case : in_i64 (-2591999) = true /\ Z.abs (-2591999) * unit_secs USec < unit_secs UMonth /\ getter Checked UMonth (mk USec (-2591999)) = Ok 0 /\
  getter Checked UMonth (mk USec (-2592000)) = Ok (-1) /\ weeks Checked 60 = Ok (Days 420) /\ get_months Checked (Days 420) = Ok 14 /\ 60 / 4 = 15 /\
  weeks Checked 5 = Ok (Days 35) /\ get_months Checked (Days 35) = Ok 1.
Proof. vm_compute. repeat split. Qed.

(** C77. Whatever is accepted begins with a text of the language, and the result is that of the text. *)
Theorem C77_accepted : forall cfg pd pdt md now1 now2 s r p, do_parse md cfg pd pdt now1 now2 s = Done r p ->
  exists x, begins_with pd pdt x s r /\
    p = match x with AsIterator it => lower_iterator md now1 now2 it | AsTimeType t => lower_timetype md now1 t end.
Proof. exact accepted_reads. Qed.
Print Assumptions C77_accepted.
Example C77_case : exists p, do_parse Checked (mkcfg true true) toy_dates toy_times noon noon "  today + 1 day every 2 hours 3 times, please" = Done ", please" p /\
  p = lower_iterator Checked noon noon (Iterator (Date Today (Some (Plus, AELast (Amount 1 PDay)))) (IEvery 2 PHour) (Some (UTimes 3))).
Proof. eexists. split; vm_compute; reflexivity. Qed.

(** C78. A step is written "every" number unit, an adverb or - says the documentation - number unit.
    Missing: the last form; a date followed by a number is the date alone, the rest is ignored. *)
Theorem C78_step_partial : forall cfg pd pdt md now1 now2 d s b ds rest, date_reads pd pdt d s (b ++ ds ++ rest) -> starts blank_char s = false ->
  blanks b -> digits ds ->
  parse md cfg pd pdt now1 now2 s = do t <- date_into md now1 d; Ok (PTimeType t).
Proof. exact step_without_every. Qed.
Print Assumptions C78_step_partial.
Theorem C78_step_refuted : forall cfg md,
  parse md cfg toy_dates toy_times noon noon "today 2 hours" = Ok (PTimeType (Moment noon)) /\
  (exists it, parse md cfg toy_dates toy_times noon noon "today every 2 hours" = Ok (PIterator (Ok (UIIterator it)))).
Proof. intros [[] []] []; (split; [reflexivity|eexists; vm_compute; reflexivity]). Qed.
Print Assumptions C78_step_refuted.
Example C78_case : date_reads toy_dates toy_times (Date Today None) "today 2 hours" (" " ++ "2" ++ " hours") /\ blanks " " /\ digits "2".
Proof.
  split; [apply DR_exact; [apply (ER_today toy_dates toy_times " 2 hours")|reflexivity]|]. split; [reflexivity|split; [reflexivity|discriminate]].
Qed.

(** C79. Blanks at the beginning do not matter.
    Missing: they do not matter before iterators and before expressions that begin with a number; other texts
    after blanks are rejected. *)
Theorem C79_iterators_partial : forall cfg pd pdt md now1 now2 d sp u b s r1 t r2, blanks b ->
  date_reads pd pdt d s r1 -> starts blank_char s = false -> drop_blanks r1 = t ++ r2 -> step_text sp t -> starts letter_char r2 = false ->
  bound_reads pd pdt u (drop_blanks r2) ->
  parse md cfg pd pdt now1 now2 (b ++ s) = parse md cfg pd pdt now1 now2 s.
Proof. exact (fun cfg pd pdt md now1 now2 d sp u b s r1 t r2 B D S E T L U => same_iterators cfg pd pdt md now1 now2 d sp u b s r1 t r2 "" s r1 t r2 B eq_refl D D S S E E T T L L U U). Qed.
Print Assumptions C79_iterators_partial.
Theorem C79_numbers_partial : forall cfg pd pdt md now1 now2 e b s r, blanks b -> expr_text e s -> starts digit_char (drop_blanks s) = true -> stop r ->
  no_iso cfg pd pdt (b ++ s ++ r) -> no_iso cfg pd pdt (s ++ r) -> no_iso cfg pd pdt (drop_blanks (s ++ r)) ->
  parse md cfg pd pdt now1 now2 (b ++ s ++ r) = parse md cfg pd pdt now1 now2 (s ++ r).
Proof. exact blank_expr. Qed.
Print Assumptions C79_numbers_partial.
Theorem C79_dates_rejected_partial : forall cfg pd pdt md now1 now2 d b s rest, blanks b -> b <> "" -> date_reads pd pdt d s rest ->
  starts blank_char s = false -> starts digit_char s = false -> starts letter_char (drop_blanks rest) = false -> no_iso cfg pd pdt (b ++ s) ->
  parse md cfg pd pdt now1 now2 (b ++ s) = Err NomError \/ parse md cfg pd pdt now1 now2 (b ++ s) = Err UnknownParserError.
Proof. exact blank_date. Qed.
Print Assumptions C79_dates_rejected_partial.
Theorem C79_others_rejected_partial : forall cfg pd pdt md now1 now2 b s, blanks b -> b <> "" -> starts blank_char s = false -> starts digit_char s = false ->
  ~ keyword s -> no_iso cfg pd pdt s -> no_iso cfg pd pdt (b ++ s) ->
  parse md cfg pd pdt now1 now2 (b ++ s) = Err NomError \/ parse md cfg pd pdt now1 now2 (b ++ s) = Err UnknownParserError.
Proof. exact blank_other. Qed.
Print Assumptions C79_others_rejected_partial.
Theorem C79_blanks_refuted : forall cfg md,
  parse md cfg toy_dates toy_times noon noon "today" = Ok (PTimeType (Moment noon)) /\ parse md cfg toy_dates toy_times noon noon " today" = Err NomError /\
  parse md cfg toy_dates toy_times noon noon "weekly" = Ok (PTimeType (Days 7)) /\ parse md cfg toy_dates toy_times noon noon " weekly" = Err NomError.
Proof. intros [[] []] []; repeat split. Qed.
Print Assumptions C79_blanks_refuted.
Lemma C79_toy : forall cfg s, starts digit_char s = false -> no_iso cfg toy_dates toy_times s.
Proof.
  intros cfg s H. destruct s as [|[[] [] [] [] [] [] [] []] s]; try discriminate H; (split; left; reflexivity).
Qed.
Example C79_case : no_iso (mkcfg true true) toy_dates toy_times "  today" /\ date_reads toy_dates toy_times (Date Today None) "today" "" /\
  no_iso (mkcfg true true) toy_dates toy_times "	weekly" /\ no_iso (mkcfg true true) toy_dates toy_times "weekly" /\ ~ keyword "weekly" /\
  parse Checked (mkcfg true true) toy_dates toy_times noon noon "	 2 days" = Ok (PTimeType (Days 2)) /\
  parse Checked (mkcfg true true) toy_dates toy_times noon noon " today daily" = parse Checked (mkcfg true true) toy_dates toy_times noon noon "today 	daily" /\
  expr_text (AELast (Amount 2 PDay)) "2 days" /\ no_iso (mkcfg true true) toy_dates toy_times "2 days".
Proof.
  split; [apply C79_toy; reflexivity|]. split; [apply DR_exact; [apply (ER_today toy_dates toy_times "")|reflexivity]|].
  split; [apply C79_toy; reflexivity|]. split; [apply C79_toy; reflexivity|].
  split; [intros [[r H]|[[r H]|[r H]]]; discriminate H|]. split; [reflexivity|]. split; [vm_compute; reflexivity|].
  split; [|split; left; reflexivity].
  apply ET_last. apply (AT_number "" "2" " " "days" PDay); try (vm_compute; tauto); [split; [reflexivity|discriminate]|vm_compute; discriminate].
Qed.

(** C80. An iterator without bound yields moments, finitely many, and then the same error again and again;
    it does not panic, whatever the build mode. *)
Theorem C80_forward : forall md m u n it, build m (mk u n) = Ok it -> dt_valid m = true -> 0 < n -> n * unit_secs u <= span32 ->
  exists K e, Z.of_nat K <= instant (max_year + 1) 1 1 0 0 0 - inst m /\
    (forall k, (k < K)%nat -> exists b, nth_item (iter_next md) k it = Some (Ok (Moment b)) /\ dt_valid b = true) /\
    forall k, (K <= k)%nat -> nth_item (iter_next md) k it = Some (Err e).
Proof. exact forward_ends. Qed.
Print Assumptions C80_forward.
Theorem C80_backward : forall md m u n it, build m (mk u n) = Ok it -> dt_valid m = true -> -2147483648 <= n < 0 ->
  exists K e, Z.of_nat K <= inst m - instant min_year 1 1 0 0 0 + 1 /\
    (forall k, (k < K)%nat -> exists b, nth_item (iter_next md) k it = Some (Ok (Moment b)) /\ dt_valid b = true) /\
    forall k, (K <= k)%nat -> nth_item (iter_next md) k it = Some (Err e).
Proof. exact backward_ends. Qed.
Print Assumptions C80_backward.
Example C80_case : let m := mkdt max_year 12 31 23 30 0 0 in exists it, build m (mk UMin 15) = Ok it /\ dt_valid m = true /\ 15 * unit_secs UMin <= span32 /\
  map (fun k => nth_item (iter_next Checked) k it) [0; 1; 2; 3; 7]%nat =
  [Some (Ok (Moment m)); Some (Ok (Moment (mkdt max_year 12 31 23 45 0 0))); Some (Err (OutOfBounds (max_year + 1) 1 0 0 0 0));
   Some (Err (OutOfBounds (max_year + 1) 1 0 0 0 0)); Some (Err (OutOfBounds (max_year + 1) 1 0 0 0 0))].
Proof. eexists. repeat split. vm_compute. discriminate. Qed.

(** C81. The fuzz target: bytes are passed on iff they are the encoding of characters, and no input crashes it.
    Missing: with overflow checks a large number of weeks is a crash; there is no other. *)
Theorem C81_utf8 : forall s, utf8_ok s = true <-> exists l, Forall scalar l /\ s = utf8 l.
Proof. exact utf8_iff. Qed.
Print Assumptions C81_utf8.
Theorem C81_not_text : forall md cfg pd pdt now1 now2 s, (forall l, Forall scalar l -> s <> utf8 l) -> fuzz_target md cfg pd pdt now1 now2 s = Ok tt.
Proof. exact fuzz_other. Qed.
Print Assumptions C81_not_text.
Theorem C81_no_crash_partial : forall cfg pd pdt, (forall s, fine pd s) -> (forall s, fine pdt s) -> ok_dates4 pd -> ok_times4 pdt ->
  forall now1 now2 s, dt_valid now1 = true -> dt_valid now2 = true -> fuzz_target Wrapping cfg pd pdt now1 now2 s = Ok tt.
Proof. exact fuzz_no_checks. Qed.
Print Assumptions C81_no_crash_partial.
Theorem C81_overflow_only_partial : forall cfg pd pdt, (forall s, fine pd s) -> (forall s, fine pdt s) -> ok_dates4 pd -> ok_times4 pdt ->
  forall now1 now2 s, dt_valid now1 = true -> dt_valid now2 = true ->
  fuzz_target Checked cfg pd pdt now1 now2 s = Ok tt \/ fuzz_target Checked cfg pd pdt now1 now2 s = Panic PArith.
Proof. exact fuzz_checks. Qed.
Print Assumptions C81_overflow_only_partial.
Theorem C81_crash_refuted : forall cfg pd pdt now1 now2 n, i64_max < 7 * decimal n -> digits n -> decimal n <= i64_max ->
  no_iso cfg pd pdt (n ++ " weeks") -> fuzz_target Checked cfg pd pdt now1 now2 (n ++ " weeks") = Panic PArith.
Proof. exact fuzz_crash. Qed.
Print Assumptions C81_crash_refuted.
Example C81_case : utf8 [8364; 55; 128512] = "€7😀" /\ utf8_ok "€7😀" = true /\ utf8_ok (String "224" (String "128" (String "128" ""))) = false /\
  utf8_ok (String "237" (String "160" (String "128" ""))) = false /\ i64_max < 7 * decimal "1317624576693539402" /\ decimal "1317624576693539402" <= i64_max /\
  no_iso (mkcfg true true) toy_dates toy_times "1317624576693539402 weeks" /\
  fuzz_target Checked (mkcfg true true) toy_dates toy_times noon noon "1317624576693539402 weeks" = Panic PArith /\
  fuzz_target Checked (mkcfg true true) toy_dates toy_times noon noon "1317624576693539401 weeks" = Ok tt.
Proof.
  split; [reflexivity|]. split; [reflexivity|]. split; [reflexivity|]. split; [reflexivity|]. split; [vm_compute; reflexivity|].
  split; [vm_compute; discriminate|]. split; [split; left; reflexivity|]. split; vm_compute; reflexivity.
Qed.

(** C82. What a parsed text evaluates to: an amount, a valid moment or OutOfBounds; only `yesterday + ...` is
    an error of another kind, and only overflow checks make evaluation panic. *)
Theorem C82_kinds : forall cfg pd pdt, ok_dates4 pd -> ok_times4 pdt ->
  forall md now1 now2 s t, dt_valid now1 = true -> dt_valid now2 = true -> parse md cfg pd pdt now1 now2 s = Ok (PTimeType t) ->
  match calculate md t with
  | Ok v => (exists u n, v = mk u n) \/ (exists m, v = Moment m /\ dt_valid m = true)
  | Err (OutOfBounds _ _ _ _ _ _) => True
  | Err _ => exists b1 b2 e t' rest, s = "yesterday" ++ b1 ++ "+" ++ b2 ++ t' ++ rest /\ blanks b1 /\ blanks b2 /\ expr_text e t'
  | Panic p => md = Checked /\ p = PArith
  | OutOfFuel => False
  end.
Proof. exact result_kinds. Qed.
Print Assumptions C82_kinds.
Example C82_case : let go s := match parse Checked (mkcfg true true) toy_dates toy_times noon noon s with Ok (PTimeType t) => calculate Checked t | _ => OutOfFuel end in
  go "2 days - 1 hour" = Ok (Hours 47) /\ go "tomorrow + 2 hours" = Ok (Moment (mkdt 2016 3 1 14 0 0 0)) /\ go "yesterday - 1 day" = Ok (Moment (mkdt 2016 2 27 12 0 0 0)) /\
  go "today + 300000 years" = Err (OutOfBounds 302016 2 12 12 0 0) /\ go "yesterday + 1 day" = Err (CannotAdd (Days 1) (Moment (mkdt 2016 2 28 12 0 0 0))) /\
  go "9223372036854775807 years + 1 s" = Panic PArith.
Proof. vm_compute. repeat split. Qed.

(** C83. Texts with the same reading have the same result: spelling of units, zeros in front of numbers and
    blanks inside do not matter. *)
Theorem C83_amounts : forall cfg pd pdt md now1 now2 e s s' r r', expr_text e s -> expr_text e s' -> stop r -> stop r' ->
  no_iso cfg pd pdt (s ++ r) -> no_iso cfg pd pdt (drop_blanks (s ++ r)) -> no_iso cfg pd pdt (s' ++ r') -> no_iso cfg pd pdt (drop_blanks (s' ++ r')) ->
  parse md cfg pd pdt now1 now2 (s ++ r) = parse md cfg pd pdt now1 now2 (s' ++ r').
Proof. exact same_amounts. Qed.
Print Assumptions C83_amounts.
Theorem C83_dates : forall cfg pd pdt md now1 now2 d s s' r r', date_reads pd pdt d s r -> date_reads pd pdt d s' r' ->
  starts blank_char s = false -> starts blank_char s' = false ->
  starts letter_char (drop_blanks r) = false -> starts letter_char (drop_blanks r') = false ->
  parse md cfg pd pdt now1 now2 s = parse md cfg pd pdt now1 now2 s'.
Proof. exact same_dates. Qed.
Print Assumptions C83_dates.
Theorem C83_iterators : forall cfg pd pdt md now1 now2 d sp u b s r1 t r2 b' s' r1' t' r2', blanks b -> blanks b' ->
  date_reads pd pdt d s r1 -> date_reads pd pdt d s' r1' -> starts blank_char s = false -> starts blank_char s' = false ->
  drop_blanks r1 = t ++ r2 -> drop_blanks r1' = t' ++ r2' -> step_text sp t -> step_text sp t' -> starts letter_char r2 = false -> starts letter_char r2' = false ->
  bound_reads pd pdt u (drop_blanks r2) -> bound_reads pd pdt u (drop_blanks r2') ->
  parse md cfg pd pdt now1 now2 (b ++ s) = parse md cfg pd pdt now1 now2 (b' ++ s').
Proof. exact same_iterators. Qed.
Print Assumptions C83_iterators.
Example C83_case : expr_text (AELast (Amount 7 PSecond)) "007s" /\ expr_text (AELast (Amount 7 PSecond)) " 7 	seconds" /\
  no_iso (mkcfg true true) toy_dates toy_times "007s" /\ no_iso (mkcfg true true) toy_dates toy_times " 7 	seconds" /\
  parse Checked (mkcfg true true) toy_dates toy_times noon noon "007s" = parse Checked (mkcfg true true) toy_dates toy_times noon noon " 7 	seconds" /\
  step_text (IEvery 2 PHour) "every 02hr" /\ step_text (IEvery 2 PHour) "every2 hours" /\
  parse Checked (mkcfg true true) toy_dates toy_times noon noon "today every 02hr until 2016-02-29" =
  parse Checked (mkcfg true true) toy_dates toy_times noon noon "today every2 hours   until2016-02-29!".
Proof.
  split; [apply ET_last; apply (AT_number "" "007" "" "s" PSecond); try (vm_compute; tauto); [split; [reflexivity|discriminate]|vm_compute; discriminate]|].
  split; [apply ET_last; apply (AT_number " " "7" " 	" "seconds" PSecond); try (vm_compute; tauto); [split; [reflexivity|discriminate]|vm_compute; discriminate]|].
  split; [split; left; reflexivity|]. split; [split; left; reflexivity|]. split; [reflexivity|].
  split; [apply (ST_every " " "02" "" "hr" PHour); try (vm_compute; tauto); [split; [reflexivity|discriminate]|vm_compute; discriminate]|].
  split; [apply (ST_every "" "2" " " "hours" PHour); try (vm_compute; tauto); [split; [reflexivity|discriminate]|vm_compute; discriminate]|].
  vm_compute. reflexivity.
Qed.
