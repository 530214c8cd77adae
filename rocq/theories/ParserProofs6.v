(** The statements of the parser properties, assembled. *)
Require Import ZArith Bool List String Ascii Lia ZifyBool.
From Verif Require Import Prelude Spec Chrono TimeType Nom ParserTimetype ParserIterator ParserMod Iter
  SpecTree SpecMoment SpecIter SpecAdapt PreludeProofs EvalProofs AmountProofs ShapeProofs CompProofs CalendarProofs
  AddProofs AddProofs2 SubProofs EndProofs ErrProofs IterProofs IterProofs2 AdapterProofs AdapterProofs2 AdapterProofs3
  OrdProofs SpecText NomProofs ParserProofs ParserProofs2 LowerProofs ParserProofs3 ParserProofs4 ParserProofs5.
Import ListNotations.
Local Open Scope string_scope.
Local Open Scope Z_scope.

Lemma stop_nil : stop "". Proof. split; reflexivity. Qed.
Lemma expr_roundtrip : forall cfg e s, expr_text e s -> amount_expr cfg s = Done "" e.
Proof. intros cfg e s H. pose proof (expr_parses cfg e s "" H stop_nil) as P. rewrite app_nil in P. exact P. Qed.
Lemma expr_followed : forall cfg e s rest, expr_text e s -> stop rest -> amount_expr cfg (s ++ rest) = Done (drop_blanks rest) e.
Proof. intros. rewrite drop_skip. apply expr_parses; assumption. Qed.
(** The text determines the expression. *)
Lemma expr_unambiguous : forall e e' s, expr_text e s -> expr_text e' s -> e = e'.
Proof.
  intros e e' s H H'. pose proof (expr_roundtrip (mkcfg true true) e s H) as P. rewrite (expr_roundtrip _ e' s H') in P. congruence.
Qed.

Section Parse.
Variable cfg : nom_cfg.
Variable pd : parser isodate.
Variable pdt : parser (isodate * isotime).
Variable md : mode.
Variables now1 now2 : datetime.

Lemma parse_amounts : forall e s rest, expr_text e s -> stop rest ->
  no_iso cfg pd pdt (s ++ rest) -> no_iso cfg pd pdt (drop_blanks (s ++ rest)) -> total e <= i64_max ->
  exists t v, parse md cfg pd pdt now1 now2 (s ++ rest) = Ok (PTimeType t) /\
    calculate md t = Ok (mk (expr_unit e) v) /\ v * unit_secs (expr_unit e) = right_value e.
Proof.
  intros e s rest He Hr N1 N2 Ht. rewrite (parse_expr cfg pd pdt md now1 now2 e s rest He Hr N1 N2).
  destruct (expr_calc md e (expr_text_ok e s He) Ht) as (t & v & T1 & _ & _ & T4 & T5).
  exists t, v. rewrite T1. repeat split; assumption.
Qed.
Lemma parse_amounts_left : forall e s rest, expr_text e s -> stop rest ->
  no_iso cfg pd pdt (s ++ rest) -> no_iso cfg pd pdt (drop_blanks (s ++ rest)) -> total e <= i64_max -> minus_last e = true ->
  exists t v, parse md cfg pd pdt now1 now2 (s ++ rest) = Ok (PTimeType t) /\
    calculate md t = Ok (mk (expr_unit e) v) /\ v * unit_secs (expr_unit e) = left_value e.
Proof. intros e s rest He Hr N1 N2 Ht Hm. rewrite (left_right e Hm). apply parse_amounts; assumption. Qed.
(** Trailing text does not matter. *)
Lemma parse_ignores : forall e s rest, expr_text e s -> stop rest ->
  no_iso cfg pd pdt (s ++ rest) -> no_iso cfg pd pdt (drop_blanks (s ++ rest)) -> no_iso cfg pd pdt s -> no_iso cfg pd pdt (drop_blanks s) ->
  parse md cfg pd pdt now1 now2 (s ++ rest) = parse md cfg pd pdt now1 now2 s.
Proof.
  intros e s rest He Hr N1 N2 N3 N4. rewrite (parse_expr cfg pd pdt md now1 now2 e s rest He Hr N1 N2).
  rewrite <- (app_nil s) in N3, N4. pose proof (parse_expr cfg pd pdt md now1 now2 e s "" He stop_nil N3 N4) as P.
  rewrite app_nil in P. congruence.
Qed.

Lemma parse_plain : forall x s rest m, date_reads pd pdt (Date x None) s rest -> starts blank_char s = false ->
  starts letter_char (drop_blanks rest) = false -> plain x = true -> means now1 x m ->
  parse md cfg pd pdt now1 now2 s = Ok (PTimeType (Moment m)).
Proof.
  intros x s rest m Hd Hb Hl Hp Hm. rewrite (parse_date cfg pd pdt md now1 now2 _ s rest Hd Hb Hl).
  cbn [date_into]. rewrite (plain_into md now1 x m Hp Hm). reflexivity.
Qed.
Lemma parse_missing : forall x o s rest, date_reads pd pdt (Date x o) s rest -> starts blank_char s = false ->
  starts letter_char (drop_blanks rest) = false -> dt_valid now1 = true -> plain x = true -> (forall m, ~ means now1 x m) ->
  let '(y, mo, d, (h, mi, sec)) := written x in
  parse md cfg pd pdt now1 now2 s = Err (OutOfBounds y mo d h mi sec).
Proof.
  intros x o s rest Hd Hb Hl Hn Hp Hm. pose proof (plain_missing md now1 x Hn Hp Hm) as P.
  destruct (written x) as [[[y mo] d] [[h mi] sec]]. rewrite (parse_date cfg pd pdt md now1 now2 _ s rest Hd Hb Hl).
  cbn [date_into]. rewrite P. reflexivity.
Qed.

Hypothesis Hpd : forall s r d, pd s = Done r d -> isodate_ok d.
Hypothesis Hpdt : forall s r d t, pdt s = Done r (d, t) -> isodate_ok d /\ isotime_ok t.
Hypothesis Hn1 : dt_valid now1 = true.

(** A date and an amount expression, for any date that has a value. *)
Lemma parse_date_op : forall x op e s rest m, date_reads pd pdt (Date x (Some (op, e))) s rest -> starts blank_char s = false ->
  starts letter_char (drop_blanks rest) = false -> exact_value md now1 x = Ok (Moment m) -> x <> Yesterday \/ op = Minus ->
  total e <= i64_max ->
  exists t v, parse md cfg pd pdt now1 now2 s = Ok (PTimeType t) /\ v * unit_secs (expr_unit e) = right_value e /\
    calculate md t = calculate md (date_op op (Moment m) (mk (expr_unit e) v)).
Proof.
  intros x op e s rest m Hd Hb Hl Hm Hy Ht. rewrite (parse_date cfg pd pdt md now1 now2 _ s rest Hd Hb Hl).
  destruct (date_reads_okv pd pdt Hpd Hpdt _ _ _ Hd) as [Ox Oe].
  destruct (date_expr md now1 x m op e Hn1 Ox Hm Hy Oe Ht) as (t & v & T1 & T2 & T3). exists t, v. rewrite T1. repeat split; assumption.
Qed.
Lemma plain_value : forall x m, plain x = true -> means now1 x m -> exact_value md now1 x = Ok (Moment m).
Proof. intros x m Hp Hm. unfold exact_value. rewrite (plain_into md now1 x m Hp Hm). reflexivity. Qed.
Lemma usable_value : forall x m, plain x = true \/ x = Tomorrow -> means now1 x m -> exact_value md now1 x = Ok (Moment m) /\ x <> Yesterday.
Proof.
  intros x m [Hp| ->] Hm; [|split; [apply tomorrow_value; assumption|discriminate]].
  split; [apply plain_value; assumption|]. intros ->. discriminate Hp.
Qed.
Lemma parse_usable_op : forall x op e s rest m, date_reads pd pdt (Date x (Some (op, e))) s rest -> starts blank_char s = false ->
  starts letter_char (drop_blanks rest) = false -> plain x = true \/ x = Tomorrow -> means now1 x m -> total e <= i64_max ->
  exists t v, parse md cfg pd pdt now1 now2 s = Ok (PTimeType t) /\ v * unit_secs (expr_unit e) = right_value e /\
    calculate md t = calculate md (date_op op (Moment m) (mk (expr_unit e) v)).
Proof.
  intros x op e s rest m Hd Hb Hl Hx Hm Ht. destruct (usable_value x m Hx Hm) as [V Y].
  eapply parse_date_op; [exact Hd|exact Hb|exact Hl|exact V|left; exact Y|exact Ht].
Qed.
Lemma parse_usable_plus : forall x e s rest m, date_reads pd pdt (Date x (Some (Plus, e))) s rest -> starts blank_char s = false ->
  starts letter_char (drop_blanks rest) = false -> plain x = true \/ x = Tomorrow -> means now1 x m -> total e <= i64_max ->
  clock_unit (expr_unit e) = true -> 0 <= right_value e ->
  inst m + right_value e < instant (year m + 1) 1 31 0 0 0 -> inst m + right_value e < instant (max_year + 1) 1 1 0 0 0 ->
  exists t m', parse md cfg pd pdt now1 now2 s = Ok (PTimeType t) /\ calculate md t = Ok (Moment m') /\
    dt_valid m' = true /\ nano m' = 0 /\ inst m' = inst m + right_value e.
Proof.
  intros x e s rest m Hd Hb Hl Hx Hm Ht Hu H0 H1 H2.
  destruct (parse_usable_op x Plus e s rest m Hd Hb Hl Hx Hm Ht) as (t & v & T1 & T2 & T3).
  pose proof (unit_secs_pos (expr_unit e)) as Up.
  destruct (add_clock_exact md m (expr_unit e) v) as (m' & M1 & M2 & M3 & M4); [apply Hm|exact Hu|nia|lia|lia|].
  exists t, m'. cbn [date_op] in T3. rewrite T3, M1. repeat split; try assumption. lia.
Qed.

(** Today, tomorrow, yesterday, and dates counted in weeks or days. *)
Lemma parse_exact_value : forall x s rest, date_reads pd pdt (Date x None) s rest -> starts blank_char s = false ->
  starts letter_char (drop_blanks rest) = false ->
  (forall v, exact_value md now1 x = Ok v -> exists t, parse md cfg pd pdt now1 now2 s = Ok (PTimeType t) /\ calculate md t = Ok v) /\
  (oob (exact_value md now1 x) -> (exists t, parse md cfg pd pdt now1 now2 s = Ok (PTimeType t) /\ oob (calculate md t)) \/
    exists y mo d h mi sec, parse md cfg pd pdt now1 now2 s = Err (OutOfBounds y mo d h mi sec)).
Proof.
  intros x s rest Hd Hb Hl. rewrite (parse_date cfg pd pdt md now1 now2 _ s rest Hd Hb Hl). unfold exact_value. cbn [date_into].
  destruct (exactdate_into md now1 x) as [b|e|p|]; cbn [bind]; split; try discriminate.
  - intros v Hv. exists b. split; [reflexivity|exact Hv].
  - intro Ho. left. exists b. split; [reflexivity|exact Ho].
  - intros (y & mo & d & h & mi & sec & [= ->]). right. repeat eexists.
  - intros (y & mo & d & h & mi & sec & E). discriminate E.
  - intros (y & mo & d & h & mi & sec & E). discriminate E.
Qed.
Lemma parse_tomorrow : forall s rest, date_reads pd pdt (Date Tomorrow None) s rest -> starts blank_char s = false ->
  starts letter_char (drop_blanks rest) = false ->
  exists t, parse md cfg pd pdt now1 now2 s = Ok (PTimeType t) /\
    (forall m, means now1 Tomorrow m -> calculate md t = Ok (Moment m)) /\
    ((forall m, ~ means now1 Tomorrow m) -> oob (calculate md t)).
Proof.
  intros s rest Hd Hb Hl. rewrite (parse_date cfg pd pdt md now1 now2 _ s rest Hd Hb Hl). eexists. split; [reflexivity|].
  exact (tomorrow_value md now1 Hn1).
Qed.
Lemma parse_yesterday : forall s rest, date_reads pd pdt (Date Yesterday None) s rest -> starts blank_char s = false ->
  starts letter_char (drop_blanks rest) = false ->
  let '(py, pm) := prev_month (year now1) (month now1) in
  let ok := 2 <= day now1 \/ month_length py pm = 31 /\ min_year <= py in
  exists t, parse md cfg pd pdt now1 now2 s = Ok (PTimeType t) /\
    (ok -> exists m, means now1 Yesterday m /\ calculate md t = Ok (Moment m)) /\
    (~ ok -> oob (calculate md t)).
Proof.
  intros s rest Hd Hb Hl. pose proof (yesterday_value md now1 Hn1) as Y.
  destruct (prev_month (year now1) (month now1)) as [py pm]. cbv zeta in *.
  rewrite (parse_date cfg pd pdt md now1 now2 _ s rest Hd Hb Hl). eexists. split; [reflexivity|]. exact Y.
Qed.
Lemma parse_yesterday_plus : forall e s rest t v, date_reads pd pdt (Date Yesterday (Some (Plus, e))) s rest -> starts blank_char s = false ->
  starts letter_char (drop_blanks rest) = false -> parse md cfg pd pdt now1 now2 s = Ok (PTimeType t) -> calculate md t <> Ok v.
Proof.
  intros e s rest t v Hd Hb Hl H. rewrite (parse_date cfg pd pdt md now1 now2 _ s rest Hd Hb Hl) in H.
  destruct (date_reads_okv pd pdt Hpd Hpdt _ _ _ Hd) as [_ Oe].
  destruct (date_into md now1 (Date Yesterday (Some (Plus, e)))) eqn:E; try discriminate H. injection H as ->.
  eapply yesterday_plus; [exact E|exact Oe].
Qed.
Lemma parse_yesterday_minus : forall e s rest m, date_reads pd pdt (Date Yesterday (Some (Minus, e))) s rest -> starts blank_char s = false ->
  starts letter_char (drop_blanks rest) = false -> calculate md (Subtraction (Moment now1) (Days 1)) = Ok (Moment m) -> total e <= i64_max ->
  exists t v, parse md cfg pd pdt now1 now2 s = Ok (PTimeType t) /\ v * unit_secs (expr_unit e) = right_value e /\
    calculate md t = calculate md (Subtraction (Moment m) (mk (expr_unit e) v)).
Proof.
  intros e s rest m Hd Hb Hl Hm Ht.
  exact (parse_date_op Yesterday Minus e s rest m Hd Hb Hl Hm (or_intror eq_refl) Ht).
Qed.
Lemma parse_counted : forall x s rest, date_reads pd pdt (Date x None) s rest -> starts blank_char s = false ->
  starts letter_char (drop_blanks rest) = false -> counted x ->
  exists t m, parse md cfg pd pdt now1 now2 s = Ok (PTimeType t) /\ calculate md t = Ok (Moment m) /\
    dt_valid m = true /\ nano m = 0 /\ inst m = meant_secs x + late_secs x /\ ~ means now1 x m.
Proof.
  intros x s rest Hd Hb Hl Hc. destruct (counted_late md now1 x Hc) as (m & E & V & N & I).
  destruct (proj1 (parse_exact_value x s rest Hd Hb Hl) _ E) as (t & T1 & T2).
  exists t, m. repeat split; try assumption. intro Hm. exact (counted_wrong md now1 x m Hc Hm E).
Qed.
End Parse.

Lemma parse_offset : forall cfg pd pdt md now1 now2 d t t' o s s' r r',
  date_reads pd pdt (Date (Iso8601DateTime d t) o) s r -> date_reads pd pdt (Date (Iso8601DateTime d t') o) s' r' ->
  starts blank_char s = false -> starts blank_char s' = false ->
  starts letter_char (drop_blanks r) = false -> starts letter_char (drop_blanks r') = false ->
  t_hour t = t_hour t' -> t_minute t = t_minute t' -> t_second t = t_second t' ->
  parse md cfg pd pdt now1 now2 s = parse md cfg pd pdt now1 now2 s'.
Proof.
  intros cfg pd pdt md now1 now2 d t t' o s s' r r' H H' B B' L L' E1 E2 E3.
  rewrite (parse_date cfg pd pdt md now1 now2 _ s r H B L), (parse_date cfg pd pdt md now1 now2 _ s' r' H' B' L').
  cbn [date_into]. rewrite (offset_ignored md now1 d t t' E1 E2 E3). reflexivity.
Qed.

(** ** Stepping back and forth returns *)
Lemma recalc_returns : forall md it f, iter_ok it -> f = op_add_assign \/ f = op_sub_assign ->
  returns md (fst (recalculate md (mkiter (f (base it) (increment it)) (increment it) (had_first it)))).
Proof.
  intros md it f (H1 & H2 & H3) Hf.
  assert (O : tt_ok (f (base it) (increment it)) = true).
  { destruct Hf as [-> | ->]; unfold op_add_assign, op_sub_assign; cbn [tt_ok]; rewrite H1; exact H2. }
  unfold recalculate. cbn [base]. pose proof (good_returns md _ O) as G.
  destruct (calculate md (f (base it) (increment it))); cbn in *; try exact I; exact G.
Qed.

(** ** The parsers of the examples *)
Lemma table_in : forall A (l : list (string * A)) s r v, table l s = Done r v -> exists t, In (t, v) l /\ s = t ++ r.
Proof.
  induction l as [|[t v] l IH]; intros s r v' H; [discriminate H|]. cbn in H. destruct (strip t s) as [r'|] eqn:E.
  - injection H as <- <-. exists t. split; [left; reflexivity|apply strip_some; exact E].
  - destruct (IH s r v' H) as (t' & H1 & H2). exists t'. split; [right; exact H1|exact H2].
Qed.
Lemma table_fine : forall A (l : list (string * A)) s, fine (table l) s.
Proof.
  intros A l s. unfold fine. destruct (table l s) as [r v| | |] eqn:E; try exact I.
  - apply table_in in E. destruct E as (t & _ & ->). exists t. reflexivity.
  - induction l as [|[t v] l IH]; [discriminate E|]. cbn in E. destruct (strip t s); [discriminate E|]. exact (IH E).
Qed.
Lemma toy_dates_ok : forall s r d, toy_dates s = Done r d -> isodate_ok d.
Proof.
  intros s r d H. apply table_in in H. destruct H as (t & Hin & _). cbn [In] in Hin.
  repeat (destruct Hin as [Hin|Hin]; [injection Hin as _ <-; cbn; unfold i32, u32; lia|]). contradiction.
Qed.
Lemma toy_times_ok : forall s r d t, toy_times s = Done r (d, t) -> isodate_ok d /\ isotime_ok t.
Proof.
  intros s r d t H. apply table_in in H. destruct H as (k & Hin & _). cbn [In] in Hin.
  repeat (destruct Hin as [Hin|Hin]; [injection Hin as _ <- <-; cbn; unfold isotime_ok, i32, u32; cbn; lia|]). contradiction.
Qed.
Lemma toy_read : forall x s rest, match x with
  | Iso8601Date d => toy_dates s = Done rest d /\ toy_times s = PError
  | Iso8601DateTime d t => toy_times s = Done rest (d, t)
  | _ => False
  end -> starts digit_char s = true -> exact_reads toy_dates toy_times x s rest.
Proof.
  intros x s rest H D.
  assert (K : ~ keyword s).
  { intro K. destruct s as [|c s]; [discriminate D|]. destruct K as [[r K]|[[r K]|[r K]]]; cbn in K; injection K as -> _; discriminate D. }
  destruct x as [| | |d|d t]; try contradiction.
  - destruct H as [H1 H2]. apply ER_date; [exact K|left; exact H2|exact H1].
  - apply ER_datetime; [exact K|exact H].
Qed.

Lemma skip_returns : forall md it, iter_ok it -> returns md (fst (skip md it)).
Proof. intros md it H. unfold skip. apply (recalc_returns md it op_add_assign H). left. reflexivity. Qed.
Lemma rollback_returns : forall md it, iter_ok it -> returns md (fst (rollback md it)).
Proof. intros md it H. unfold rollback. apply (recalc_returns md it op_sub_assign H). right. reflexivity. Qed.
Lemma parse_never_panics : forall cfg pd pdt, (forall s, fine pd s) -> (forall s, fine pdt s) ->
  (forall s r d, pd s = Done r d -> isodate_ok d) -> (forall s r d t, pdt s = Done r (d, t) -> isodate_ok d /\ isotime_ok t) ->
  forall now1 now2 s, dt_valid now1 = true -> dt_valid now2 = true ->
  (exists p, parse Wrapping cfg pd pdt now1 now2 s = Ok p) \/ (exists e, parse Wrapping cfg pd pdt now1 now2 s = Err e).
Proof.
  intros cfg pd pdt F1 F2 H1 H2 now1 now2 s V1 V2. pose proof (parse_returns cfg pd pdt F1 F2 H1 H2 Wrapping now1 now2 s V1 V2) as R.
  destruct (parse Wrapping cfg pd pdt now1 now2 s) as [p|e|q|]; cbn in R; [left|right|destruct R; discriminate|contradiction]; eexists; reflexivity.
Qed.
Lemma weeks_overflow : forall cfg pd pdt now1 now2 n, i64_max < 7 * decimal n -> digits n -> decimal n <= i64_max ->
  no_iso cfg pd pdt (n ++ " weeks") -> parse Checked cfg pd pdt now1 now2 (n ++ " weeks") = Panic PArith.
Proof.
  intros cfg pd pdt now1 now2 n H D V N.
  assert (E : expr_text (AELast (Amount (decimal n) PWeek)) (n ++ " weeks")).
  { apply ET_last. apply (AT_number "" n " " "weeks" PWeek); try reflexivity; try assumption. cbn. tauto. }
  assert (Dr : drop_blanks (n ++ " weeks") = n ++ " weeks").
  { rewrite drop_skip. apply skip_stop. destruct D as [D1 D2]. destruct n as [|c n]; [congruence|]. cbn in *. apply andb_true_iff in D1. apply digit_not_blank. apply D1. }
  pose proof (parse_expr cfg pd pdt Checked now1 now2 _ _ "" E stop_nil) as P. rewrite app_nil, Dr in P. rewrite (P N N).
  cbn [amountexpr_into amount_into]. unfold weeks, mulc. cbn [bind]. unfold arith.
  destruct (in_i64 (decimal n * 7)) eqn:Hi; [|reflexivity]. apply in_i64_iff in Hi. lia.
Qed.

(** What is assumed of the ISO 8601 parsers: they answer, leave a suffix, and fields are in range. *)
Definition iso_ok (pd : parser isodate) (pdt : parser (isodate * isotime)) : Prop :=
  (forall s r d, pd s = Done r d -> isodate_ok d) /\ (forall s r d t, pdt s = Done r (d, t) -> isodate_ok d /\ isotime_ok t).
Definition iso_fine (pd : parser isodate) (pdt : parser (isodate * isotime)) : Prop := (forall s, fine pd s) /\ (forall s, fine pdt s).
Definition noon2 : datetime := mkdt 2016 2 29 12 0 0 0.
Lemma every_12_hours : step_text (IEvery 12 ParserTimetype.PHour) "every 12 hours".
Proof.
  apply (ST_every " " "12" " " "hours" ParserTimetype.PHour); try reflexivity; try (vm_compute; tauto).
  - split; [reflexivity|discriminate].
  - vm_compute. discriminate.
Qed.

Lemma rest_accepted : forall cfg md,
  parse md cfg toy_dates toy_times noon2 noon2 "5 days garbage" = Ok (PTimeType (Days 5)) /\
  parse md cfg toy_dates toy_times noon2 noon2 "today + foo" = Ok (PTimeType (Moment noon2)) /\
  (exists it, parse md cfg toy_dates toy_times noon2 noon2 "today daily until 2016-02-xx" = Ok (PIterator (Ok (UIIterator it)))).
Proof.
  intros cfg md. split; [destruct cfg as [[] []], md; vm_compute; reflexivity|]. split; [destruct cfg as [[] []], md; vm_compute; reflexivity|].
  exists (mkiter (Moment noon2) (Days 1) false). destruct cfg as [[] []], md; vm_compute; reflexivity.
Qed.
