(** Claims of the documentation. *)
Require Import ZArith Bool List String Ascii Lia ZifyBool.
From Verif Require Import Prelude Spec Chrono TimeType SpecTree SpecGetter SpecMoment SpecIter SpecAdapt Iter Nom ParserTimetype ParserIterator ParserMod SpecText SpecDoc
  NomProofs PreludeProofs CalendarProofs AmountProofs EvalProofs ShapeProofs ErrProofs AddProofs AddProofs2 IterProofs IterProofs2 AdapterProofs AdapterProofs2 SeqProofs SeqProofs2 LowerProofs
  ParserProofs ParserProofs2 ParserProofs3 ParserProofs4 ParserProofs5 ParserProofs6.
Import ListNotations.
Local Open Scope string_scope.
Local Open Scope Z_scope.

(** ** Conversion rules of the getters *)
Lemma smaller_zero : forall md u v n, in_i64 n = true -> unit_secs v < unit_secs u ->
  exists q, getter md u (mk v n) = Ok q /\ (q = 0 <-> Z.abs n * unit_secs v < unit_secs u).
Proof.
  intros md u v n Hn L. pose proof (unit_secs_pos u) as Pu. pose proof (unit_secs_pos v) as Pv.
  exists (Z.quot (n * unit_secs v) (unit_secs u)). split.
  - apply getter_exact; [exact Hn|]. apply in_i64_iff. apply in_i64_iff in Hn.
    assert (A : Z.abs (Z.quot (n * unit_secs v) (unit_secs u)) <= Z.abs n).
    { rewrite <- Z.quot_abs by lia. rewrite (Z.abs_eq (unit_secs u)) by lia. rewrite Z.abs_mul, (Z.abs_eq (unit_secs v)) by lia.
      apply Z.quot_le_upper_bound; [lia|]. nia. }
    destruct (Z.eq_dec n i64_min) as [->|NE]; [|unfold i64_min, i64_max in *; lia].
    assert (Q : Z.quot (i64_min * unit_secs v) (unit_secs u) <= 0).
    { replace (i64_min * unit_secs v) with (- (- i64_min * unit_secs v)) by ring. rewrite Z.quot_opp_l by lia.
      assert (0 <= Z.quot (- i64_min * unit_secs v) (unit_secs u)) by (apply Z.quot_pos; unfold i64_min; nia). lia. }
    unfold i64_min, i64_max in *. lia.
  - rewrite Z.quot_small_iff by lia. rewrite Z.abs_mul, (Z.abs_eq (unit_secs v)), (Z.abs_eq (unit_secs u)) by lia. reflexivity.
Qed.
Lemma weeks_months : forall md n t, 0 <= n -> weeks md n = Ok t -> in_i64 (7 * n) = true ->
  exists q, get_months md t = Ok q /\ q <= n / 4 /\ (60 <= n -> q < n / 4).
Proof.
  intros md n t Hn W I. unfold weeks in W. replace (7 * n) with (n * 7) in I by ring. rewrite mul7 in W by exact I. cbn in W. injection W as <-.
  exists (Z.quot (n * 7) 30). split; [reflexivity|]. rewrite Z.quot_div_nonneg by lia.
  split; [apply Z.div_le_lower_bound; [lia|]|intro L]; pose proof (Z.div_mod (n * 7) 30 ltac:(lia)); pose proof (Z.mod_pos_bound (n * 7) 30 ltac:(lia));
    pose proof (Z.div_mod n 4 ltac:(lia)); pose proof (Z.mod_pos_bound n 4 ltac:(lia)); lia.
Qed.

(** ** Iteration without a bound *)
Lemma first_error : forall (P Q : nat -> Prop), (forall k, P k \/ Q k) -> forall N, (forall k, (k < N)%nat -> P k) \/ exists K, (K < N)%nat /\ Q K /\ forall k, (k < K)%nat -> P k.
Proof.
  intros P Q D. induction N as [|N IH]; [left; intros; lia|]. destruct IH as [A|(K & L & HQ & A)]; [|right; exists K; repeat split; auto; lia].
  destruct (D N) as [HP|HQ].
  - left. intros k L. destruct (Nat.eq_dec k N) as [->|]; [exact HP|]. apply A. lia.
  - right. exists N. repeat split; auto; lia.
Qed.
Definition moment_at (md : mode) (it : iter) (k : nat) : Prop := exists b, nth_item (iter_next md) k it = Some (Ok (Moment b)) /\ dt_valid b = true.
Lemma run_out : forall md u n (R : datetime -> datetime -> Prop) m it N, build m (mk u n) = Ok it -> dt_valid m = true -> in_i64 n = true ->
  (forall k, moment_at md it k \/ exists e, nth_item (iter_next md) k it = Some (Err e)) ->
  ~ (forall k, (k < N)%nat -> moment_at md it k) ->
  exists K e, (K < N)%nat /\ (forall k, (k < K)%nat -> moment_at md it k) /\ forall k, (K <= k)%nat -> nth_item (iter_next md) k it = Some (Err e).
Proof.
  intros md u n R m it N B Hm Hi D C. destruct (first_error _ _ D N) as [A|(K & L & [e E] & A)]; [contradiction|].
  exists K, e. split; [exact L|]. split; [exact A|]. apply b_sticky; [|exact E].
  apply build_at in B. subst it. unfold at_moment. split; [exact Hm|]. cbn [increment]. rewrite ok_mk. split; [exact Hi|]. destruct u; reflexivity.
Qed.
Lemma forward_ends : forall md m u n it, build m (mk u n) = Ok it -> dt_valid m = true -> 0 < n -> n * unit_secs u <= span32 ->
  exists K e, Z.of_nat K <= instant (max_year + 1) 1 1 0 0 0 - inst m /\
    (forall k, (k < K)%nat -> exists b, nth_item (iter_next md) k it = Some (Ok (Moment b)) /\ dt_valid b = true) /\
    forall k, (K <= k)%nat -> nth_item (iter_next md) k it = Some (Err e).
Proof.
  intros md m u n it B Hm Hn Hs.
  assert (Hi : in_i64 n = true) by (apply span_i64 with u; lia).
  remember (instant (max_year + 1) 1 1 0 0 0) as Q eqn:EQ. assert (HQ : forall x, dt_valid x = true -> inst x < Q) by (subst Q; exact inst_bounds). clear EQ.
  remember (Q - inst m) as T eqn:ET. assert (HT : 0 < T) by (specialize (HQ m Hm); lia).
  assert (D : forall k, moment_at md it k \/ exists e, nth_item (iter_next md) k it = Some (Err e)).
  { intro k. apply (fresh_cases md u n (fun a b => inst a < inst b) Hi) with (m := m); try assumption.
    - intros; lia.
    - intros x Hx. destruct (add_total md x u n Hx ltac:(lia) Hs) as [(m' & E & V)|E]; [left|right; exact E].
      exists m'. split; [exact E|]. split; [exact V|]. exact (add_forward md x u n m' Hx Hn Hs E). }
  destruct (run_out md u n (fun _ _ => True) m it (S (Z.to_nat T)) B Hm Hi D) as (K & e & L & A & S).
  - intro A.
    assert (G : forall k, (k < S (Z.to_nat T))%nat -> forall b, nth_item (iter_next md) k it = Some (Ok (Moment b)) -> inst m + Z.of_nat k <= inst b).
    { induction k as [|k IH]; intros L b E; [rewrite (build_first md _ _ _ B) in E; injection E as <-; lia|].
      destruct (A k ltac:(lia)) as (a & Ea & _). specialize (IH ltac:(lia) a Ea).
      pose proof (items_increase md m u n it k (S k) a b B Hm Hn Hs ltac:(lia) Ea E). lia. }
    destruct (A (Z.to_nat T) ltac:(lia)) as (b & E & V). specialize (G (Z.to_nat T) ltac:(lia) b E). rewrite Z2Nat.id in G by lia. specialize (HQ b V). lia.
  - exists K, e. split; [lia|]. split; [exact A|exact S].
Qed.
Lemma inst_low : forall m, dt_valid m = true -> instant min_year 1 1 0 0 0 <= inst m.
Proof.
  intros m Hm. rewrite inst_sod. pose proof (sod_range m Hm). destruct (valid_facts m Hm) as (Vy & _). pose proof (doy_bounds _ _ _ (valid_date m Hm)) as HB.
  unfold instant. rewrite day_number_jan. unfold day_number. pose proof (days_before_year_mono min_year (year m) ltac:(lia)). lia.
Qed.
Lemma backward_ends : forall md m u n it, build m (mk u n) = Ok it -> dt_valid m = true -> -2147483648 <= n < 0 ->
  exists K e, Z.of_nat K <= inst m - instant min_year 1 1 0 0 0 + 1 /\
    (forall k, (k < K)%nat -> exists b, nth_item (iter_next md) k it = Some (Ok (Moment b)) /\ dt_valid b = true) /\
    forall k, (K <= k)%nat -> nth_item (iter_next md) k it = Some (Err e).
Proof.
  intros md m u n it B Hm Hn.
  assert (Hi : in_i64 n = true) by (apply in_i64_iff; unfold i64_min, i64_max; lia).
  remember (instant min_year 1 1 0 0 0) as Q eqn:EQ. assert (HQ : forall x, dt_valid x = true -> Q <= inst x) by (subst Q; exact inst_low). clear EQ.
  remember (inst m - Q + 1) as T eqn:ET. assert (HT : 0 < T) by (specialize (HQ m Hm); lia).
  assert (D : forall k, moment_at md it k \/ exists e, nth_item (iter_next md) k it = Some (Err e)).
  { intro k. apply (fresh_cases md u n (fun a b => inst b < inst a) Hi) with (m := m); try assumption.
    - intros; lia.
    - intros x Hx. apply add_backward; assumption. }
  destruct (run_out md u n (fun _ _ => True) m it (S (Z.to_nat T)) B Hm Hi D) as (K & e & L & A & S).
  - intro A.
    assert (G : forall k, (k < S (Z.to_nat T))%nat -> forall b, nth_item (iter_next md) k it = Some (Ok (Moment b)) -> inst b <= inst m - Z.of_nat k).
    { induction k as [|k IH]; intros L b E; [rewrite (build_first md _ _ _ B) in E; injection E as <-; lia|].
      destruct (A k ltac:(lia)) as (a & Ea & _). specialize (IH ltac:(lia) a Ea).
      pose proof (items_decrease md m u n it k (S k) a b B Hm Hn ltac:(lia) Ea E). lia. }
    destruct (A (Z.to_nat T) ltac:(lia)) as (b & E & V). specialize (G (Z.to_nat T) ltac:(lia) b E). rewrite Z2Nat.id in G by lia. specialize (HQ b V). lia.
  - exists K, e. split; [lia|]. split; [exact A|exact S].
Qed.

Section Text.
Variable cfg : nom_cfg.
Variable pd : parser isodate.
Variable pdt : parser (isodate * isotime).

(** ** Everything accepted begins with a text of the language *)
Lemma date_begins_sound : forall s r d, date cfg pd pdt s = Done r d -> date_begins pd pdt d s r.
Proof.
  intros s r [x o] H. apply date_sound in H. destruct o as [[op e]|]; [|apply DB_exact; exact H].
  destruct H as (b1 & b2 & t & b3 & H & B1 & B2 & T & B3). exact (DB_op pd pdt x s b1 op b2 e t b3 r H B1 B2 T B3).
Qed.
Lemma step_sound : forall s r sp, iter_spec cfg s = Done r sp -> exists t, step_text sp t /\ s = t ++ r.
Proof.
  intros s r sp H. rewrite iter_spec_tags in H. destruct (tags_sound _ _ _ _ _ _ H) as [(t & Hin & E)|[_ E]].
  - exists t. split; [|exact E]. unfold adverb_specs in Hin. cbn [In] in Hin.
    repeat (destruct Hin as [Hin|Hin]; [injection Hin as <- <-;
      first [apply (ST_adverb "secondly" ASecondly)|apply (ST_adverb "minutely" AMinutely)|apply (ST_adverb "hourly" AHourly)|apply (ST_adverb "daily" ADaily)
            |apply (ST_adverb "weekly" AWeekly)|apply (ST_adverb "monthly" AMonthly)|apply (ST_adverb "yearly" AYearly)]; cbn; tauto|]). contradiction.
  - assert (E' : (pdo _ <- tag "every";; pdo number <- integer cfg;; pdo u <- unit_parser cfg;; pret (IEvery number u)) s = Done r sp).
    { unfold every_spec, alt_last, complete in E. destruct (last_complete cfg); [|exact E].
      destruct ((pdo _ <- tag "every";; pdo number <- integer cfg;; pdo u <- unit_parser cfg;; pret (IEvery number u)) s); try discriminate E; exact E. }
    unfold pbind in E'. unfold tag in E'. destruct (strip "every" s) as [r1|] eqn:Es; [|destruct (too_short "every" s); discriminate E'].
    apply strip_some in Es. destruct (integer cfg r1) as [r2 n| | |] eqn:Ei; try discriminate E'.
    destruct (unit_parser cfg r2) as [r3 u| | |] eqn:Eu; try discriminate E'. injection E' as <- <-.
    apply integer_sound in Ei. destruct Ei as (b1 & ds & b2 & S & B1 & Hd & B2 & V & R). destruct (unit_sound _ _ _ _ Eu) as (t & Hin & St & _).
    exists ("every" ++ b1 ++ ds ++ b2 ++ t). subst n. split; [apply ST_every; try assumption; lia|]. subst s r1 r2. rewrite !app_assoc. reflexivity.
Qed.
Lemma bound_sound : forall s r u, until_spec cfg pd pdt s = Done r u -> bound_begins pd pdt (Some u) s r.
Proof.
  intros s r u H. unfold until_spec, alt_c, alt in H.
  set (p1 := pdo _ <- tag "until";; pdo _ <- sp;; pdo exact <- exact_date_parser cfg pd pdt;; pret (UExact exact)) in *.
  set (p2 := pdo num <- integer cfg;; pdo _ <- sp;; pdo _ <- tag "times";; pret (UTimes num)) in *.
  assert (Q1 : forall r1 u1, p1 s = Done r1 u1 -> bound_begins pd pdt (Some u1) s r1).
  { intros r1 u1 E. unfold p1, pbind, tag in E. destruct (strip "until" s) as [r2|] eqn:Es; [|destruct (too_short "until" s); discriminate E].
    apply strip_some in Es. unfold sp in E. destruct (skip_split r2) as (b & B & S). destruct (exact_date_parser cfg pd pdt (skip_spaces r2)) as [r4 x| | |] eqn:Ex; try discriminate E.
    injection E as <- <-. apply exact_sound in Ex. rewrite Es, S. apply BB_until; assumption. }
  assert (Q2 : forall r1 u1, p2 s = Done r1 u1 -> bound_begins pd pdt (Some u1) s r1).
  { intros r1 u1 E. unfold p2, pbind in E. destruct (integer cfg s) as [r2 n| | |] eqn:Ei; try discriminate E. unfold sp in E. destruct (skip_split r2) as (b & B & S).
    unfold tag in E. destruct (strip "times" (skip_spaces r2)) as [r4|] eqn:Es; [|destruct (too_short "times" (skip_spaces r2)); discriminate E].
    injection E as <- <-. apply strip_some in Es. apply integer_sound in Ei. destruct Ei as (b1 & ds & b2 & S1 & B1 & Hd & B2 & V & R).
    rewrite S1, S, Es. subst n. replace (b1 ++ ds ++ b2 ++ b ++ "times" ++ r4) with (b1 ++ ds ++ (b2 ++ b) ++ "times" ++ r4) by (rewrite !app_assoc; reflexivity).
    apply BB_times; try assumption; [lia|apply blanks_app; assumption]. }
  assert (Q3 : forall r1 u1, alt_last cfg p2 s = Done r1 u1 -> bound_begins pd pdt (Some u1) s r1).
  { intros r1 u1 E. unfold alt_last, complete in E. destruct (last_complete cfg); [|exact (Q2 _ _ E)].
    destruct (p2 s) eqn:E2; try discriminate E. injection E as <- <-. exact (Q2 _ _ eq_refl). }
  unfold complete in H. destruct (p1 s) as [r1 u1| | |] eqn:E1; try discriminate H.
  - injection H as <- <-. exact (Q1 _ _ eq_refl).
  - exact (Q3 _ _ H).
  - exact (Q3 _ _ H).
Qed.
Lemma iterator_sound : forall s r it, iterator cfg pd pdt s = Done r it -> begins_with pd pdt (AsIterator it) s r.
Proof.
  intros s r it H. unfold iterator, pbind at 1 in H. rewrite opt_sp in H. unfold pbind at 1 in H.
  destruct (date cfg pd pdt (skip_spaces s)) as [r1 d| | |] eqn:E1; try discriminate H. unfold pbind at 1 in H. rewrite opt_sp in H.
  unfold pbind at 1 in H. destruct (iter_spec cfg (skip_spaces r1)) as [r2 sp| | |] eqn:E2; try discriminate H.
  unfold pbind at 1 in H. rewrite opt_sp in H. unfold pbind, opt, complete in H.
  destruct (skip_split s) as (b0 & B0 & S0), (skip_split r1) as (b1 & B1 & S1), (skip_split r2) as (b2 & B2 & S2).
  apply date_begins_sound in E1. apply step_sound in E2. destruct E2 as (t & Ht & Et).
  assert (F : forall u r', bound_begins pd pdt u (skip_spaces r2) r' -> begins_with pd pdt (AsIterator (Iterator d sp u)) s r').
  { intros u r' Hb. rewrite S0. eapply BW_iterator with (b1 := b1) (t := t) (b2 := b2); try eassumption. rewrite <- S2, <- Et, <- S1. exact E1. }
  destruct (until_spec cfg pd pdt (skip_spaces r2)) as [r3 u| | |] eqn:E3; try discriminate H; injection H as <- <-; apply F; try apply BB_none.
  apply bound_sound. exact E3.
Qed.
Lemma accepted_reads : forall md now1 now2 s r p, do_parse md cfg pd pdt now1 now2 s = Done r p ->
  exists x, begins_with pd pdt x s r /\ p = made md now1 now2 x.
Proof.
  intros md now1 now2 s r p H. unfold do_parse, alt_c, alt, complete at 1 in H. unfold pbind at 1 in H.
  assert (L : alt_last cfg (pdo t <- timetype_parser cfg pd pdt;; pret (lower_timetype md now1 t)) s = Done r p ->
    exists x, begins_with pd pdt x s r /\ p = made md now1 now2 x).
  { intro Hl.
    assert (T : exists t, timetype_parser cfg pd pdt s = Done r t /\ p = lower_timetype md now1 t).
    { unfold alt_last, complete, pbind in Hl. destruct (last_complete cfg); destruct (timetype_parser cfg pd pdt s) as [r1 t| | |]; try discriminate Hl;
        injection Hl as <- <-; exists t; split; reflexivity. }
    destruct T as (t & T & ->). exists (AsTimeType t). split; [|reflexivity]. unfold timetype_parser, alt in T. unfold pbind at 1 in T.
    destruct (date cfg pd pdt s) as [r2 d| | |] eqn:E2; [|clear E2|discriminate T|discriminate T].
    - injection T as <- <-. apply BW_date. apply date_begins_sound. exact E2.
    - unfold pbind in T. destruct (amount_expr cfg s) as [r2 e| | |] eqn:E2; try discriminate T. injection T as <- <-.
      destruct (expr_sound _ _ _ _ E2) as (t0 & b & -> & Te & B). apply BW_amount; assumption. }
  destruct (iterator cfg pd pdt s) as [r1 it| | |] eqn:E; [|exact (L H)|exact (L H)|discriminate H].
  injection H as <- <-. exists (AsIterator it). split; [apply iterator_sound; exact E|reflexivity].
Qed.

(** ** Blanks at the beginning *)
Lemma blank_no_keyword : forall s, starts blank_char s = true -> ~ keyword s.
Proof. intros s H K. destruct K as [[r ->]|[[r ->]|[r ->]]]; discriminate H. Qed.
Lemma blank_no_tag : forall t s, starts blank_char s = true -> starts blank_char t = false -> t <> "" -> tag t s = PError.
Proof.
  intros t s H N E. destruct t as [|a t]; [congruence|]. destruct s as [|c s]; [discriminate H|]. cbn [starts] in *.
  assert (X : Ascii.eqb a c = false) by (destruct (Ascii.eqb_spec a c) as [->|]; [congruence|reflexivity]).
  unfold tag. cbn [strip too_short]. rewrite X. reflexivity.
Qed.
Lemma blank_no_alias : forall s, starts blank_char s = true -> unit_alias cfg s = PError.
Proof.
  intros s H. rewrite unit_alias_tags, tags_none.
  - assert (X : tagv "yearly" AYearly s = PError) by (unfold tagv, pmap; rewrite (blank_no_tag "yearly" s H eq_refl ltac:(discriminate)); reflexivity).
    unfold alt_last, complete. destruct (last_complete cfg); rewrite X; reflexivity.
  - intros t a Hin [r ->]. unfold adverbs_order in Hin. cbn [In] in Hin. repeat (destruct Hin as [Hin|Hin]; [injection Hin as <- <-; discriminate H|]). contradiction.
Qed.
Lemma blank_no_expr : forall b s, blanks b -> b <> "" -> starts blank_char s = false -> starts digit_char s = false ->
  amount_expr cfg (b ++ s) = PError \/ amount_expr cfg (b ++ s) = Incomplete.
Proof.
  intros b s B E Hs D. assert (H : starts blank_char (b ++ s) = true) by (rewrite starts_app by exact E; apply all_starts; assumption).
  assert (P : amount_parser cfg (b ++ s) = PError \/ amount_parser cfg (b ++ s) = Incomplete).
  { assert (I : (pdo number <- integer cfg;; pdo u <- unit_parser cfg;; pret (Amount number u)) (b ++ s) =
      if (match s with "" => digit_incomplete cfg | _ => false end) then Incomplete else PError).
    { unfold pbind. rewrite (integer_none cfg b s B Hs D). destruct (match s with "" => digit_incomplete cfg | _ => false end); reflexivity. }
    unfold amount_parser, alt. rewrite I. destruct (match s with "" => digit_incomplete cfg | _ => false end); [right; reflexivity|left].
    unfold pbind. rewrite (blank_no_alias _ H). reflexivity. }
  assert (X : forall f, amount_expr_fuel cfg (S f) (b ++ s) = PError \/ amount_expr_fuel cfg (S f) (b ++ s) = Incomplete).
  { intro f. cbn [amount_expr_fuel]. unfold pbind. destruct P as [-> | ->]; auto. }
  exact (X _).
Qed.
Lemma neither : forall md now1 now2 s, iterator cfg pd pdt s = PError \/ iterator cfg pd pdt s = Incomplete ->
  timetype_parser cfg pd pdt s = PError \/ timetype_parser cfg pd pdt s = Incomplete ->
  parse md cfg pd pdt now1 now2 s = Err NomError \/ parse md cfg pd pdt now1 now2 s = Err UnknownParserError.
Proof.
  intros md now1 now2 s I T. unfold parse, do_parse, alt_c, alt, alt_last, complete, pbind.
  destruct I as [-> | ->]; (destruct (last_complete cfg), T as [-> | ->]; auto).
Qed.
Lemma blank_timetype : forall b s, blanks b -> b <> "" -> starts blank_char s = false -> starts digit_char s = false -> no_iso cfg pd pdt (b ++ s) ->
  timetype_parser cfg pd pdt (b ++ s) = PError \/ timetype_parser cfg pd pdt (b ++ s) = Incomplete.
Proof.
  intros b s B E Hs D N. assert (H : starts blank_char (b ++ s) = true) by (rewrite starts_app by exact E; apply all_starts; assumption).
  unfold timetype_parser, alt, pbind. rewrite (date_none _ _ _ _ (blank_no_keyword _ H) N).
  destruct (blank_no_expr b s B E Hs D) as [-> | ->]; auto.
Qed.
Lemma blank_date : forall md now1 now2 d b s rest, blanks b -> b <> "" -> date_reads pd pdt d s rest -> starts blank_char s = false -> starts digit_char s = false ->
  starts letter_char (drop_blanks rest) = false -> no_iso cfg pd pdt (b ++ s) ->
  parse md cfg pd pdt now1 now2 (b ++ s) = Err NomError \/ parse md cfg pd pdt now1 now2 (b ++ s) = Err UnknownParserError.
Proof.
  intros md now1 now2 d b s rest B E Hd Hs D L N. apply neither; [|apply blank_timetype; assumption].
  rewrite drop_skip in L. unfold iterator, pbind. rewrite !opt_sp. rewrite skip_app, skip_stop by assumption. rewrite (date_reads_ok _ _ _ _ _ _ Hd), !opt_sp.
  destruct (step_none cfg _ L) as [-> | ->]; auto.
Qed.
Lemma blank_other : forall md now1 now2 b s, blanks b -> b <> "" -> starts blank_char s = false -> starts digit_char s = false ->
  ~ keyword s -> no_iso cfg pd pdt s -> no_iso cfg pd pdt (b ++ s) ->
  parse md cfg pd pdt now1 now2 (b ++ s) = Err NomError \/ parse md cfg pd pdt now1 now2 (b ++ s) = Err UnknownParserError.
Proof.
  intros md now1 now2 b s B E Hs D K N0 N. apply neither; [|apply blank_timetype; assumption].
  unfold iterator, pbind. rewrite !opt_sp. rewrite skip_app, skip_stop by assumption. rewrite (date_none _ _ _ _ K N0). auto.
Qed.
Lemma expr_blank : forall e s b, expr_text e s -> starts digit_char (drop_blanks s) = true -> blanks b -> expr_text e (b ++ s).
Proof.
  assert (G : forall a s r b, amount_text a s -> starts digit_char (drop_blanks (s ++ r)) = true -> blanks b -> amount_text a (b ++ s)).
  { intros a s r b H D B. destruct H as [b1 ds b2 sp u B1 Hd V B2 Hin|sp al Hin].
    - rewrite <- app_assoc. apply AT_number; try assumption. apply blanks_app; assumption.
    - exfalso. unfold adverbs in Hin. cbn [In] in Hin. repeat (destruct Hin as [Hin|Hin]; [injection Hin as <- <-; discriminate D|]). contradiction. }
  intros e s b H D B. destruct H as [a s H|a s b1 op b2 e s' H B1 B2 He].
  - apply ET_last. apply (G a s "" b H); [rewrite app_nil|]; assumption.
  - rewrite <- app_assoc. apply ET_next; try assumption. exact (G a s _ b H D B).
Qed.
Lemma blank_expr : forall md now1 now2 e b s r, blanks b -> expr_text e s -> starts digit_char (drop_blanks s) = true -> stop r ->
  no_iso cfg pd pdt (b ++ s ++ r) -> no_iso cfg pd pdt (s ++ r) -> no_iso cfg pd pdt (drop_blanks (s ++ r)) ->
  parse md cfg pd pdt now1 now2 (b ++ s ++ r) = parse md cfg pd pdt now1 now2 (s ++ r).
Proof.
  intros md now1 now2 e b s r B He D R N1 N2 N3. rewrite <- app_assoc in *.
  rewrite !(parse_expr cfg pd pdt md now1 now2 e); try assumption; [reflexivity|apply expr_blank; assumption|].
  rewrite app_assoc, drop_skip, skip_app, <- drop_skip by exact B. exact N3.
Qed.

(** ** Texts with the same reading *)
Section Same.
Variable md : mode.
Variables now1 now2 : datetime.
Lemma same_amounts : forall e s s' r r', expr_text e s -> expr_text e s' -> stop r -> stop r' ->
  no_iso cfg pd pdt (s ++ r) -> no_iso cfg pd pdt (drop_blanks (s ++ r)) -> no_iso cfg pd pdt (s' ++ r') -> no_iso cfg pd pdt (drop_blanks (s' ++ r')) ->
  parse md cfg pd pdt now1 now2 (s ++ r) = parse md cfg pd pdt now1 now2 (s' ++ r').
Proof. intros e s s' r r' H1 H2 H3 H4 H5 H6 H7 H8. rewrite !(parse_expr cfg pd pdt md now1 now2 e) by assumption. reflexivity. Qed.
Lemma same_dates : forall d s s' r r', date_reads pd pdt d s r -> date_reads pd pdt d s' r' -> starts blank_char s = false -> starts blank_char s' = false ->
  starts letter_char (drop_blanks r) = false -> starts letter_char (drop_blanks r') = false ->
  parse md cfg pd pdt now1 now2 s = parse md cfg pd pdt now1 now2 s'.
Proof. intros d s s' r r' H1 H2 H3 H4 H5 H6. rewrite (ParserProofs2.parse_date cfg pd pdt md now1 now2 d s r), (ParserProofs2.parse_date cfg pd pdt md now1 now2 d s' r') by assumption. reflexivity. Qed.
Lemma same_iterators : forall d sp u b s r1 t r2 b' s' r1' t' r2', blanks b -> blanks b' -> date_reads pd pdt d s r1 -> date_reads pd pdt d s' r1' ->
  starts blank_char s = false -> starts blank_char s' = false -> drop_blanks r1 = t ++ r2 -> drop_blanks r1' = t' ++ r2' ->
  step_text sp t -> step_text sp t' -> starts letter_char r2 = false -> starts letter_char r2' = false ->
  bound_reads pd pdt u (drop_blanks r2) -> bound_reads pd pdt u (drop_blanks r2') ->
  parse md cfg pd pdt now1 now2 (b ++ s) = parse md cfg pd pdt now1 now2 (b' ++ s').
Proof.
  intros d sp u b s r1 t r2 b' s' r1' t' r2' B B' D D' S S' E E' T T' L L' U U'.
  rewrite (parse_iter cfg pd pdt md now1 now2 d b s r1 sp t r2 u), (parse_iter cfg pd pdt md now1 now2 d b' s' r1' sp t' r2' u) by assumption. reflexivity.
Qed.

(** ** A date followed by a number and a unit is read as the date alone *)
Lemma step_without_every : forall d s b ds rest, date_reads pd pdt d s (b ++ ds ++ rest) -> starts blank_char s = false -> blanks b -> digits ds ->
  parse md cfg pd pdt now1 now2 s = do t <- date_into md now1 d; Ok (PTimeType t).
Proof.
  intros d s b ds rest H S B [D N]. apply (ParserProofs2.parse_date cfg pd pdt md now1 now2 d s _ H S). rewrite drop_skip, skip_app by exact B.
  assert (St : starts digit_char (ds ++ rest) = true) by (rewrite starts_app by exact N; apply all_starts; assumption).
  rewrite skip_stop.
  - apply (starts_imp digit_char); [|exact St]. intros [[] [] [] [] [] [] [] []] X; try discriminate X; reflexivity.
  - apply (starts_imp digit_char); [|exact St]. intros [[] [] [] [] [] [] [] []] X; try discriminate X; reflexivity.
Qed.
End Same.

(** ** Kinds of result *)
Hypothesis Hpd : forall s r d, pd s = Done r d -> isodate_ok d.
Hypothesis Hpdt : forall s r d t, pdt s = Done r (d, t) -> isodate_ok d /\ isotime_ok t.
Lemma exact_no_diff : forall md now x b, exact_ok x -> exactdate_into md now x = Ok b -> x <> Yesterday -> is_diff b = false /\ is_end b = false.
Proof.
  intros md now x b Hx H N. destruct x as [| | |d|d t]; cbn in H; try congruence; try (injection H as <-; split; reflexivity).
  - destruct d as [y mo d|y ww d|y ddd]; unfold first_of_year in H.
    + destruct (from_ymd_opt y mo d); [|discriminate H]. cbn in H. injection H as <-. split; reflexivity.
    + destruct (from_ymd_opt y 1 1); [|discriminate H]. cbn in H. destruct (weeks md ww); try discriminate H. cbn in H. injection H as <-. split; reflexivity.
    + destruct (from_ymd_opt y 1 1); [|discriminate H]. cbn in H. injection H as <-. split; reflexivity.
  - destruct d as [y mo d|y ww d|y ddd]; unfold first_of_year in H.
    + destruct (match from_ymd_opt y mo d with Some nd => and_hms_opt nd (t_hour t) (t_minute t) (t_second t) | None => None end); [|discriminate H].
      cbn in H. injection H as <-. split; reflexivity.
    + destruct (from_ymd_opt y 1 1); [|discriminate H]. cbn in H. destruct (weeks md ww); try discriminate H. cbn in H. injection H as <-. split; reflexivity.
    + destruct (from_ymd_opt y 1 1); [|discriminate H]. cbn in H. injection H as <-. split; reflexivity.
Qed.
Lemma exact_no_end : forall md now x b, exact_ok x -> exactdate_into md now x = Ok b -> is_end b = false.
Proof.
  intros md now x b Hx H. destruct x; try (apply (exact_no_diff md now _ b Hx H); discriminate). cbn in H. injection H as <-. reflexivity.
Qed.
Lemma result_kinds : forall md now1 now2 s t, dt_valid now1 = true -> dt_valid now2 = true -> parse md cfg pd pdt now1 now2 s = Ok (PTimeType t) ->
  match calculate md t with
  | Ok v => (exists u n, v = mk u n) \/ (exists m, v = Moment m /\ dt_valid m = true)
  | Err (OutOfBounds _ _ _ _ _ _) => True
  | Err _ => exists b1 b2 e t' rest, s = "yesterday" ++ b1 ++ "+" ++ b2 ++ t' ++ rest /\ blanks b1 /\ blanks b2 /\ expr_text e t'
  | Panic p => md = Checked /\ p = PArith
  | OutOfFuel => False
  end.
Proof.
  intros md now1 now2 s t V1 V2 H. unfold parse in H. destruct (do_parse md cfg pd pdt now1 now2 s) as [r p| | |] eqn:E; try discriminate H. subst p.
  destruct (accepted_reads _ _ _ _ _ _ E) as (x & Bx & Ex). clear E.
  destruct x as [it|tt0]; cbn [made] in Ex.
  { unfold lower_iterator in Ex. destruct (into_user_iterator md now1 now2 it); discriminate Ex. }
  unfold lower_timetype in Ex. assert (Ex' : ptimetype_into md now1 tt0 = Ok t) by (destruct (ptimetype_into md now1 tt0); cbn in Ex; congruence). clear Ex.
  assert (Gen : tt_ok t = true -> shape_of t <> SBad \/ (exists b1 b2 e t' rest, s = "yesterday" ++ b1 ++ "+" ++ b2 ++ t' ++ rest /\ blanks b1 /\ blanks b2 /\ expr_text e t') ->
    match calculate md t with
    | Ok v => (exists u n, v = mk u n) \/ (exists m, v = Moment m /\ dt_valid m = true)
    | Err (OutOfBounds _ _ _ _ _ _) => True
    | Err _ => exists b1 b2 e t' rest, s = "yesterday" ++ b1 ++ "+" ++ b2 ++ t' ++ rest /\ blanks b1 /\ blanks b2 /\ expr_text e t'
    | Panic p => md = Checked /\ p = PArith
    | OutOfFuel => False
    end).
  { intros Ht Hb. pose proof (calculate_good md t Ht) as G. pose proof (calculate_shape md t) as K.
    destruct (calculate md t) as [v|e|p|]; cbn in G, K; [| |split; apply G|exact G].
    - destruct G as [G1 G2]. destruct (shape_of t); [left|right|contradiction]; destruct v; try discriminate K.
      + exists USec, n; reflexivity. + exists UMin, n; reflexivity. + exists UHour, n; reflexivity.
      + exists UDay, n; reflexivity. + exists UMonth, n; reflexivity. + exists UYear, n; reflexivity.
      + exists m. split; [reflexivity|exact G2].
    - destruct (shape_of t); [contradiction| |].
      + destruct e; try discriminate K; exact I.
      + destruct Hb as [Hb|Hb]; [congruence|]. destruct e; try exact Hb; exact I. }
  inversion Bx as [|d s0 r0 Hd|e te b r0 He Hb]; subst.
  - assert (Od : date_ok d).
    { destruct Hd as [x s r1 Hx|x s b1 op b2 e t' b3 r1 Hx _ _ Te _]; (split; [eapply exact_reads_okv; [exact Hpd|exact Hpdt|exact Hx]|]); [exact I|eapply expr_text_ok; exact Te]. }
    cbn [ptimetype_into] in Ex'. pose proof (date_good md now1 d V1 Od) as G. rewrite Ex' in G. cbn in G. destruct G as [G1 _]. apply Gen; [exact G1|].
    destruct d as [x o]. cbn [date_into] in Ex'. destruct Od as [Ox Oo]. pose proof (exact_good md now1 x V1 Ox) as Gx.
    destruct (exactdate_into md now1 x) as [b| | |] eqn:Eb; cbn in Ex', Gx; try discriminate Ex'. destruct Gx as [Gx1 Gx2].
    destruct o as [[op e]|]; [|left; injection Ex' as <-; rewrite Gx2; discriminate].
    cbn in Oo. pose proof (expr_good md e Oo) as Ge.
    destruct op; (destruct (amountexpr_into md e) as [a| | |]; cbn in Ex'; try discriminate Ex'); injection Ex' as <-; destruct Ge as [_ Ge]; apply shape_amount in Ge.
    + assert (Dx : x = Yesterday \/ x <> Yesterday) by (destruct x; auto; right; discriminate). destruct Dx as [->|Nx].
      * right. inversion Hd as [|x s1 b1 op b2 e' t' b3 r1 Hx B1 B2 Te B3]; subst. inversion Hx; subst. exists b1, b2, e, t', (b3 ++ r). auto.
      * left. destruct (exact_no_diff md now1 x b Ox Eb Nx) as [D1 D2]. unfold op_add. cbn [shape_of]. rewrite Gx2, Ge, D1, D2. discriminate.
    + left. unfold op_sub. cbn [shape_of]. rewrite Gx2, Ge, (exact_no_end md now1 x b Ox Eb). discriminate.
  - cbn [ptimetype_into] in Ex'. pose proof (expr_good md e (expr_text_ok e te He)) as G. rewrite Ex' in G. destruct G as [G1 G2].
    apply Gen; [exact G1|]. left. apply shape_amount in G2. rewrite G2. discriminate.
Qed.
End Text.
