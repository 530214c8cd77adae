(** Proofs about dates written with all their digits. *)
Require Import ZArith Bool List String Ascii Lia ZifyBool.
From Verif Require Import Prelude Spec Chrono TimeType Iter SpecTree SpecMoment SpecIter SpecAdapt SpecSeq Nom ParserTimetype ParserIterator ParserMod SpecText Show Cli SpecCli SpecIso
  PreludeProofs CalendarProofs EvalProofs ShapeProofs AddProofs AddProofs2 SubProofs IterProofs AdapterProofs SeqProofs NomProofs ParserProofs ParserProofs2 ParserProofs3 ParserProofs4 ParserProofs5 ParserProofs6 LowerProofs CliProofs CliProofs2 CliProofs3 CliProofs4.
Import ListNotations.
Local Open Scope string_scope.
Local Open Scope Z_scope.

(** ** Digits *)
Definition below (k : Z) : list Z := map Z.of_nat (seq 0 (Z.to_nat k)).
Lemma below_in : forall k n, 0 <= n < k -> In n (below k).
Proof. intros k n H. unfold below. apply in_map_iff. exists (Z.to_nat n). split; [lia|]. apply in_seq. lia. Qed.
Lemma pad_two : forall n, 0 <= n < 100 -> pad 2 (show_nat n) = two n.
Proof.
  assert (C : forallb (fun n => (pad 2 (show_nat n) =? two n)%string) (below 100) = true) by (vm_compute; reflexivity).
  intros n H. rewrite forallb_forall in C. apply String.eqb_eq, C, below_in, H.
Qed.
Lemma pad_four : forall n, 0 <= n <= 9999 -> pad 4 (show_nat n) = four n.
Proof.
  assert (C : forallb (fun n => (pad 4 (show_nat n) =? four n)%string) (below 10000) = true) by (vm_compute; reflexivity).
  intros n H. rewrite forallb_forall in C. apply String.eqb_eq, C, below_in. lia.
Qed.
Lemma printed_show : forall m, four_digits m -> show_moment m = printed m.
Proof.
  intros m (V & Y & N). destruct (proj1 (dt_valid_iff m) V) as (_ & D & H & Mi & S & _).
  unfold show_moment, printed, show_date, show_time, date_text, time_text. rewrite N. cbn [Z.leb Z.compare Z.eqb].
  replace ((0 <=? year m) && (year m <=? 9999)) with true by lia. unfold date_exists in D. rewrite !andb_true_iff in D.
  assert (day m <= 31). { pose proof (month_length_bounds (year m) (month m) ltac:(lia)). lia. }
  rewrite pad_four by lia. rewrite !pad_two by lia. rewrite app_nil. rewrite !app_assoc. reflexivity.
Qed.
Lemma two_reads : forall n r, 0 <= n < 100 -> some_digits (two n ++ r) = Some (n, r).
Proof.
  intros n r H.
  assert (C : forallb (fun n => let a := last_digit (n / 10) in let b := last_digit n in digit_char a && digit_char b && (10 * digit_val a + digit_val b =? n)) (below 100) = true) by (vm_compute; reflexivity).
  rewrite forallb_forall in C. specialize (C n (below_in 100 n H)). cbv zeta in C. apply andb_true_iff in C. destruct C as [C E].
  unfold two. cbn [append some_digits]. rewrite C. apply Z.eqb_eq in E. rewrite E. reflexivity.
Qed.
Lemma first_digit : forall y r, 0 <= y <= 9999 -> exists c t, four y ++ r = String c t /\ digit_char c = true.
Proof.
  intros y r H. assert (C : forallb (fun n => digit_char (last_digit (n / 100 / 10))) (below 10000) = true) by (vm_compute; reflexivity).
  rewrite forallb_forall in C. specialize (C y (below_in 10000 y ltac:(lia))). unfold four, two. cbn [append]. eauto.
Qed.
Lemma two_last : forall p n, 0 <= n < 100 -> exists q b, p ++ two n = q ++ String b "" /\ visible b.
Proof.
  intros p n H. apply last_app. exists (String (last_digit (n / 10)) ""), (last_digit n). split; [reflexivity|]. apply digit_visible.
  assert (C : forallb (fun n => digit_char (last_digit n)) (below 100) = true) by (vm_compute; reflexivity).
  rewrite forallb_forall in C. exact (C n (below_in 100 n H)).
Qed.

(** ** The parsers that read them *)
Lemma some_suffix : forall s n r, some_digits s = Some (n, r) -> suffix r s /\ 0 <= n <= 99.
Proof.
  intros [|a [|b s]] n r H; try discriminate H. unfold some_digits in H. destruct (digit_char a) eqn:A; [|discriminate H]. destruct (digit_char b) eqn:B; [|discriminate H]. cbn [andb] in H.
  assert (En : n = 10 * digit_val a + digit_val b) by congruence. assert (Er : r = s) by congruence. subst n r.
  split; [exists (String a (String b "")); reflexivity|].
  assert (D : forall c, digit_char c = true -> 0 <= digit_val c <= 9) by (intros [[] [] [] [] [] [] [] []]; vm_compute; intro K; try discriminate K; split; congruence).
  pose proof (D a A). pose proof (D b B). lia.
Qed.
Lemma then_suffix : forall c s n r, then_digits c s = Some (n, r) -> suffix r s /\ 0 <= n <= 99.
Proof.
  intros c [|x s] n r H; [discriminate H|]. cbn in H. destruct (x =? c)%char; [|discriminate H]. destruct (some_suffix s n r H) as [[p ->] B].
  split; [exists (String x p); reflexivity|exact B].
Qed.
Lemma suffix_trans : forall a b c, suffix a b -> suffix b c -> suffix a c.
Proof. intros a b c [p ->] [q ->]. exists (q ++ p). symmetry. apply app_assoc. Qed.
Lemma iso_date_done : forall s r d, iso_date s = Done r d -> suffix r s /\ isodate_ok d.
Proof.
  intros s r d H. unfold iso_date in H.
  destruct (some_digits s) as [[a r1]|] eqn:E1; [|discriminate H]. destruct (some_digits r1) as [[b r2]|] eqn:E2; [|discriminate H].
  destruct (then_digits "-" r2) as [[mo r3]|] eqn:E3; [|discriminate H]. destruct (then_digits "-" r3) as [[dd r4]|] eqn:E4; [|discriminate H].
  destruct (_ && _); [|discriminate H]. assert (Ed : d = YMD (100 * a + b) mo dd) by congruence. assert (Er : r = r4) by congruence. subst d r. clear H.
  apply some_suffix in E1, E2. apply then_suffix in E3, E4. destruct E1, E2, E3, E4.
  split; [|unfold isodate_ok, i32, u32; lia]. eapply suffix_trans; [eassumption|]. eapply suffix_trans; [eassumption|]. eapply suffix_trans; eassumption.
Qed.
Lemma iso_date_cases : forall s, iso_date s = PError \/ exists r d, iso_date s = Done r d.
Proof.
  intro s. unfold iso_date. destruct (some_digits s) as [[a r1]|]; [|left; reflexivity]. destruct (some_digits r1) as [[b r2]|]; [|left; reflexivity].
  destruct (then_digits "-" r2) as [[mo r3]|]; [|left; reflexivity]. destruct (then_digits "-" r3) as [[dd r4]|]; [|left; reflexivity].
  destruct (_ && _); [right; eauto|left; reflexivity].
Qed.
Lemma iso_date_fine : forall s, fine iso_date s.
Proof. intro s. unfold fine. destruct (iso_date_cases s) as [->|(r & d & E)]; [exact I|]. rewrite E. exact (proj1 (iso_date_done s r d E)). Qed.
Lemma iso_datetime_done : forall s r d t, iso_datetime s = Done r (d, t) -> suffix r s /\ isodate_ok d /\ isotime_ok t.
Proof.
  intros s r d t H. unfold iso_datetime in H. destruct (iso_date s) as [r0 d0| | |] eqn:E0; try discriminate H. destruct (iso_date_done _ _ _ E0) as [S0 D0].
  destruct (then_digits "T" r0) as [[h r1]|] eqn:E1; [|discriminate H]. destruct (then_digits ":" r1) as [[mi r2]|] eqn:E2; [|discriminate H].
  destruct (then_digits ":" r2) as [[sec r3]|] eqn:E3; [|discriminate H]. injection H as <- <- <-.
  apply then_suffix in E1, E2, E3. destruct E1, E2, E3. split; [|split; [exact D0|unfold isotime_ok, u32; cbn; lia]].
  eapply suffix_trans; [eassumption|]. eapply suffix_trans; [eassumption|]. eapply suffix_trans; eassumption.
Qed.
Lemma iso_datetime_fine : forall s, fine iso_datetime s.
Proof.
  intro s. unfold fine. destruct (iso_datetime s) as [r [d t]| | |] eqn:E; try exact I; [exact (proj1 (iso_datetime_done s r d t E))|].
  unfold iso_datetime in E. destruct (iso_date_cases s) as [Q|(r & d & Q)]; rewrite Q in E; [discriminate E|].
  destruct (then_digits "T" r) as [[h r1]|]; [|discriminate E]. destruct (then_digits ":" r1) as [[mi r2]|]; [|discriminate E].
  destruct (then_digits ":" r2) as [[sec r3]|]; discriminate E.
Qed.
Lemma then_two : forall c n r, 0 <= n < 100 -> then_digits c (String c "" ++ two n ++ r) = Some (n, r).
Proof. intros c n r H. cbn [append then_digits]. rewrite Ascii.eqb_refl. apply two_reads. exact H. Qed.
Lemma iso_date_text : forall y mo d r, 0 <= y <= 9999 -> 1 <= mo <= 12 -> 1 <= d <= 31 -> iso_date (date_text y mo d ++ r) = Done r (YMD y mo d).
Proof.
  intros y mo d r Hy Hm Hd. unfold iso_date, date_text, four. rewrite !app_assoc.
  rewrite two_reads by (pose proof (Z.div_lt_upper_bound y 100 100); pose proof (Z.div_pos y 100); lia).
  assert (T : two y = two (y mod 100)).
  { unfold two, last_digit. f_equal; [|f_equal]; do 2 f_equal; f_equal.
    - pose proof (Z.div_mod y 100). pose proof (Z.mod_pos_bound y 100). replace (y / 10) with (10 * (y / 100) + y mod 100 / 10); [|symmetry; rewrite (Z.div_mod y 100) at 1 by lia; replace (100 * (y / 100) + y mod 100) with ((10 * (y / 100)) * 10 + y mod 100) by lia; rewrite Z.div_add_l by lia; lia].
      rewrite Z.mul_comm, Z.add_comm, Z.mod_add by lia. reflexivity.
    - rewrite (Z.div_mod y 100) at 1 by lia. replace (100 * (y / 100) + y mod 100) with (y mod 100 + (10 * (y / 100)) * 10) by lia. rewrite Z.mod_add by lia. reflexivity. }
  rewrite T, two_reads by (apply Z.mod_pos_bound; lia). rewrite !then_two by lia.
  replace ((1 <=? mo) && (mo <=? 12) && (1 <=? d) && (d <=? 31)) with true by lia. do 2 f_equal. pose proof (Z.div_mod y 100). lia.
Qed.
Lemma iso_reads_dates : reads_dates iso_date iso_datetime.
Proof.
  intros y mo d r Hy Hm Hd Hr. rewrite iso_date_text by assumption. split; [reflexivity|]. left. unfold iso_datetime. rewrite iso_date_text by assumption.
  destruct Hr as [->|Hr]; [reflexivity|]. destruct r as [|c r]; [reflexivity|]. cbn in Hr |- *. destruct (c =? "T")%char eqn:E; [|reflexivity].
  apply Ascii.eqb_eq in E. subst c. discriminate Hr.
Qed.
Lemma iso_reads_times : reads_times iso_datetime.
Proof.
  intros y mo d h mi s r Hy Hm Hd Hh Hmi Hs Hr. unfold iso_datetime. rewrite iso_date_text by assumption. unfold time_text. rewrite !app_assoc. rewrite !then_two by lia.
  eexists. split; [reflexivity|]. repeat split.
Qed.

(** ** What the program prints for them *)
Section Main.
Variables (cfg : nom_cfg) (pd : parser isodate) (pdt : parser (isodate * isotime)) (md : mode) (now1 now2 : datetime).
Hypothesis Rd : reads_dates pd pdt.
Hypothesis Rt : reads_times pdt.
Notation main := (main md cfg pd pdt now1 now2).
Notation parse := (parse md cfg pd pdt now1 now2).

Lemma digit_no_keyword : forall c t, digit_char c = true -> ~ keyword (String c t).
Proof. intros c t D K. destruct K as [[x K]|[[x K]|[x K]]]; injection K as -> _; discriminate D. Qed.
Lemma date_bounds : forall m, four_digits m -> 0 <= year m <= 9999 /\ 1 <= month m <= 12 /\ 1 <= day m <= 31 /\ 0 <= hour m <= 23 /\ 0 <= minute m <= 59 /\ 0 <= second m <= 59.
Proof.
  intros m (V & Y & N). destruct (proj1 (dt_valid_iff m) V) as (_ & D & H & Mi & S & _). unfold date_exists in D. rewrite !andb_true_iff in D.
  pose proof (month_length_bounds (year m) (month m) ltac:(lia)). lia.
Qed.
Lemma writes_first : forall m s, four_digits m -> writes m s -> forall r, exists c t, s ++ r = String c t /\ digit_char c = true.
Proof.
  intros m s F W r. destruct (date_bounds m F) as (Hy & _). destruct W; unfold typed, date_text; rewrite !app_assoc; apply first_digit; exact Hy.
Qed.
Lemma writes_last : forall m s, four_digits m -> writes m s -> exists q b, s = q ++ String b "" /\ visible b.
Proof.
  intros m s F W. destruct (date_bounds m F) as (Hy & Hm & Hd & Hh & Hmi & Hs). destruct W; unfold typed, date_text, time_text; repeat apply last_app; apply (two_last ""); lia.
Qed.
Lemma writes_reads : forall m s r, four_digits m -> writes m s -> apart r ->
  exists x, exact_reads pd pdt x (s ++ r) r /\ plain x = true /\ means now1 x m /\ means now2 x m.
Proof.
  intros m s r F W A. destruct (date_bounds m F) as (Hy & Hm & Hd & Hh & Hmi & Hs). destruct (writes_first m s F W r) as (c & t & E & D).
  assert (K : ~ keyword (s ++ r)) by (rewrite E; apply digit_no_keyword; exact D).
  destruct F as (V & _ & N). destruct W as [m|m H0 M0 S0].
  - destruct (Rt (year m) (month m) (day m) (hour m) (minute m) (second m) r Hy Hm Hd Hh Hmi Hs A) as (tm & P & T1 & T2 & T3).
    exists (Iso8601DateTime (YMD (year m) (month m) (day m)) tm). split; [apply ER_datetime; [exact K|]; unfold typed; rewrite !app_assoc; exact P|]. split; [reflexivity|].
    assert (Q : m = mkdt (year m) (month m) (day m) (t_hour tm) (t_minute tm) (t_second tm) 0) by (rewrite T1, T2, T3; destruct m; cbn in N; subst; reflexivity).
    split; (split; [exact V|exact Q]).
  - destruct (Rd (year m) (month m) (day m) r Hy Hm Hd A) as [P1 P2].
    exists (Iso8601Date (YMD (year m) (month m) (day m))). split; [apply ER_date; assumption|]. split; [reflexivity|].
    assert (Q : m = mkdt (year m) (month m) (day m) 0 0 0 0) by (destruct m; cbn in *; subst; reflexivity). split; (split; [exact V|exact Q]).
Qed.
Lemma print_moment : forall m, four_digits m -> pretty_print (Moment m) = Value (printed m ++ " ").
Proof. intros m F. cbn [pretty_print]. rewrite printed_show by exact F. reflexivity. Qed.

Lemma main_written : forall n args w1 s w2 m, concat " " args = w1 ++ s ++ w2 -> spaces w1 -> spaces w2 -> four_digits m -> writes m s ->
  main n args = ([Value (printed m ++ " ")], Exits 0).
Proof.
  intros n args w1 s w2 m E H1 H2 F W. destruct (writes_reads m s "" F W (or_introl eq_refl)) as (x & R & P & M & _). rewrite app_nil in R.
  destruct (writes_first m s F W "") as (c & t & Ec & D). rewrite app_nil in Ec. destruct (writes_last m s F W) as (q & b & El & Vb).
  assert (So : solid s) by exact (solid_visible c t b q s Ec El (digit_visible c D) Vb).
  pose proof (parse_plain cfg pd pdt md now1 now2 x s "" m (DR_exact pd pdt x s "" R eq_refl) (solid_start s So) eq_refl P M) as Q.
  unfold Cli.main. rewrite (main_trimmed args w1 s w2 E H1 H2 So), Q, (calc_value md (Moment _) eq_refl), print_moment by exact F. reflexivity.
Qed.
Lemma main_no_date : forall n args w1 w2 y mo d, dt_valid now1 = true -> concat " " args = w1 ++ date_text y mo d ++ w2 -> spaces w1 -> spaces w2 ->
  0 <= y <= 9999 -> 1 <= mo <= 12 -> 1 <= d <= 31 -> date_exists y mo d = false ->
  main n args = ([ParseError (OutOfBounds y mo d 0 0 0)], Exits 0).
Proof.
  intros n args w1 w2 y mo d V1 E H1 H2 Hy Hm Hd X. destruct (Rd y mo d "" Hy Hm Hd (or_introl eq_refl)) as [P1 P2]. rewrite app_nil in P1, P2.
  destruct (first_digit y ("-" ++ two mo ++ "-" ++ two d) Hy) as (c & t & Ec & D). fold (date_text y mo d) in Ec.
  assert (L : exists q b, date_text y mo d = q ++ String b "" /\ visible b) by (unfold date_text; do 4 apply last_app; apply (two_last ""); lia).
  destruct L as (q & b & El & Vb). assert (So : solid (date_text y mo d)) by exact (solid_visible c t b q _ Ec El (digit_visible c D) Vb).
  assert (K : ~ keyword (date_text y mo d)) by (rewrite Ec; apply digit_no_keyword; exact D).
  pose proof (parse_missing cfg pd pdt md now1 now2 (Iso8601Date (YMD y mo d)) None (date_text y mo d) "" (DR_exact pd pdt _ _ "" (ER_date pd pdt _ _ "" K P2 P1) eq_refl)
    (solid_start _ So) eq_refl V1 eq_refl) as Q. cbn [written] in Q.
  unfold Cli.main. rewrite (main_trimmed args w1 _ w2 E H1 H2 So), Q; [reflexivity|].
  intros m (V & M). destruct (proj1 (dt_valid_iff m) V) as (_ & De & _). rewrite M in De. cbn in De. congruence.
Qed.

Hypothesis Hpd : forall s r d, pd s = Done r d -> isodate_ok d.
Hypothesis Hpdt : forall s r d t, pdt s = Done r (d, t) -> isodate_ok d /\ isotime_ok t.
Hypothesis V1 : dt_valid now1 = true.

Lemma main_sum : forall n args w1 s b1 op b2 e es w2 m, concat " " args = w1 ++ (s ++ b1 ++ op_text op ++ b2 ++ es) ++ w2 -> spaces w1 -> spaces w2 ->
  four_digits m -> writes m s -> blanks b1 -> b1 <> "" -> blanks b2 -> expr_text e es -> total e <= i64_max ->
  exists v, v * unit_secs (expr_unit e) = right_value e /\
    forall m', calculate md (date_op op (Moment m) (mk (expr_unit e) v)) = Ok (Moment m') -> four_digits m' -> main n args = ([Value (printed m' ++ " ")], Exits 0).
Proof.
  intros n args w1 s b1 op b2 e es w2 m E H1 H2 F W B1 N1 B2 He Ht. set (q := s ++ b1 ++ op_text op ++ b2 ++ es) in *.
  assert (A : apart (b1 ++ op_text op ++ b2 ++ es)).
  { right. destruct b1 as [|c b]; [congruence|]. unfold blanks in B1. cbn in B1 |- *. apply andb_true_iff in B1. apply B1. }
  destruct (writes_reads m s _ F W A) as (x & R & P & M & _). fold q in R.
  destruct (writes_first m s F W (b1 ++ op_text op ++ b2 ++ es)) as (c & t & Ec & D). fold q in Ec.
  destruct (expr_ends e es He) as [_ Le].
  assert (L : exists p b, q = p ++ String b "" /\ visible b) by (unfold q; do 4 apply last_app; exact Le). destruct L as (p & b & El & Vb).
  assert (So : solid q) by exact (solid_visible c t b p q Ec El (digit_visible c D) Vb).
  assert (Rq : exact_reads pd pdt x q (b1 ++ op_text op ++ b2 ++ es ++ "")) by (rewrite (app_nil es); exact R).
  pose proof (DR_op pd pdt x q b1 op b2 e es "" Rq B1 B2 He stop_nil) as Dr.
  destruct (parse_usable_op cfg pd pdt md now1 now2 Hpd Hpdt V1 x op e q "" m Dr (solid_start q So) eq_refl (or_introl P) M Ht) as (tt & v & T1 & T2 & T3).
  exists v. split; [exact T2|]. intros m' C F'. unfold Cli.main. rewrite (main_trimmed args w1 q w2 E H1 H2 So), T1, T3, C, print_moment by exact F'. reflexivity.
Qed.
Lemma four_same : forall a b, four_digits a -> dt_valid b = true -> nano b = 0 -> inst a = inst b -> a = b.
Proof. intros a b (Va & _ & Na) Vb Nb I. pose proof (inst_inj a b Va Vb I) as Q. destruct a, b. cbn in *. subst. unfold whole_second in Q. cbn in Q. exact Q. Qed.
Lemma main_plus : forall n args w1 s b1 b2 e es w2 m m', concat " " args = w1 ++ (s ++ b1 ++ "+" ++ b2 ++ es) ++ w2 -> spaces w1 -> spaces w2 ->
  four_digits m -> writes m s -> blanks b1 -> b1 <> "" -> blanks b2 -> expr_text e es -> total e <= i64_max ->
  clock_unit (expr_unit e) = true -> 0 <= right_value e -> four_digits m' -> inst m' = inst m + right_value e -> inst m' < instant (year m + 1) 1 31 0 0 0 ->
  main n args = ([Value (printed m' ++ " ")], Exits 0).
Proof.
  intros n args w1 s b1 b2 e es w2 m m' E H1 H2 F W B1 N1 B2 He Ht Cu R0 F' I L.
  destruct (main_sum n args w1 s b1 Plus b2 e es w2 m E H1 H2 F W B1 N1 B2 He Ht) as (v & Ev & G). apply G; [|exact F'].
  assert (U0 : 0 < unit_secs (expr_unit e)) by (destruct (expr_unit e); reflexivity).
  destruct (add_clock_exact md m (expr_unit e) v) as (m2 & C & V2 & N2 & I2); [apply F|exact Cu|nia|lia| |].
  - rewrite Ev, <- I. exact (inst_max m' (proj1 F')).
  - cbn [date_op]. rewrite C. do 2 f_equal. symmetry. apply four_same; [exact F'|exact V2|exact N2|lia].
Qed.
Lemma main_amount : forall n args w1 s b1 op b2 ds b3 sp u w2 m m', concat " " args = w1 ++ (s ++ b1 ++ op_text op ++ b2 ++ ds ++ b3 ++ sp) ++ w2 -> spaces w1 -> spaces w2 ->
  four_digits m -> writes m s -> blanks b1 -> b1 <> "" -> blanks b2 -> digits ds -> blanks b3 -> In (sp, u) spellings -> decimal ds * punit_secs u <= i64_max ->
  calculate md (date_op op (Moment m) (mk (punit_kept u) (times_kept (decimal ds) u))) = Ok (Moment m') -> four_digits m' ->
  main n args = ([Value (printed m' ++ " ")], Exits 0).
Proof.
  intros n args w1 s b1 op b2 ds b3 sp u w2 m m' E H1 H2 F W B1 N1 B2 D B3 I T C F'.
  assert (L : decimal ds <= i64_max).
  { pose proof (decimal_range ds (proj1 D)). destruct u; cbn [punit_secs] in T; lia. }
  assert (He : expr_text (AELast (Amount (decimal ds) u)) (ds ++ b3 ++ sp)).
  { apply ET_last. exact (AT_number "" ds b3 sp u eq_refl D L B3 I). }
  destruct (main_sum n args w1 s b1 op b2 _ _ w2 m E H1 H2 F W B1 N1 B2 He T) as (v & Ev & G). apply G; [|exact F'].
  cbn [expr_unit amount_unit right_value amount_secs] in *. replace v with (times_kept (decimal ds) u); [exact C|].
  destruct u; cbn [punit_kept unit_secs punit_secs times_kept] in *; lia.
Qed.
Lemma main_months : forall n args w1 s b1 b2 ds b3 sp w2 m Y Mo, concat " " args = w1 ++ (s ++ b1 ++ "+" ++ b2 ++ ds ++ b3 ++ sp) ++ w2 -> spaces w1 -> spaces w2 ->
  four_digits m -> writes m s -> blanks b1 -> b1 <> "" -> blanks b2 -> digits ds -> blanks b3 -> In (sp, PMonth) spellings ->
  day m <= 28 -> 12 * Y + Mo = 12 * year m + month m + decimal ds -> 1 <= Mo <= 12 -> Y <= 9999 ->
  main n args = ([Value (printed (mkdt Y Mo (day m) (hour m) (minute m) (second m) 0) ++ " ")], Exits 0).
Proof.
  intros n args w1 s b1 b2 ds b3 sp w2 m Y Mo E H1 H2 F W B1 N1 B2 D B3 I Hd HY HMo L. destruct (date_bounds m F) as (Dy & Dm & Dd & Dh & Dmi & Ds).
  pose proof (decimal_range ds (proj1 D)) as P.
  apply (main_amount n args w1 s b1 Plus b2 ds b3 sp PMonth w2 m _ E H1 H2 F W B1 N1 B2 D B3 I).
  - cbn [punit_secs]. unfold i64_max. lia.
  - cbn [date_op punit_kept mk times_kept]. apply add_months_same_day; try lia; [apply F|unfold max_year; lia].
  - split; [|split; [cbn; lia|reflexivity]]. apply dt_valid_iff. cbn. unfold date_exists. pose proof (month_length_bounds Y Mo HMo). unfold min_year, max_year. lia.
Qed.
Lemma main_days_back : forall n args w1 s b1 b2 ds b3 sp u w2 m, concat " " args = w1 ++ (s ++ b1 ++ "-" ++ b2 ++ ds ++ b3 ++ sp) ++ w2 -> spaces w1 -> spaces w2 ->
  four_digits m -> writes m s -> blanks b1 -> b1 <> "" -> blanks b2 -> digits ds -> blanks b3 -> In (sp, u) spellings -> u = PDay \/ u = PWeek ->
  let D := day m - times_kept (decimal ds) u in 1 <= D ->
  main n args = ([Value (printed (mkdt (year m) (month m) D (hour m) (minute m) (second m) 0) ++ " ")], Exits 0).
Proof.
  intros n args w1 s b1 b2 ds b3 sp u w2 m E H1 H2 F W B1 N1 B2 Ds B3 I Hu D HD. destruct (date_bounds m F) as (Dy & Dm & Dd & Dh & Dmi & Dse).
  pose proof (decimal_range ds (proj1 Ds)) as P.
  assert (T : 0 <= times_kept (decimal ds) u < 31) by (unfold D in HD; destruct Hu as [->| ->]; cbn [times_kept] in *; lia).
  assert (V : dt_valid (mkdt (year m) (month m) D (hour m) (minute m) (second m) 0) = true).
  { destruct F as (V & _). apply dt_valid_iff in V. apply dt_valid_iff. cbn in *. unfold date_exists in *. lia. }
  apply (main_amount n args w1 s b1 Minus b2 ds b3 sp u w2 m _ E H1 H2 F W B1 N1 B2 Ds B3 I).
  - unfold i64_max. destruct Hu as [->| ->]; cbn [punit_secs times_kept] in *; lia.
  - replace (punit_kept u) with UDay by (destruct Hu as [->| ->]; reflexivity). cbn [date_op mk].
    pose proof (sub_days md m (times_kept (decimal ds) u) (proj1 F) ltac:(lia)) as Q. cbv zeta in Q. destruct Q as [Q _]. fold D in Q.
    rewrite Q by lia. unfold back_day. replace (1 <=? D) with true by lia. cbn [built3]. unfold built.
    assert (Rp : representable (year m) (month m) D = true).
    { apply dt_valid_iff in V. cbn in V. unfold representable. destruct V as (Vy & Ve & _). rewrite Ve. unfold min_year, max_year in *. lia. }
    rewrite Rp. do 2 f_equal. apply at_sod. exact (proj1 F).
  - split; [exact V|]. split; [exact Dy|reflexivity].
Qed.
Lemma solid_of : forall s, (exists c t, s = String c t /\ digit_char c = true) -> (exists q b, s = q ++ String b "" /\ visible b) -> solid s.
Proof. intros s (c & t & Ec & D) (q & b & El & Vb). exact (solid_visible c t b q s Ec El (digit_visible c D) Vb). Qed.
Hypothesis V2 : dt_valid now2 = true.
Lemma drop_app : forall b r, blanks b -> starts blank_char r = false -> drop_blanks (b ++ r) = r.
Proof.
  induction b as [|c b IH]; intros r B H; [apply drop_stop; exact H|]. unfold blanks in B. cbn in B |- *. apply andb_true_iff in B. destruct B as [-> B]. apply IH; assumption.
Qed.
Lemma main_repeat : forall N args w1 s b1 b2 ds b3 sp u b4 cs b5 w2 m,
  concat " " args = w1 ++ (s ++ b1 ++ "every" ++ b2 ++ ds ++ b3 ++ sp ++ b4 ++ cs ++ b5 ++ "times") ++ w2 -> spaces w1 -> spaces w2 ->
  four_digits m -> writes m s -> blanks b1 -> b1 <> "" -> blanks b2 -> digits ds -> blanks b3 -> In (sp, u) spellings ->
  blanks b4 -> digits cs -> blanks b5 -> clock_unit (punit_kept u) = true -> decimal ds * punit_secs u <= 30 * 86400 ->
  inst m + decimal cs * (decimal ds * punit_secs u) < instant 10000 1 1 0 0 0 -> decimal cs <= i64_max -> decimal cs < Z.of_nat N ->
  exists l, main N args = (map (fun x => Value (printed x ++ " ")) l, Exits 0) /\ Z.of_nat (List.length l) = decimal cs /\
    forall k x, nth_error l k = Some x -> four_digits x /\ inst x = inst m + Z.of_nat k * (decimal ds * punit_secs u).
Proof.
  intros N args w1 s b1 b2 ds b3 sp u b4 cs b5 w2 m E H1 H2 F W B1 N1 B2 D B3 I B4 Dc B5 Cu Le Lm Lc LN.
  pose proof (decimal_range ds (proj1 D)) as P. pose proof (decimal_range cs (proj1 Dc)) as Pc.
  set (r2 := b4 ++ cs ++ b5 ++ "times"). set (t := "every" ++ b2 ++ ds ++ b3 ++ sp).
  set (q := s ++ b1 ++ "every" ++ b2 ++ ds ++ b3 ++ sp ++ b4 ++ cs ++ b5 ++ "times") in *.
  assert (Eq : q = s ++ b1 ++ t ++ r2) by (unfold q, t, r2; rewrite !app_assoc; reflexivity).
  assert (A : apart (b1 ++ t ++ r2)).
  { right. destruct b1 as [|c b]; [congruence|]. unfold blanks in B1. cbn in B1 |- *. apply andb_true_iff in B1. apply B1. }
  destruct (writes_reads m s _ F W A) as (x & R & Px & M & _). rewrite <- Eq in R.
  assert (So : solid q).
  { rewrite Eq. apply solid_of; [exact (writes_first m s F W _)|]. do 3 apply last_app. unfold r2. do 3 apply last_app. exists "time", "s"%char. split; [reflexivity|]. vm_compute. split; congruence. }
  assert (Ed : drop_blanks (b1 ++ t ++ r2) = t ++ r2) by (apply drop_app; [exact B1|reflexivity]).
  assert (Dr : date_reads pd pdt (Date x None) q (b1 ++ t ++ r2)) by (apply DR_exact; [exact R|rewrite Ed; reflexivity]).
  assert (L : decimal ds <= i64_max) by (unfold i64_max; destruct u; cbn [punit_secs] in Le; lia).
  assert (St : step_text (IEvery (decimal ds) u) t) by exact (ST_every b2 ds b3 sp u B2 D L B3 I).
  assert (Sl : starts letter_char r2 = false).
  { unfold r2. destruct b4 as [|c b4]; cbn.
    - destruct cs as [|c cs]; [destruct Dc; congruence|]. destruct Dc as [Dc _]. cbn in Dc |- *. apply andb_true_iff in Dc. destruct Dc as [Dc _]. revert Dc. clear. destruct c as [[] [] [] [] [] [] [] []]; vm_compute; congruence.
    - unfold blanks in B4. cbn in B4. apply andb_true_iff in B4. destruct B4 as [Bc _]. revert Bc. clear. destruct c as [[] [] [] [] [] [] [] []]; vm_compute; congruence. }
  assert (Ss : step_count (IEvery (decimal ds) u) * unit_secs (step_unit (IEvery (decimal ds) u)) = decimal ds * punit_secs u) by (destruct u; cbn [step_count step_unit times_kept punit_kept unit_secs punit_secs]; lia).
  assert (Si : in_i64 (step_count (IEvery (decimal ds) u)) = true) by (unfold in_i64, i64_min, i64_max; destruct u; cbn [step_count times_kept punit_secs] in *; lia).
  assert (Hv : (do y <- date_into md now1 (Date x None); calculate md y) = Ok (Moment m)).
  { cbn [date_into]. rewrite (plain_into md now1 x m Px M). cbn [bind]. exact (calc_value md (Moment m) eq_refl). }
  assert (Br : bound_reads pd pdt (Some (UTimes (decimal cs))) (drop_blanks r2)).
  { unfold r2. rewrite drop_app; [exact (BR_times pd pdt cs b5 "" Dc Lc B5)|exact B4|].
    destruct cs as [|c cs]; [destruct Dc; congruence|]. destruct Dc as [Dc _]. cbn in Dc |- *. apply andb_true_iff in Dc. destruct Dc as [Dc _]. revert Dc. clear. destruct c as [[] [] [] [] [] [] [] []]; vm_compute; congruence. }
  assert (Lx : inst m + decimal cs * (step_count (IEvery (decimal ds) u) * unit_secs (step_unit (IEvery (decimal ds) u))) < instant (max_year + 1) 1 1 0 0 0).
  { rewrite Ss. eapply Z.lt_trans; [exact Lm|]. vm_compute. reflexivity. }
  assert (Hs : step_count (IEvery (decimal ds) u) * unit_secs (step_unit (IEvery (decimal ds) u)) <= 30 * 86400) by (rewrite Ss; exact Le).
  pose proof (text_means cfg pd pdt Hpd Hpdt md now1 now2 V1 V2 (Date x None) "" q (b1 ++ t ++ r2) (IEvery (decimal ds) u) t r2 eq_refl Dr (solid_start q So) Ed St Sl Si _ Br) as T.
  cbv zeta in T. rewrite Hv in T. destruct T as (b' & it & [= <-] & V & B & T).
  assert (In : in_i64 (decimal cs) = true) by (apply in_i64_iff; unfold i64_min, i64_max in *; lia).
  assert (P0 : 0 <= decimal ds * punit_secs u) by (destruct u; cbn [punit_secs]; lia).
  destruct (choose m (fun k x => nth_item (user_next md) k (UITimes (times_new it (decimal cs))) = Some (Ok (Moment x)) /\ four_digits x /\ inst x = inst m + Z.of_nat k * (decimal ds * punit_secs u)) (Z.to_nat (decimal cs))) as (l & Ll & Q).
  { intros k Hk. assert (Lk : Z.of_nat k * (decimal ds * punit_secs u) <= decimal cs * (decimal ds * punit_secs u)) by nia.
    assert (L3 : inst m + Z.of_nat k * step_count (IEvery (decimal ds) u) * unit_secs (step_unit (IEvery (decimal ds) u)) < instant (max_year + 1) 1 1 0 0 0) by (rewrite Ss in Lx; rewrite <- Z.mul_assoc, Ss; lia).
    destruct (clock_item md m _ _ it k B V Cu ltac:(destruct u; cbn [step_count times_kept]; lia) Hs L3) as (x0 & E1 & E2 & E3 & E4 & E5).
    rewrite <- Z.mul_assoc, Ss in E3. exists x0. rewrite user_times, times_pass by (try exact In; lia). split; [exact E1|]. split; [|exact E3].
    split; [exact E2|]. split.
    - pose proof (year_le m x0 V E2 ltac:(lia)). destruct F as (_ & Fy & _). split; [lia|].
      destruct (Z_le_gt_dec (year x0) 9999) as [|Z0]; [lia|].
      assert (K : instant 10000 1 1 0 0 0 <= inst x0).
      { rewrite inst_sod. pose proof (sod_range x0 E2). pose proof (doy_bounds _ _ _ (valid_date x0 E2)) as HB.
        unfold instant. rewrite day_number_jan. unfold day_number. pose proof (days_before_year_mono 10000 (year x0) ltac:(lia)). lia. }
      lia.
    - destruct k as [|k]; [rewrite E4 by reflexivity; apply F|apply E5; discriminate]. }
  assert (Fl : forall k x0, nth_error l k = Some x0 -> four_digits x0 /\ inst x0 = inst m + Z.of_nat k * (decimal ds * punit_secs u)) by (intros k x0 K; apply (Q k x0 K)).
  exists l. split; [|split; [lia|exact Fl]].
  unfold Cli.main. rewrite (main_trimmed args w1 q w2 E H1 H2 So). change ("" ++ q) with q in T. rewrite T.
  rewrite (print_collected md m l); [|lia|intros k x0 K; apply (Q k x0 K)|].
  2: { rewrite user_times, Ll. apply times_done; [exact In|lia|lia]. }
  f_equal. unfold lines. apply map_ext_in. intros a Ha. apply In_nth_error in Ha. destruct Ha as [k K]. rewrite printed_show by (apply (Fl k a K)). reflexivity.
Qed.
Lemma main_span : forall N args w1 s b1 b2 ds b3 sp u b4 b5 s2 w2 m en,
  concat " " args = w1 ++ (s ++ b1 ++ "every" ++ b2 ++ ds ++ b3 ++ sp ++ b4 ++ "until" ++ b5 ++ s2) ++ w2 -> spaces w1 -> spaces w2 ->
  four_digits m -> writes m s -> four_digits en -> writes en s2 -> blanks b1 -> b1 <> "" -> blanks b2 -> digits ds -> blanks b3 -> In (sp, u) spellings ->
  blanks b4 -> b4 <> "" -> blanks b5 -> clock_unit (punit_kept u) = true -> 0 < decimal ds -> decimal ds * punit_secs u <= 30 * 86400 ->
  let K := Z.max 0 ((inst en - inst m + decimal ds * punit_secs u - 1) / (decimal ds * punit_secs u)) in K < Z.of_nat N ->
  exists l, main N args = (map (fun x => Value (printed x ++ " ")) l, Exits 0) /\ Z.of_nat (List.length l) = K /\
    forall k x, nth_error l k = Some x -> four_digits x /\ inst x = inst m + Z.of_nat k * (decimal ds * punit_secs u).
Proof.
  intros N args w1 s b1 b2 ds b3 sp u b4 b5 s2 w2 m en E H1 H2 F W F2 W2 B1 N1 B2 D B3 I B4 N4 B5 Cu D0 Le K LN.
  pose proof (decimal_range ds (proj1 D)) as P. set (st := decimal ds * punit_secs u) in *.
  assert (S0 : 0 < st) by (unfold st; destruct u; cbn [punit_secs]; lia).
  set (r2 := b4 ++ "until" ++ b5 ++ s2). set (t := "every" ++ b2 ++ ds ++ b3 ++ sp).
  set (q := s ++ b1 ++ "every" ++ b2 ++ ds ++ b3 ++ sp ++ b4 ++ "until" ++ b5 ++ s2) in *.
  assert (Eq : q = s ++ b1 ++ t ++ r2) by (unfold q, t, r2; rewrite !app_assoc; reflexivity).
  assert (A : apart (b1 ++ t ++ r2)).
  { right. destruct b1 as [|c b]; [congruence|]. unfold blanks in B1. cbn in B1 |- *. apply andb_true_iff in B1. apply B1. }
  destruct (writes_reads m s _ F W A) as (x & R & Px & M & _). rewrite <- Eq in R.
  destruct (writes_reads en s2 "" F2 W2 (or_introl eq_refl)) as (x2 & R2 & Px2 & _ & M2). rewrite app_nil in R2.
  destruct (writes_first en s2 F2 W2 "") as (c2 & t2 & Ec2 & Dc2). rewrite app_nil in Ec2.
  assert (So : solid q).
  { rewrite Eq. apply solid_of; [exact (writes_first m s F W _)|]. do 3 apply last_app. unfold r2. do 3 apply last_app. exact (writes_last en s2 F2 W2). }
  assert (Ed : drop_blanks (b1 ++ t ++ r2) = t ++ r2) by (apply drop_app; [exact B1|reflexivity]).
  assert (Dr : date_reads pd pdt (Date x None) q (b1 ++ t ++ r2)) by (apply DR_exact; [exact R|rewrite Ed; reflexivity]).
  assert (L : decimal ds <= i64_max) by (unfold i64_max; unfold st in Le; destruct u; cbn [punit_secs] in Le; lia).
  assert (St : step_text (IEvery (decimal ds) u) t) by exact (ST_every b2 ds b3 sp u B2 D L B3 I).
  assert (Sl : starts letter_char r2 = false).
  { unfold r2. destruct b4 as [|c b4]; [congruence|]. unfold blanks in B4. cbn in B4 |- *. apply andb_true_iff in B4. destruct B4 as [Bc _]. revert Bc. clear. destruct c as [[] [] [] [] [] [] [] []]; vm_compute; congruence. }
  assert (Ss : step_count (IEvery (decimal ds) u) * unit_secs (step_unit (IEvery (decimal ds) u)) = st) by (unfold st; destruct u; cbn [step_count step_unit times_kept punit_kept unit_secs punit_secs]; lia).
  assert (Si : in_i64 (step_count (IEvery (decimal ds) u)) = true) by (unfold st in Le; unfold in_i64, i64_min, i64_max; destruct u; cbn [step_count times_kept punit_secs] in *; lia).
  assert (Hv : (do y <- date_into md now1 (Date x None); calculate md y) = Ok (Moment m)).
  { cbn [date_into]. rewrite (plain_into md now1 x m Px M). cbn [bind]. exact (calc_value md (Moment m) eq_refl). }
  assert (He : (do y <- exactdate_into md now2 x2; calculate md y) = Ok (Moment en)).
  { rewrite (plain_into md now2 x2 en Px2 M2). cbn [bind]. exact (calc_value md (Moment en) eq_refl). }
  assert (Br : bound_reads pd pdt (Some (UExact x2)) (drop_blanks r2)).
  { unfold r2. rewrite drop_app; [|exact B4|reflexivity]. apply (BR_until pd pdt x2 b5 s2 "" B5); [|exact R2].
    rewrite Ec2. cbn. revert Dc2. clear. destruct c2 as [[] [] [] [] [] [] [] []]; vm_compute; congruence. }
  assert (Ne : nano en = 0) by apply F2. assert (Nm : nano m = 0) by apply F.
  destruct (Z_lt_le_dec (inst m) (inst en)) as [Lt|Ge].
  - assert (Ks : steps_before m en st = K).
    { unfold steps_before, K. rewrite Ne. cbn [Z.ltb Z.compare]. replace (inst en - inst m + st - 1) with (inst en - inst m + 0 - 1 + 1 * st) by lia.
      rewrite Z.div_add by lia. pose proof (Z.div_pos (inst en - inst m + 0 - 1) st). lia. }
    assert (Kb : K * st < inst en - inst m + st).
    { rewrite <- Ks. unfold steps_before. rewrite Ne. cbn [Z.ltb Z.compare]. pose proof (Z.mul_div_le (inst en - inst m + 0 - 1) st S0). lia. }
    assert (Ey : inst en < instant 10000 1 1 0 0 0).
    { destruct F2 as (Ve & Ye & _). pose proof (inst_year_end en Ve) as Y. unfold instant in *. rewrite day_number_jan in *. pose proof (days_before_year_mono (year en + 1) 10000 ltac:(lia)). lia. }
    destruct (main_until cfg pd pdt md now1 now2 Hpd Hpdt V1 V2 args w1 w2 (Date x None) q (b1 ++ t ++ r2) (IEvery (decimal ds) u) t r2 m E H1 H2 So Dr Ed St Sl Si Hv Cu
      ltac:(rewrite Ss; exact Le) N x2 en Br He (or_introl Lt) ltac:(destruct u; cbn [step_count times_kept]; lia)) as (l & G1 & G2 & G3).
    + rewrite Ss, Ks. eapply Z.lt_trans with (m := instant 10000 1 1 0 0 0 + 30 * 86400); [lia|]. vm_compute. reflexivity.
    + rewrite Ss, Ks. exact LN.
    + rewrite Ss in *. rewrite Ks in *.
      assert (Fl : forall k x0, nth_error l k = Some x0 -> four_digits x0 /\ inst x0 = inst m + Z.of_nat k * st).
      { intros k x0 X. destruct (G3 k x0 X) as (G4 & G5 & G6). split; [|exact G5]. split; [exact G4|]. split.
        - assert (Hk : (k < List.length l)%nat) by (apply nth_error_Some; congruence).
          assert (Z.of_nat k * st <= (K - 1) * st) by nia.
          pose proof (year_le m x0 (proj1 F) G4 ltac:(lia)). pose proof (year_le x0 en G4 (proj1 F2) ltac:(lia)). destruct F as (_ & Fy & _). destruct F2 as (_ & Fy2 & _). lia.
        - rewrite G6, Nm. destruct (k =? 0)%nat; reflexivity. }
      exists l. split; [|split; [exact G2|exact Fl]]. rewrite G1. f_equal. apply map_ext_in. intros a Ha. apply In_nth_error in Ha. destruct Ha as [k X].
      rewrite printed_show by (apply (Fl k a X)). reflexivity.
  - exists []. assert (K0 : K = 0).
    { unfold K. apply Z.max_l. assert (inst en - inst m + st - 1 < st) by lia. pose proof (Z.div_lt_upper_bound (inst en - inst m + st - 1) st 1 S0). lia. }
    split; [|split; [rewrite K0; reflexivity|intros [|k] x0 X; discriminate X]].
    destruct N as [|N]; [lia|].
    exact (main_until_empty cfg pd pdt md now1 now2 Hpd Hpdt V1 V2 args w1 w2 (Date x None) q (b1 ++ t ++ r2) (IEvery (decimal ds) u) t r2 m E H1 H2 So Dr Ed St Sl Si Hv
      N x2 en Br He ltac:(unfold before; lia)).
Qed.
End Main.
