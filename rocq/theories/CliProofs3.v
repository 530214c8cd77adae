(** Proofs about the command line program: the lines printed for amounts and iterator expressions. *)
Require Import ZArith Bool List String Ascii Lia ZifyBool.
From Verif Require Import Prelude Spec Chrono TimeType Iter SpecTree SpecMoment SpecIter SpecAdapt SpecSeq Nom ParserTimetype ParserIterator ParserMod SpecText Show Cli SpecCli
  PreludeProofs EvalProofs ShapeProofs IterProofs AdapterProofs LowerProofs NomProofs ParserProofs2 ParserProofs3 ParserProofs5 ParserProofs6 SeqProofs CliProofs CliProofs2 ShowProofs.
Import ListNotations.
Local Open Scope string_scope.
Local Open Scope Z_scope.

Definition visible (c : ascii) : Prop := 33 <= byte c < 128.
Lemma solid_visible : forall a r b q s, s = String a r -> s = q ++ String b "" -> visible a -> visible b -> solid s.
Proof.
  intros a r b q s -> E A B. unfold visible in *. split; intros w z Hw K.
  - destruct (white_cases w Hw) as [(x & -> & Q)|[(x & y & -> & _ & Q)|(x & y & c & -> & _ & _ & Q)]]; injection K as -> _; unfold ws1, ws2, ws3 in Q; lia.
  - rewrite E in K.
    assert (L : forall u v c d, u ++ String c "" = v ++ String d "" -> c = d).
    { clear. induction u as [|x u IH]; intros v c d H; destruct v as [|y v]; cbn in H.
      - injection H as ->. reflexivity.
      - injection H as _ H. destruct v; discriminate H.
      - injection H as _ H. destruct u; discriminate H.
      - injection H as _ H. exact (IH v c d H). }
    destruct (white_cases w Hw) as [(x & -> & Q)|[(x & y & -> & _ & Q)|(x & y & c & -> & _ & _ & Q)]].
    + apply L in K. subst b. unfold ws1 in Q. lia.
    + change (String x (String y "")) with (String x "" ++ String y "") in K. rewrite <- app_assoc in K. apply L in K. subst b. unfold ws2 in Q. lia.
    + change (String x (String y (String c ""))) with (String x (String y "") ++ String c "") in K. rewrite <- app_assoc in K. apply L in K. subst b. unfold ws3 in Q. lia.
Qed.
Lemma digit_visible : forall c, digit_char c = true -> visible c.
Proof. intros [[] [] [] [] [] [] [] []]; vm_compute; intro H; try discriminate H; split; congruence. Qed.
Lemma spelling_last : forall sp u, In (sp, u) spellings -> exists q b, sp = q ++ String b "" /\ visible b.
Proof.
  intros sp u H. unfold spellings in H. cbn [In] in H.
  repeat (destruct H as [H|H]; [injection H as <- <-; match goal with |- exists q b, ?s = _ /\ _ =>
    exists (substring 0 (length s - 1) s); match eval vm_compute in (get (length s - 1) s) with Some ?c => exists c end end; split; [reflexivity|vm_compute; split; congruence]|]).
  contradiction.
Qed.
Lemma adverb_ends : forall sp u, In (sp, u) adverbs -> (exists a r, sp = String a r /\ visible a) /\ exists q b, sp = q ++ String b "" /\ visible b.
Proof.
  intros sp u H. unfold adverbs in H. cbn [In] in H.
  repeat (destruct H as [H|H]; [injection H as <- <-; split; [eexists; eexists; split; [reflexivity|vm_compute; split; congruence]|match goal with |- exists q b, ?s = _ /\ _ =>
    exists (substring 0 (length s - 1) s); match eval vm_compute in (get (length s - 1) s) with Some ?c => exists c end end; split; [reflexivity|vm_compute; split; congruence]]|]).
  contradiction.
Qed.
Lemma amount_ends : forall a s, amount_text a s -> (starts blank_char s = false -> exists c r, s = String c r /\ visible c) /\ exists q b, s = q ++ String b "" /\ visible b.
Proof.
  intros a s H. destruct H as [b1 ds b2 sp u H1 Hd Hv H2 Hs|sp a Hs].
  - split.
    + intro N. destruct b1 as [|c b1].
      * destruct Hd as [Hd Ne]. destruct ds as [|c ds]; [congruence|]. exists c. eexists. split; [reflexivity|]. apply digit_visible. cbn in Hd. apply andb_true_iff in Hd. apply Hd.
      * unfold blanks in H1. cbn in H1, N. rewrite N in H1. discriminate H1.
    + destruct (spelling_last sp u Hs) as (q & b & -> & V). exists (b1 ++ ds ++ b2 ++ q), b. split; [rewrite !app_assoc; reflexivity|exact V].
  - destruct (adverb_ends sp a Hs) as [A B]. split; [intros _; exact A|exact B].
Qed.
Lemma expr_ends : forall e s, expr_text e s -> (starts blank_char s = false -> exists c r, s = String c r /\ visible c) /\ exists q b, s = q ++ String b "" /\ visible b.
Proof.
  intros e s H. induction H as [a s H|a s b1 op b2 e s' H H1 H2 He (_ & q & b & -> & V)]; [exact (amount_ends a s H)|]. split.
  - intro N. destruct (amount_ends a s H) as [A _]. destruct s as [|c s].
    + destruct (amount_ends a "" H) as (_ & q' & b' & E & _). destruct q'; discriminate E.
    + destruct (A N) as (c' & r & E & Vc). injection E as <- <-. exists c. eexists. split; [reflexivity|exact Vc].
  - exists (s ++ b1 ++ op_text op ++ b2 ++ q), b. split; [rewrite !app_assoc; reflexivity|exact V].
Qed.
Lemma expr_solid : forall e s, expr_text e s -> starts blank_char s = false -> solid s.
Proof.
  intros e s H N. destruct (expr_ends e s H) as [A (q & b & E & V)]. destruct (A N) as (c & r & E' & V'). eapply solid_visible; eassumption.
Qed.
Lemma drop_stop : forall s, starts blank_char s = false -> drop_blanks s = s.
Proof. intros [|c s] H; [reflexivity|]. cbn in *. rewrite H. reflexivity. Qed.

Section Main.
Variables (cfg : nom_cfg) (pd : parser isodate) (pdt : parser (isodate * isotime)) (md : mode) (now1 now2 : datetime).
Notation main := (main md cfg pd pdt now1 now2).
Notation parse := (parse md cfg pd pdt now1 now2).

Lemma print_amount : forall u v, pretty_print (mk u v) = Value (show_int v ++ " " ++ word u).
Proof. intros [] v; reflexivity. Qed.
Lemma main_trimmed : forall args w1 s w2, concat " " args = w1 ++ s ++ w2 -> spaces w1 -> spaces w2 -> solid s -> trim (join args) = s.
Proof. intros args w1 s w2 E H1 H2 Hs. rewrite trim_join, E. apply trim_around; assumption. Qed.

Lemma main_amounts : forall n args w1 s w2 e, concat " " args = w1 ++ s ++ w2 -> spaces w1 -> spaces w2 -> expr_text e s ->
  starts blank_char s = false -> no_iso cfg pd pdt s -> total e <= i64_max ->
  exists v, v * unit_secs (expr_unit e) = right_value e /\ main n args = ([Value (show_int v ++ " " ++ word (expr_unit e))], Exits 0).
Proof.
  intros n args w1 s w2 e E H1 H2 He Hb Ni Ht.
  pose proof (main_trimmed args w1 s w2 E H1 H2 (expr_solid e s He Hb)) as T.
  destruct (parse_amounts cfg pd pdt md now1 now2 e s "" He stop_nil) as (t & v & P & C & V); try (rewrite app_nil; assumption).
  - rewrite app_nil, drop_stop by exact Hb. exact Ni.
  - exact Ht.
  - rewrite app_nil in P. exists v. split; [exact V|]. unfold Cli.main. rewrite T, P, C, print_amount. reflexivity.
Qed.

(** Lines for a run of moments. *)
Definition lines (l : list datetime) : list line := map (fun m => Value (show_moment m ++ " ")) l.
Lemma print_run : forall l n ui, (forall k m, nth_error l k = Some m -> nth_item (user_next md) k ui = Some (Ok (Moment m))) ->
  print_items md (List.length l + n) ui =
  (let '(l', e) := print_items md n (after (user_next md) (List.length l) ui) in ((lines l ++ l')%list, e)).
Proof.
  induction l as [|m l IH]; intros n ui H.
  - cbn [List.length Nat.add after lines map app]. destruct (print_items md n ui). reflexivity.
  - cbn [List.length Nat.add print_items after]. pose proof (H 0%nat m eq_refl) as H0. unfold nth_item in H0. cbn [after] in H0.
    destruct (user_next md ui) as [r ui'] eqn:E. cbn [fst snd] in *. subst r.
    rewrite (IH n ui').
    + destruct (print_items md n (after (user_next md) (List.length l) ui')) as [l' e]. reflexivity.
    + intros k m' K. specialize (H (S k) m' K). unfold nth_item in *. cbn [after] in H. rewrite E in H. exact H.
Qed.
Lemma choose : forall (P : nat -> datetime -> Prop) N, (forall k, (k < N)%nat -> exists m, P k m) ->
  exists l, List.length l = N /\ forall k m, nth_error l k = Some m -> P k m.
Proof.
  intros P. induction N as [|N IH]; intro H; [exists []; split; [reflexivity|]; intros [|k] m K; discriminate K|].
  destruct IH as (l & L & Hl); [intros; apply H; lia|]. destruct (H N ltac:(lia)) as [m Hm]. exists (l ++ [m])%list.
  split; [rewrite app_length; cbn; lia|]. intros k x K. destruct (lt_dec k N) as [Q|Q].
  - rewrite nth_error_app1 in K by lia. exact (Hl k x K).
  - rewrite nth_error_app2 in K by lia. replace (k - List.length l)%nat with (k - N)%nat in K by lia. destruct (k - N)%nat as [|j] eqn:D; [|destruct j; discriminate K].
    injection K as <-. replace k with N by lia. exact Hm.
Qed.
Lemma print_collected : forall l ui N, (List.length l < N)%nat -> (forall k m, nth_error l k = Some m -> nth_item (user_next md) k ui = Some (Ok (Moment m))) ->
  nth_item (user_next md) (List.length l) ui = None -> print_items md N ui = (lines l, Exits 0).
Proof.
  intros l ui N H1 H2 H3. replace N with (List.length l + S (N - List.length l - 1))%nat by lia. rewrite print_run by exact H2.
  cbn [print_items]. unfold nth_item in H3. destruct (user_next md (after (user_next md) (List.length l) ui)) as [r ui']. cbn [fst] in H3. subst r.
  rewrite app_nil_r. reflexivity.
Qed.

Section Text.
Hypothesis Hpd : forall s r d, pd s = Done r d -> isodate_ok d.
Hypothesis Hpdt : forall s r d t, pdt s = Done r (d, t) -> isodate_ok d /\ isotime_ok t.
Hypothesis V1 : dt_valid now1 = true.
Hypothesis V2 : dt_valid now2 = true.
Variables (args : list string) (w1 w2 : string) (d : pdate) (s r1 : string) (sp : iterspec) (t r2 : string) (b : datetime).
Hypothesis Eargs : concat " " args = w1 ++ s ++ w2.
Hypothesis Sw1 : spaces w1.
Hypothesis Sw2 : spaces w2.
Hypothesis Hsolid : solid s.
Hypothesis Hd : date_reads pd pdt d s r1.
Hypothesis E : drop_blanks r1 = t ++ r2.
Hypothesis Ht : step_text sp t.
Hypothesis Hl : starts letter_char r2 = false.
Hypothesis Hin : in_i64 (step_count sp) = true.
Hypothesis Hv : (do x <- date_into md now1 d; calculate md x) = Ok (Moment b).
Hypothesis Hu : clock_unit (step_unit sp) = true.
Hypothesis Hst : step_count sp * unit_secs (step_unit sp) <= 30 * 86400.
Notation step := (step_count sp * unit_secs (step_unit sp)).

Lemma solid_start : forall q, solid q -> starts blank_char q = false.
Proof.
  intros [|c q] [A _]; [reflexivity|]. cbn. destruct (blank_char c) eqn:B; [|reflexivity]. exfalso. apply (A (String c "") q); [|reflexivity].
  unfold blank_char in B. rewrite !orb_true_iff, !Ascii.eqb_eq in B. destruct B as [[[->| ->]| ->]| ->]; cbn; tauto.
Qed.
Lemma step_count_nonneg : 0 <= step_count sp.
Proof. pose proof (step_text_okv sp t Ht) as K. clear - K. destruct sp as [| | | | | | |n []]; unfold step_spec_ok, step_count, times_kept in *; lia. Qed.
Lemma main_plain : forall n, bound_reads pd pdt None (drop_blanks r2) ->
  inst b + Z.of_nat n * step < instant (max_year + 1) 1 1 0 0 0 ->
  exists l, main n args = (lines l, Running) /\ List.length l = n /\
    forall k m, nth_error l k = Some m -> dt_valid m = true /\ inst m = inst b + Z.of_nat k * step /\ nano m = (if (k =? 0)%nat then nano b else 0).
Proof.
  intros n Hb Hr. pose proof (main_trimmed args w1 s w2 Eargs Sw1 Sw2 Hsolid) as T.
  destruct (text_plain cfg pd pdt Hpd Hpdt md now1 now2 V1 V2 d "" s r1 sp t r2 eq_refl Hd (solid_start s Hsolid) E Ht Hl Hin b Hv Hu Hst Hb) as (ui & P & I).
  pose proof step_count_nonneg as S0.
  assert (U0 : 0 < unit_secs (step_unit sp)) by (destruct (step_unit sp); reflexivity).
  destruct (choose (fun k m => nth_item (user_next md) k ui = Some (Ok (Moment m)) /\ dt_valid m = true /\ inst m = inst b + Z.of_nat k * step /\ nano m = (if (k =? 0)%nat then nano b else 0)) n) as (l & L & Q).
  { intros k Hk. destruct (I k) as (m & I1 & I2 & I3 & I4); [nia|]. exists m. split; [exact I1|]. split; [exact I2|]. split; [lia|exact I4]. }
  exists l. split; [|split; [exact L|intros k m K; apply (Q k m K)]].
  unfold Cli.main. rewrite T. change ("" ++ s) with s in P. rewrite P. pose proof (print_run l 0 ui (fun k m K => proj1 (Q k m K))) as R.
  rewrite Nat.add_0_r, L in R. rewrite R. cbn [print_items]. rewrite app_nil_r. reflexivity.
Qed.
Lemma main_times : forall N c, bound_reads pd pdt (Some (UTimes c)) (drop_blanks r2) ->
  inst b + c * step < instant (max_year + 1) 1 1 0 0 0 -> c < Z.of_nat N ->
  exists l, main N args = (lines l, Exits 0) /\ Z.of_nat (List.length l) = c /\
    forall k m, nth_error l k = Some m -> dt_valid m = true /\ inst m = inst b + Z.of_nat k * step /\ nano m = (if (k =? 0)%nat then nano b else 0).
Proof.
  intros N c Hb Hr HN. pose proof (main_trimmed args w1 s w2 Eargs Sw1 Sw2 Hsolid) as T.
  destruct (text_times cfg pd pdt Hpd Hpdt md now1 now2 V1 V2 d "" s r1 sp t r2 eq_refl Hd (solid_start s Hsolid) E Ht Hl Hin b Hv Hu Hst c Hb) as (ui & P & I).
  pose proof step_count_nonneg as S0.
  assert (U0 : 0 < unit_secs (step_unit sp)) by (destruct (step_unit sp); reflexivity).
  assert (C0 : 0 <= c) by (pose proof (bound_reads_okv pd pdt Hpd Hpdt _ _ Hb) as K; cbn in K; lia).
  destruct (choose (fun k m => nth_item (user_next md) k ui = Some (Ok (Moment m)) /\ dt_valid m = true /\ inst m = inst b + Z.of_nat k * step /\ nano m = (if (k =? 0)%nat then nano b else 0)) (Z.to_nat c)) as (l & L & Q).
  { intros k Hk. destruct (I k) as [I0 _]. destruct I0 as (m & I1 & I2 & I3 & I4); [lia|nia|]. exists m. split; [exact I1|]. split; [exact I2|]. split; [lia|exact I4]. }
  exists l. split; [|split; [lia|intros k m K; apply (Q k m K)]].
  unfold Cli.main. rewrite T. change ("" ++ s) with s in P. rewrite P. apply print_collected.
  - lia.
  - intros k m K. apply (Q k m K).
  - apply (I (List.length l)). lia.
Qed.
Lemma main_until : forall N x en, bound_reads pd pdt (Some (UExact x)) (drop_blanks r2) ->
  (do y <- exactdate_into md now2 x; calculate md y) = Ok (Moment en) -> before b en -> 0 < step_count sp ->
  let K := steps_before b en step in
  inst b + K * step < instant (max_year + 1) 1 1 0 0 0 -> K < Z.of_nat N ->
  exists l, main N args = (lines l, Exits 0) /\ Z.of_nat (List.length l) = K /\
    forall k m, nth_error l k = Some m -> dt_valid m = true /\ inst m = inst b + Z.of_nat k * step /\ nano m = (if (k =? 0)%nat then nano b else 0).
Proof.
  intros N x en Hb He Hbe Hpos K Hr HN. pose proof (main_trimmed args w1 s w2 Eargs Sw1 Sw2 Hsolid) as T.
  pose proof (text_means cfg pd pdt Hpd Hpdt md now1 now2 V1 V2 d "" s r1 sp t r2 eq_refl Hd (solid_start s Hsolid) E Ht Hl Hin _ Hb) as M.
  cbv zeta in M. rewrite Hv, He in M. destruct M as (b' & it & [= <-] & V & B & en' & [= <-] & Ve & M).
  destruct (until_count md b (step_unit sp) (step_count sp) it en B V Hu Hpos Hst Ve Hbe Hr) as (q & [C1 C2] & L & Q0 & Q).
  assert (U0 : 0 < unit_secs (step_unit sp)) by (destruct (step_unit sp); reflexivity).
  assert (Nth : forall k, (k < List.length q)%nat -> nth_error q k <> None -> nth_item (until_next md (iter_next md) en) k it = nth_error q k).
  { intros k Hk _. pose proof (items_nth (until_next md (iter_next md) en) (List.length q) it k Hk) as X. rewrite C1 in X. rewrite nth_error_map in X.
    destruct (nth_error q k) eqn:Eq; [cbn in X; congruence|]. cbn in X. discriminate X. }
  destruct (choose (fun k m => nth_item (user_next md) k (UIUntil it en) = Some (Ok (Moment m)) /\ dt_valid m = true /\ inst m = inst b + Z.of_nat k * step /\ nano m = (if (k =? 0)%nat then nano b else 0)) (List.length q)) as (l & Ll & Ql).
  { intros k Hk. destruct k as [|k].
    - exists b. rewrite user_until, (Nth 0%nat Hk) by congruence. rewrite Q0. split; [reflexivity|]. split; [exact V|]. split; [lia|reflexivity].
    - destruct (Q (S k) ltac:(lia)) as (m & E1 & E2 & E4 & E3). exists m. rewrite user_until, (Nth (S k) Hk) by congruence. auto. }
  exists l. split; [|split; [lia|intros k m X; apply (Ql k m X)]].
  unfold Cli.main. rewrite T. change ("" ++ s) with s in M. rewrite M. apply print_collected.
  - unfold K in HN. lia.
  - intros k m X. apply (Ql k m X).
  - rewrite user_until, Ll. exact C2.
Qed.
Lemma main_until_empty : forall N x en, bound_reads pd pdt (Some (UExact x)) (drop_blanks r2) ->
  (do y <- exactdate_into md now2 x; calculate md y) = Ok (Moment en) -> ~ before b en -> main (S N) args = ([], Exits 0).
Proof.
  intros N x en Hb He Hbe. pose proof (main_trimmed args w1 s w2 Eargs Sw1 Sw2 Hsolid) as T.
  pose proof (text_means cfg pd pdt Hpd Hpdt md now1 now2 V1 V2 d "" s r1 sp t r2 eq_refl Hd (solid_start s Hsolid) E Ht Hl Hin _ Hb) as M.
  cbv zeta in M. rewrite Hv, He in M. destruct M as (b' & it & [= <-] & V & B & en' & [= <-] & Ve & M).
  destruct (until_empty md b _ it en B V Ve Hbe) as [_ C2].
  unfold Cli.main. rewrite T. change ("" ++ s) with s in M. rewrite M. apply (print_collected [] (UIUntil it en) (S N)).
  - cbn. lia.
  - intros [|k] m K; discriminate K.
  - rewrite user_until. exact C2.
Qed.
End Text.
End Main.
