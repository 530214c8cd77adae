(** Proofs about the command line program: its output read back. *)
Require Import ZArith Bool List String Ascii Lia ZifyBool.
From Verif Require Import Prelude Spec Chrono TimeType Iter SpecTree SpecMoment SpecIter SpecAdapt SpecSeq Nom ParserTimetype ParserIterator ParserMod SpecText Show Cli SpecCli
  PreludeProofs EvalProofs ShapeProofs IterProofs AdapterProofs LowerProofs NomProofs ParserProofs ParserProofs2 ParserProofs3 ParserProofs5 ParserProofs6 SeqProofs CliProofs CliProofs2 ShowProofs CliProofs3.
Import ListNotations.
Local Open Scope string_scope.
Local Open Scope Z_scope.

(** The parsers used in examples. *)
Lemma table_fine : forall A (l : list (string * A)) s, fine (table l) s.
Proof.
  intros A l s. unfold fine. induction l as [|[t v] l IH]; cbn [table]; [exact I|]. destruct (strip t s) as [r|] eqn:E; [|exact IH].
  exists t. apply strip_some. exact E.
Qed.
Lemma toy_dates_fine : forall s, fine toy_dates s.
Proof. intro s. apply table_fine. Qed.
Lemma toy_times_fine : forall s, fine toy_times s.
Proof. intro s. apply table_fine. Qed.

Section Main.
Variables (cfg : nom_cfg) (pd : parser isodate) (pdt : parser (isodate * isotime)) (md : mode) (now1 now2 : datetime).
Notation main := (main md cfg pd pdt now1 now2).
Notation parse := (parse md cfg pd pdt now1 now2).

(** Lower-case words are read. *)
Definition unit_word (u : tunit) : punit :=
  match u with USec => PSecond | UMin => PMinute | UHour => PHour | UDay => PDay | UMonth => PMonth | UYear => PYear end.
Lemma main_input_word : forall n u v, 0 <= v -> v * unit_secs u <= i64_max -> no_iso cfg pd pdt (show_int v ++ " " ++ input_word u) ->
  main n [show_int v ++ " " ++ input_word u] = ([Value (show_int v ++ " " ++ word u)], Exits 0).
Proof.
  intros n u v Hv Hm Ni. rewrite (show_int_nonneg v Hv) in Ni |- *. destruct (show_nat_ok v Hv) as [D V].
  assert (U1 : 1 <= unit_secs u) by (destruct u; cbn; lia).
  assert (Et : expr_text (AELast (Amount v (unit_word u))) (show_nat v ++ " " ++ input_word u)).
  { apply ET_last. rewrite <- V at 1. apply (AT_number "" (show_nat v) " " (input_word u) (unit_word u)); try reflexivity; try exact D.
    - rewrite V. nia.
    - destruct u; cbn; tauto. }
  assert (Bl : starts blank_char (show_nat v ++ " " ++ input_word u) = false).
  { destruct D as [D Ne]. rewrite starts_app by exact Ne. apply (starts_imp digit_char blank_char digit_not_blank). apply all_starts; assumption. }
  destruct (main_amounts cfg pd pdt md now1 now2 n [show_nat v ++ " " ++ input_word u] "" _ "" _ ltac:(cbn [concat append]; rewrite app_nil; reflexivity) SP_nil SP_nil Et Bl Ni) as (w & E & M).
  { cbn. destruct u; cbn in Hm |- *; lia. }
  rewrite M. assert (w = v) by (destruct u; cbn in E; lia). subst w. rewrite (show_int_nonneg v Hv). destruct u; reflexivity.
Qed.

(** Printed words are not. *)
Lemma digits_split : forall a b r r', all digit_char a = true -> all digit_char b = true -> starts digit_char r = false -> starts digit_char r' = false ->
  a ++ r = b ++ r' -> a = b /\ r = r'.
Proof.
  intros a b r r' A B R R' E. pose proof (span_app a r A R) as Sa. pose proof (span_app b r' B R') as Sb. rewrite E, Sb in Sa. injection Sa as -> ->. auto.
Qed.
Lemma amount_prefix : forall a t ds W r, amount_text a t -> t ++ r = ds ++ " " ++ W -> digits ds -> starts blank_char W = false ->
  exists sp u r', In (sp, u) spellings /\ W = sp ++ r'.
Proof.
  intros a t ds W r H E [D Ne] Hw. destruct H as [b1 ds1 b2 sp u H1 [D1 Ne1] Hv H2 Hs|sp a Hs].
  - exists sp, u, r. split; [exact Hs|]. rewrite !app_assoc in E.
    assert (B1 : b1 = "").
    { destruct b1 as [|c b1]; [reflexivity|]. destruct ds as [|c' ds]; [congruence|]. injection E as <- _. unfold blanks in H1. cbn in H1, D.
      apply andb_true_iff in H1. apply andb_true_iff in D. destruct H1 as [H1 _]. destruct D as [D _]. rewrite (digit_not_blank c D) in H1. discriminate H1. }
    subst b1. cbn [append] in E.
    assert (Sp : starts letter_char sp = true) by (apply all_starts; [exact (spellings_nonempty sp u Hs)|exact (spellings_letters sp u Hs)]).
    assert (Spr : starts letter_char (sp ++ r) = true) by (rewrite starts_app by exact (spellings_nonempty sp u Hs); exact Sp).
    destruct (digits_split ds1 ds (b2 ++ sp ++ r) (" " ++ W) D1 D) as [_ E']; [|reflexivity|exact E|].
    + destruct b2 as [|c b2]; [apply (starts_imp letter_char digit_char letter_not_digit); exact Spr|]. cbn. unfold blanks in H2. cbn in H2. apply andb_true_iff in H2. destruct H2 as [H2 _].
      destruct (digit_char c) eqn:Dc; [rewrite (digit_not_blank c Dc) in H2; discriminate H2|reflexivity].
    + apply (f_equal skip_spaces) in E'. rewrite skip_app in E' by exact H2.
      rewrite (skip_stop (sp ++ r)) in E' by (apply (starts_imp letter_char blank_char letter_not_blank); exact Spr).
      rewrite (skip_app " " W) in E' by reflexivity. rewrite skip_stop in E' by exact Hw. symmetry. exact E'.
  - exfalso. assert (Sp : starts letter_char (sp ++ r) = true).
    { rewrite starts_app by exact (adverbs_nonempty sp a Hs). apply all_starts; [exact (adverbs_nonempty sp a Hs)|exact (adverbs_letters sp a Hs)]. }
    rewrite E in Sp. rewrite starts_app in Sp by exact Ne. apply (starts_imp letter_char digit_char letter_not_digit) in Sp. rewrite all_starts in Sp by assumption. discriminate Sp.
Qed.
Lemma expr_head : forall e t, expr_text e t -> exists a t1 t2, t = t1 ++ t2 /\ amount_text a t1.
Proof. intros e t [a s H|a s b1 op b2 e' s' H _ _ _]; exists a, s; [exists ""; rewrite app_nil; auto|eexists; split; [reflexivity|exact H]]. Qed.

(** A printed moment. *)
Lemma pad_ends : forall w n, 0 <= n -> all digit_char (pad w (show_nat n)) = true /\ pad w (show_nat n) <> "".
Proof.
  intros w n H. destruct (show_nat_ok n H) as [[D Ne] _]. unfold pad. split.
  - rewrite ShowProofs.all_app, D, andb_true_r. induction (w - length (show_nat n))%nat as [|k IH]; [reflexivity|exact IH].
  - destruct (w - length (show_nat n))%nat; [exact Ne|discriminate].
Qed.
Lemma digits_first : forall s, all digit_char s = true -> s <> "" -> exists c r, s = String c r /\ visible c.
Proof. intros [|c s] D Ne; [congruence|]. exists c, s. split; [reflexivity|]. apply digit_visible. cbn in D. apply andb_true_iff in D. apply D. Qed.
Lemma digits_last : forall s, all digit_char s = true -> s <> "" -> exists q b, s = q ++ String b "" /\ visible b.
Proof.
  induction s as [|c s IH]; intros D Ne; [congruence|]. cbn in D. apply andb_true_iff in D. destruct D as [Dc D]. destruct s as [|c' s].
  - exists "", c. split; [reflexivity|]. exact (digit_visible c Dc).
  - destruct (IH D ltac:(discriminate)) as (q & b & E & V). exists (String c q), b. rewrite E. split; [reflexivity|exact V].
Qed.
Lemma last_app : forall p s, (exists q b, s = q ++ String b "" /\ visible b) -> exists q b, p ++ s = q ++ String b "" /\ visible b.
Proof. intros p s (q & b & -> & V). exists (p ++ q), b. rewrite app_assoc. split; [reflexivity|exact V]. Qed.
Lemma moment_solid : forall m, dt_valid m = true -> solid (show_moment m).
Proof.
  intros m Hm. destruct (proj1 (dt_valid_iff m) Hm) as (Hy & _ & Hh & Hmi & Hs & Hn).
  assert (F : exists c r, show_moment m = String c r /\ visible c).
  { unfold show_moment, show_date. destruct ((0 <=? year m) && (year m <=? 9999)) eqn:E.
    - destruct (pad_ends 4 (year m) ltac:(lia)) as [D Ne]. destruct (digits_first _ D Ne) as (c & r & -> & V). exists c. eexists. split; [reflexivity|exact V].
    - destruct (year m <? 0); eexists; eexists; (split; [reflexivity|vm_compute; split; congruence]). }
  assert (L : exists q b, show_moment m = q ++ String b "" /\ visible b).
  { unfold show_moment. apply last_app, last_app. unfold show_time.
    assert (K : forall h mi s n, 0 <= s -> 0 <= n -> exists q b, pad 2 (show_nat h) ++ ":" ++ pad 2 (show_nat mi) ++ ":" ++ pad 2 (show_nat s) ++
      (if n =? 0 then "" else if n mod 1000000 =? 0 then "." ++ pad 3 (show_nat (n / 1000000)) else if n mod 1000 =? 0 then "." ++ pad 6 (show_nat (n / 1000)) else "." ++ pad 9 (show_nat n))
      = q ++ String b "" /\ visible b).
    { intros h mi s n S0 N0. do 4 apply last_app. pose proof (Z.div_pos n 1000000 N0 ltac:(lia)). pose proof (Z.div_pos n 1000 N0 ltac:(lia)).
      destruct (n =? 0); [rewrite app_nil; apply digits_last; apply pad_ends; exact S0|]. apply last_app.
      destruct (n mod 1000000 =? 0); [|destruct (n mod 1000 =? 0)]; apply last_app, digits_last; apply pad_ends; assumption. }
    destruct (1000000000 <=? nano m) eqn:E; apply K; lia. }
  destruct F as (c & r & F & Vc). destruct L as (q & b & L & Vb). exact (solid_visible c r b q _ F L Vc Vb).
Qed.
Lemma space_spaces : spaces " ".
Proof. apply (SP_cons " " ""); [cbn; tauto|constructor]. Qed.
Lemma main_moment_line : forall n m time, dt_valid m = true -> let s := show_moment m in ~ keyword s ->
  pdt s = PError \/ pdt s = Incomplete -> pd s = Done time (YMD (year m) (month m) (day m)) ->
  starts op_char (drop_blanks time) = false -> starts letter_char (drop_blanks time) = false ->
  main n [show_moment m ++ " "] = ([Value (show_moment (mkdt (year m) (month m) (day m) 0 0 0 0) ++ " ")], Exits 0).
Proof.
  intros n m time Hm s Hk Ht Hd Ho Hl. pose proof (moment_solid m Hm) as So. fold s in So.
  assert (V : dt_valid (mkdt (year m) (month m) (day m) 0 0 0 0) = true) by (destruct (proj1 (dt_valid_iff m) Hm) as (A & B & _); apply dt_valid_iff; cbn; repeat split; try apply A; try apply B; lia).
  pose proof (parse_plain cfg pd pdt md now1 now2 (Iso8601Date (YMD (year m) (month m) (day m))) s time (mkdt (year m) (month m) (day m) 0 0 0 0)
    (DR_exact pd pdt _ s time (ER_date pd pdt _ s time Hk Ht Hd) Ho) (solid_start s So) Hl eq_refl (conj V eq_refl)) as P.
  unfold Cli.main. fold s. rewrite (main_trimmed [s ++ " "] "" s " " eq_refl SP_nil space_spaces So). rewrite P.
  rewrite (calc_value md (Moment _) eq_refl). reflexivity.
Qed.
Lemma moment_no_keyword : forall m, dt_valid m = true -> ~ keyword (show_moment m).
Proof.
  intros m Hm K. 
  assert (F : exists c r, show_moment m = String c r /\ (digit_char c = true \/ c = "-" \/ c = "+")%char).
  { unfold show_moment, show_date. destruct ((0 <=? year m) && (year m <=? 9999)) eqn:E.
    - destruct (pad_ends 4 (year m) ltac:(lia)) as [D Ne]. destruct (pad 4 (show_nat (year m))) as [|c r]; [congruence|]. exists c. eexists. split; [reflexivity|]. left. cbn in D. apply andb_true_iff in D. apply D.
    - destruct (year m <? 0); eexists; eexists; (split; [reflexivity|auto]). }
  destruct F as (c & r & E & Ec). rewrite E in K. destruct K as [[x K]|[[x K]|[x K]]]; injection K as -> _; destruct Ec as [Ec|[Ec|Ec]]; discriminate Ec.
Qed.
Lemma main_moment_again : forall n m time, dt_valid m = true -> let s := show_moment m in
  pdt s = PError \/ pdt s = Incomplete -> pd s = Done time (YMD (year m) (month m) (day m)) ->
  starts op_char (drop_blanks time) = false -> starts letter_char (drop_blanks time) = false ->
  main n [show_moment m ++ " "] = ([Value (show_moment (mkdt (year m) (month m) (day m) 0 0 0 0) ++ " ")], Exits 0).
Proof. intros n m time Hm. exact (main_moment_line n m time Hm (moment_no_keyword m Hm)). Qed.
Hypothesis Fpd : forall s, fine pd s.
Hypothesis Fpdt : forall s, fine pdt s.
Lemma rejected : forall s, starts blank_char s = false -> ~ keyword s -> no_iso cfg pd pdt s ->
  (forall a t r, amount_text a t -> s <> t ++ r) -> exists e, parse s = Err e.
Proof.
  intros s Hb Hk Ni Hn. unfold ParserMod.parse. pose proof (fine_do_parse cfg pd pdt Fpd Fpdt md now1 now2 s) as F. unfold fine in F.
  destruct (do_parse md cfg pd pdt now1 now2 s) as [r p| | |] eqn:E; [exfalso|eexists; reflexivity|eexists; reflexivity|contradiction].
  assert (X : forall x rest, ~ exact_reads pd pdt x s rest).
  { intros x rest H. destruct Ni as [N1 N2]. inversion H; subst.
    - apply Hk. left. eexists. reflexivity.
    - apply Hk. right. left. eexists. reflexivity.
    - apply Hk. right. right. eexists. reflexivity.
    - destruct N1; congruence.
    - destruct N2 as [N2|[N2 _]]; congruence. }
  destruct (accepted cfg pd pdt md now1 now2 s r p E) as [(e & t & b & Es & He & _)|(x & rest & [H|H])].
  - destruct (expr_head e t He) as (a & t1 & t2 & -> & Ha). apply (Hn a t1 (t2 ++ b ++ r) Ha). rewrite Es, !app_assoc. reflexivity.
  - exact (X x rest H).
  - rewrite (drop_stop s Hb) in H. exact (X x rest H).
Qed.
Lemma word_solid : forall u, exists c r q b, word u = String c r /\ word u = q ++ String b "" /\ visible b.
Proof.
  intros []; match goal with |- exists c r q b, ?w = _ /\ _ => let s := eval cbn in w in match s with String ?c ?r => exists c, r, (substring 0 (length s - 1) s), "s"%char end end;
  (split; [reflexivity|split; [reflexivity|vm_compute; split; congruence]]).
Qed.
Lemma spelling_word : forall sp u v r, In (sp, u) spellings -> word v <> sp ++ r.
Proof.
  intros sp u v r H E. pose proof (spellings_letters sp u H) as L. destruct sp as [|c sp]; [exact (spellings_nonempty "" u H eq_refl)|].
  cbn in L. apply andb_true_iff in L. destruct L as [L _]. destruct v; injection E as <- _; discriminate L.
Qed.
Lemma main_word : forall n u v, no_iso cfg pd pdt (show_int v ++ " " ++ word u) ->
  exists e, main n [show_int v ++ " " ++ word u] = ([ParseError e], Exits 0).
Proof.
  intros n u v Ni.
  assert (Sh : exists sg ds, show_int v = sg ++ ds /\ digits ds /\ (sg = "" \/ sg = "-")).
  { unfold show_int. destruct (v <? 0) eqn:V; [exists "-", (show_nat (- v))|exists "", (show_nat v)]; (split; [reflexivity|]); (split; [apply show_nat_ok; lia|auto]). }
  destruct Sh as (sg & ds & Esh & [D Ne] & Sg). rewrite Esh in Ni |- *. clear Esh. set (s := (sg ++ ds) ++ " " ++ word u) in *.
  destruct ds as [|d0 ds]; [congruence|]. assert (D0 : digit_char d0 = true) by (cbn in D; apply andb_true_iff in D; apply D).
  destruct (word_solid u) as (wc & wr & q & b & _ & Wq & Vb).
  assert (Fst : exists c r, s = String c r /\ visible c /\ (c = d0 \/ c = "-"%char)).
  { destruct Sg as [->| ->]; [exists d0|exists "-"%char]; eexists; (split; [reflexivity|split; [|auto]]); [exact (digit_visible d0 D0)|vm_compute; split; congruence]. }
  destruct Fst as (c & r & Es & Vc & Ec).
  assert (So : solid s) by (apply (solid_visible c r b ((sg ++ String d0 ds) ++ " " ++ q) s Es); [unfold s; rewrite Wq, !app_assoc; reflexivity|exact Vc|exact Vb]).
  assert (Hb : starts blank_char s = false) by exact (solid_start s So).
  destruct (rejected s Hb) as [e Pe]; [| exact Ni| |].
  - assert (K : forall k x, begins (String k x) s -> k = d0 \/ k = "-"%char). { intros k x [r' K]. rewrite Es in K. injection K as -> _. exact Ec. }
    intros [K0|[K0|K0]]; apply K in K0; destruct K0 as [<-|K0]; discriminate.
  - intros a t r' Ha E. destruct Sg as [->| ->].
    + destruct (amount_prefix a t (String d0 ds) (word u) r' Ha) as (sp & pu & r'' & Hs & Ew); [symmetry; exact E|split; assumption|destruct u; reflexivity|].
      exact (spelling_word sp pu u r'' Hs Ew).
    + destruct (amount_ends a t Ha) as [_ (q' & b' & Et & _)]. destruct Ha as [b1 ds1 b2 sp pu H1 [D1 Ne1] _ _ _|sp pu Hs].
      * destruct b1 as [|c1 b1]; [destruct ds1 as [|c1 ds1]; [congruence|]; injection E as <- _; cbn in D1; discriminate D1|].
        injection E as <- _. discriminate H1.
      * pose proof (adverbs_letters sp pu Hs) as L. destruct sp as [|c1 sp]; [exact (adverbs_nonempty "" pu Hs eq_refl)|]. injection E as <- _. discriminate L.
  - exists e. unfold Cli.main. rewrite (main_trimmed [s] "" s "" ltac:(cbn; rewrite app_nil; reflexivity) SP_nil SP_nil So). rewrite Pe. reflexivity.
Qed.
End Main.
