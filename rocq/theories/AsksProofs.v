(** What the clock has to do with the output. *)
Require Import ZArith Bool List String Lia ZifyBool.
From Verif Require Import Prelude Spec Chrono TimeType Iter SpecTree SpecMoment SpecIter SpecWide SpecValue Nom ParserTimetype ParserIterator ParserMod SpecText SpecDoc SpecLong SpecValue2 Show Cli SpecCli SpecProgram SpecAnswer SpecAnswer2 SpecReject SpecShift SpecAsks
  ParserProofs ParserProofs2 CliProofs LongProofs AnswerProofs3 RejectProofs ShiftProofs ShiftProofs3.
Import ListNotations.
Local Open Scope string_scope.
Local Open Scope Z_scope.

Section Stable.
Variable md : mode.
Notation W := whole_second.
Notation answer := (SpecAnswer.answer md).
Definition still (r : result) : Prop := result_over W r = r.
Lemma still_bind : forall r g, still r -> (forall v, over W v = v -> still (g v)) -> still (bind r g).
Proof. intros [v|e|p|] g R G; cbn [bind]; try exact R. apply G. injection R as R. exact R. Qed.
Lemma amount_still : forall y f, amount_only y = true -> over f y = y.
Proof.
  induction y as [q|q|q|q|q|q|m|a IHa b IHb|a IHa b IHb|e|e|e|e|e]; intros f H; try reflexivity; try discriminate H;
    cbn [amount_only] in H; apply andb_prop in H; cbn [over]; rewrite IHa, IHb by apply H; reflexivity.
Qed.
Lemma answer_still : forall t, over W t = t -> still (answer t).
Proof. intros t H. unfold still. rewrite <- answer_over, H. reflexivity. Qed.
Lemma amount_end : forall y, amount_only y = true -> is_end y = false /\ is_moment_leaf y = false.
Proof. intros y H. destruct y; try discriminate H; split; reflexivity. Qed.
Definition counts (r : result) : Prop := (exists u n, r = Ok (mk u n)) \/ r = Panic PArith.
Lemma amount_of_counts : forall t, counts (amount_of md t).
Proof. intro t. unfold amount_of. destruct (SpecOver.fits t); [left; repeat eexists|]. destruct md; [right; reflexivity|left; repeat eexists]. Qed.
Lemma mk_plus : forall u n w x, plus_values md (mk u n) (mk w x) = amount_of md (Addition (mk u n) (mk w x)).
Proof. intros [] n [] x; reflexivity. Qed.
Lemma mk_minus : forall u n w x, minus_values md (mk u n) (mk w x) = amount_of md (Subtraction (mk u n) (mk w x)).
Proof. intros [] n [] x; reflexivity. Qed.
Lemma mk_or : forall A u n (x y : A), moment_or_else (mk u n) x y = y.
Proof. intros A [] n x y; reflexivity. Qed.
Lemma counts_bind : forall r g, counts r -> (forall u n, counts (g (mk u n))) -> counts (bind r g).
Proof. intros r g [(u & n & ->)| ->] G; [apply G|right; reflexivity]. Qed.
Lemma amount_counts : forall y, amount_only y = true -> counts (answer y).
Proof.
  induction y as [q|q|q|q|q|q|m|a IHa b IHb|a IHa b IHb|e|e|e|e|e]; intro H; try discriminate H;
    try (left; first [exists USec, q; reflexivity|exists UMin, q; reflexivity|exists UHour, q; reflexivity|exists UDay, q; reflexivity|exists UMonth, q; reflexivity|exists UYear, q; reflexivity]).
  - cbn [amount_only] in H. apply andb_prop in H. destruct H as [Ha Hb]. specialize (IHa Ha). specialize (IHb Hb).
    destruct (amount_end a Ha) as [Ea La]. destruct (amount_end b Hb) as [Eb Lb]. cbn [SpecAnswer.answer]. rewrite Lb, Ea, Eb.
    destruct (is_diff a); [destruct (is_sum b)|]; (apply counts_bind; [assumption|intros u n; rewrite ?mk_or; apply counts_bind; [assumption|intros w x; rewrite mk_plus; apply amount_of_counts]]).
  - cbn [amount_only] in H. apply andb_prop in H. destruct H as [Ha Hb]. specialize (IHa Ha). specialize (IHb Hb).
    destruct (amount_end a Ha) as [Ea La]. destruct (amount_end b Hb) as [Eb Lb]. cbn [SpecAnswer.answer]. rewrite Ea, Eb.
    destruct (is_sum a && is_diff b); (apply counts_bind; [assumption|intros u n; apply counts_bind; [assumption|intros w x; rewrite mk_minus; apply amount_of_counts]]).
Qed.
Lemma moment_plus_still : forall m y, amount_only y = true -> still (answer (Addition (Moment m) y)).
Proof.
  intros m y H. destruct (amount_end y H) as [E L]. cbn [SpecAnswer.answer is_diff is_end bind]. rewrite L, E.
  destruct (amount_counts y H) as [(u & n & ->)| ->]; [|reflexivity]. cbn [bind]. rewrite plus_cases. destruct u; cbn [mk is_moment_leaf]; apply forward_over.
Qed.
Lemma moment_minus_still : forall m y, amount_only y = true -> still (answer (Subtraction (Moment m) y)).
Proof.
  intros m y H. destruct (amount_end y H) as [E L]. cbn [SpecAnswer.answer is_sum andb is_end bind]. rewrite E.
  destruct (amount_counts y H) as [(u & n & ->)| ->]; [|reflexivity]. cbn [bind]. rewrite minus_cases. destruct u; cbn [mk is_moment_leaf]; apply backward_over.
Qed.
Lemma plus_still : forall v w, over W v = v -> over W w = w -> still (plus_values md v w).
Proof. intros v w V V'. unfold still. rewrite <- plus_over, V, V'. reflexivity. Qed.
Lemma minus_still : forall v w, over W v = v -> over W w = w -> still (minus_values md v w).
Proof. intros v w V V'. unfold still. rewrite <- minus_over, V, V'. reflexivity. Qed.
Lemma or_still : forall v x y, still x -> still y -> still (moment_or_else v x y).
Proof. intros v x y X Y. destruct v; assumption. Qed.
(** One more amount. *)
Lemma op_still : forall op a y, is_end a = false -> still (answer a) -> amount_only y = true -> (is_moment_leaf a = false) -> still (answer (date_op op a y)).
Proof.
  intros op a y Ea A H La. destruct (amount_end y H) as [E L]. pose proof (answer_still y (amount_still y W H)) as Y. pose proof (amount_still y W H) as Oy.
  destruct op; cbn [date_op SpecAnswer.answer].
  - rewrite L, Ea, E. destruct (is_diff a).
    + destruct (is_sum y).
      * destruct (amount_counts y H) as [(u & n & ->)| ->]; [|reflexivity]. cbn [bind]. rewrite mk_or. apply still_bind; [exact A|]. intros v V. apply plus_still; [apply over_mk|exact V].
      * apply still_bind; [exact A|]. intros v V. apply or_still; [unfold still; cbn [result_over error_over]; rewrite Oy, V; reflexivity|].
        apply still_bind; [exact Y|]. intros w V'. apply plus_still; assumption.
    + apply still_bind; [exact A|]. intros v V. apply still_bind; [exact Y|]. intros w V'. apply plus_still; assumption.
  - rewrite Ea, E. destruct (is_sum a && is_diff y).
    + apply still_bind; [exact Y|]. intros w V'. apply still_bind; [exact A|]. intros v V. apply minus_still; assumption.
    + apply still_bind; [exact A|]. intros v V. apply still_bind; [exact Y|]. intros w V'. apply minus_still; assumption.
Qed.
Lemma units_amount : forall u n y, counted_units md u n = Ok y -> amount_only y = true.
Proof. intros u n y. unfold counted_units, within. destruct (in_i64 n); [|destruct md; [discriminate|]]; intros [= <-]; destruct u; reflexivity. Qed.
Lemma expr_amount : forall e y, expr_meant md e = Ok y -> amount_only y = true.
Proof.
  induction e as [a|a op e IH]; intros y H; cbn [expr_meant] in H; [exact (units_amount _ _ _ H)|].
  destruct (counted_units md _ _) as [x| | |] eqn:X; try discriminate H. destruct (expr_meant md e) as [z| | |] eqn:Z; try discriminate H.
  injection H as <-. apply units_amount in X. specialize (IH z eq_refl). destruct op; cbn [date_op amount_only]; rewrite X, IH; reflexivity.
Qed.

Definition asks (x : exactdate) : bool := match x with Today | Tomorrow | Yesterday => true | _ => false end.
Lemma fixed_meant : forall x now now', asks x = false -> exact_meant now x = exact_meant now' x.
Proof. intros [| | |d|d t] now now' H; try discriminate H; reflexivity. Qed.
(** Dates that are not just today. *)
Definition just_today (d : pdate) : bool := match d with Date Today None => true | _ => false end.
Lemma date_whole : forall now d, just_today d = false ->
  match date_meant md now d with
  | Ok t => exists t', date_meant md (W now) d = Ok t' /\ answer t' = answer t
  | r => date_meant md (W now) d = r
  end.
Proof.
  intros now [x o] J. destruct (asks x) eqn:Ax.
  - assert (E : exists t, exact_meant now x = Ok t /\ exact_meant (W now) x = Ok (over W t) /\ is_end t = false /\
      (x <> Today -> is_moment_leaf t = false /\ still (answer t))).
    { destruct x; try discriminate Ax; eexists; (split; [reflexivity|]); (split; [reflexivity|]); (split; [reflexivity|]); intro N;
        try (elim N; reflexivity); (split; [reflexivity|]); [apply moment_minus_still|apply moment_plus_still]; reflexivity. }
    destruct E as (t & Et & Ew & Ee & Es). cbn [date_meant]. rewrite Et, Ew. cbn [bind]. destruct o as [[op e]|].
    + destruct (expr_meant md e) as [y| | |] eqn:Ey; cbn [bind]; try reflexivity. apply expr_amount in Ey.
      exists (date_op op (over W t) y). split; [reflexivity|].
      assert (St : still (answer (date_op op t y))).
      { destruct x; try discriminate Ax; [injection Et as <-; destruct op; [apply moment_plus_still|apply moment_minus_still]; exact Ey|..];
          (apply op_still; [exact Ee|apply Es; discriminate|exact Ey|apply Es; discriminate]). }
      unfold still in St. rewrite <- St at 1. rewrite <- answer_over. f_equal. destruct op; cbn [date_op over]; rewrite (amount_still y W Ey); reflexivity.
    + exists (over W t). split; [reflexivity|]. assert (N : x <> Today) by (intros ->; discriminate J). destruct (Es N) as [_ S]. unfold still in S. rewrite answer_over. exact S.
  - cbn [date_meant]. rewrite (fixed_meant x (W now) now Ax). destruct (exact_meant now x) as [b| | |]; cbn [bind]; try reflexivity.
    destruct o as [[op e]|]; [destruct (expr_meant md e); cbn [bind]; try reflexivity|]; eexists; split; reflexivity.
Qed.
Lemma start_whole : forall now d, just_today d = false -> (do t <- date_meant md (W now) d; answer t) = (do t <- date_meant md now d; answer t).
Proof.
  intros now d J. pose proof (date_whole now d J) as H. destruct (date_meant md now d) as [t|e|p|]; cbn [bind]; try (rewrite H; reflexivity).
  destruct H as (t' & -> & A). exact A.
Qed.
Lemma end_whole : forall now x, x <> Today -> (do t <- exact_meant (W now) x; answer t) = (do t <- exact_meant now x; answer t).
Proof.
  intros now x N. pose proof (start_whole now (Date x None)) as H. cbn [just_today date_meant] in H.
  assert (R : forall r : result, (do b <- r; Ok b) = r) by (intros []; reflexivity). rewrite !R in H. apply H. destruct x; try reflexivity. elim N; reflexivity.
Qed.
Lemma text_whole : forall now p, (forall d, p = PTDate d -> just_today d = false) -> text_output md (W now) p = text_output md now p.
Proof.
  intros now [d|e] J; unfold text_output; cbn [text_meant]; [|reflexivity]. pose proof (date_whole now d (J d eq_refl)) as H.
  destruct (date_meant md now d) as [t|e|p|]; try (rewrite H; reflexivity). destruct H as (t' & -> & ->). reflexivity.
Qed.
Lemma calendar_over : forall y mo d h mi se b, calendar y mo d h mi se = Ok b -> over W b = b.
Proof. intros y mo d h mi se b. unfold calendar. destruct (_ && _ && _ && _); [|discriminate]. intros [= <-]. reflexivity. Qed.
Lemma day_over : forall d h mi se b, day_meant d h mi se = Ok b -> over W b = b.
Proof.
  intros [y mo dd|y ww dd|y ddd] h mi se b H; cbn [day_meant] in H; [exact (calendar_over _ _ _ _ _ _ _ H)|..];
    (destruct (calendar y 1 1 0 0 0) as [m| | |] eqn:E; try discriminate H; injection H as <-; cbn [over]; rewrite (calendar_over _ _ _ _ _ _ _ E); reflexivity).
Qed.
Lemma fixed_over : forall now x b, asks x = false -> exact_meant now x = Ok b -> over W b = b.
Proof.
  intros now [| | |d|d t] b A H; try discriminate A; cbn [exact_meant] in H; [exact (day_over _ _ _ _ _ H)|].
  destruct d as [y mo dd|y ww dd|y ddd]; [exact (day_over _ _ _ _ _ H)|..];
    (match type of H with bind ?r _ = _ => destruct r as [m| | |] eqn:E; try discriminate H end; injection H as <-; unfold clock_added; cbn [over]; rewrite (day_over _ _ _ _ _ E); reflexivity).
Qed.
Lemma date_still : forall now d t, just_today d = false -> date_meant md now d = Ok t -> still (answer t).
Proof.
  intros now [x o] t J H. cbn [date_meant] in H. destruct (asks x) eqn:Ax.
  - destruct o as [[op e]|].
    + destruct (exact_meant now x) as [b| | |] eqn:Eb; try discriminate H. cbn [bind] in H. destruct (expr_meant md e) as [y| | |] eqn:Ey; try discriminate H.
      injection H as <-. apply expr_amount in Ey. destruct x; try discriminate Ax; injection Eb as <-.
      * destruct op; [apply moment_plus_still|apply moment_minus_still]; exact Ey.
      * apply op_still; [reflexivity|apply moment_minus_still; reflexivity|exact Ey|reflexivity].
      * apply op_still; [reflexivity|apply moment_plus_still; reflexivity|exact Ey|reflexivity].
    + destruct x; try discriminate Ax; try discriminate J; injection H as <-; [apply moment_minus_still|apply moment_plus_still]; reflexivity.
  - destruct (exact_meant now x) as [b| | |] eqn:Eb; try discriminate H. apply (fixed_over now x b Ax) in Eb. cbn [bind] in H. destruct o as [[op e]|].
    + destruct (expr_meant md e) as [y| | |] eqn:Ey; try discriminate H. injection H as <-. apply expr_amount in Ey. apply answer_still.
      destruct op; cbn [date_op over]; rewrite Eb, (amount_still y W Ey); reflexivity.
    + injection H as <-. apply answer_still. exact Eb.
Qed.
Lemma start_still : forall now d, just_today d = false -> still (do t <- date_meant md now d; answer t) \/ exists e, (do t <- date_meant md now d; answer t) = Err e.
Proof.
  intros now d J. destruct (date_meant md now d) as [t|e|p|] eqn:E; cbn [bind]; [left; exact (date_still _ _ _ J E)|right; eexists; reflexivity|left; reflexivity|left; reflexivity].
Qed.
Lemma start_whole_second : forall now d m, just_today d = false -> (do t <- date_meant md now d; answer t) = Ok (Moment m) -> nano m = 0.
Proof.
  intros now d m J H. destruct (start_still now d J) as [S|[e E]]; rewrite H in *; [|discriminate E]. unfold still in S. cbn [result_over over] in S. injection S as S. rewrite <- S. reflexivity.
Qed.
Lemma item_still : forall m inc k, nano m = 0 -> over W inc = inc -> still (item_answer md m inc k).
Proof.
  intros m inc k N I. assert (M : W m = m) by (destruct m; cbn in N; subst; reflexivity).
  induction k as [|k IH]; [unfold still; cbn; rewrite M; reflexivity|]. change (still (do v <- item_answer md m inc k; plus_values md v inc)).
  apply still_bind; [exact IH|]. intros v V. apply plus_still; assumption.
Qed.
Lemma sooner_rounded : forall t e, nano t = 0 -> 0 <= nano e -> sooner t (rounded e) = sooner t e.
Proof.
  intros t e T E. unfold sooner. replace (inst (rounded e)) with (inst e) by reflexivity. rewrite T. f_equal. f_equal. unfold rounded. cbn [nano]. destruct (0 <? nano e) eqn:X; lia.
Qed.
Lemma listing_ext : forall n k w w', (forall j, (k <= j)%nat -> w j = w' j) -> listing n k w = listing n k w'.
Proof.
  induction n as [|n IH]; intros k w w' H; [reflexivity|]. cbn [listing]. rewrite (H k (le_n _)). rewrite (IH (S k) w w') by (intros j J; apply H; lia). reflexivity.
Qed.
Lemma iterator_start_whole : forall now1 now2 n d sp u, just_today d = false ->
  iterator_output md (W now1) now2 n (Iterator d sp u) = iterator_output md now1 now2 n (Iterator d sp u).
Proof. intros now1 now2 n d sp u J. cbn [iterator_output]. rewrite start_whole by exact J. reflexivity. Qed.
Lemma iterator_end_whole : forall now1 now2 n d sp u, u <> Some (UExact Today) ->
  iterator_output md now1 (W now2) n (Iterator d sp u) = iterator_output md now1 now2 n (Iterator d sp u).
Proof.
  intros now1 now2 n d sp [[x|c]|] N; try reflexivity. cbn [iterator_output]. rewrite end_whole; [reflexivity|]. intros ->. apply N. reflexivity.
Qed.
Lemma iterator_end_rounded : forall now1 now2 n d sp, just_today d = false -> 0 <= nano now2 ->
  iterator_output md now1 (rounded now2) n (Iterator d sp (Some (UExact Today))) = iterator_output md now1 now2 n (Iterator d sp (Some (UExact Today))).
Proof.
  intros now1 now2 n d sp J N. cbn [iterator_output]. destruct (counted_units md _ _) as [inc| | |] eqn:U; try reflexivity.
  destruct (do t <- date_meant md now1 d; answer t) as [v| | |] eqn:E; try reflexivity. destruct v as [q|q|q|q|q|q|m|a b|a b|e|e|e|e|e]; try reflexivity.
  apply (start_whole_second now1 d m J) in E. cbn [with_moment exact_meant bind SpecAnswer.answer]. apply listing_ext. intros j _.
  pose proof (item_still m inc j E (amount_still inc W (units_amount _ _ _ U))) as S. destruct (item_answer md m inc j) as [v| | |]; try reflexivity.
  destruct v; try reflexivity. unfold still in S. cbn [result_over over] in S. injection S as S. rewrite sooner_rounded; [reflexivity|rewrite <- S; reflexivity|exact N].
Qed.
Lemma item_whole : forall m inc k, amount_only inc = true -> item_answer md (W m) inc (S k) = item_answer md m inc (S k).
Proof.
  intros m inc k A. induction k as [|k IH].
  - cbn [item_answer Nat.iter nat_rect bind]. rewrite !plus_cases. destruct (amount_end inc A) as [_ ->]. apply forward_whole.
  - change (bind (item_answer md (W m) inc (S k)) (fun v => plus_values md v inc) = bind (item_answer md m inc (S k)) (fun v => plus_values md v inc)). rewrite IH. reflexivity.
Qed.
Lemma today_lines : forall now1 now2 n sp u, (forall x, u <> Some (UExact x)) ->
  let o := iterator_output md now1 now2 n (Iterator (Date Today None) sp u) in let o' := iterator_output md (W now1) now2 n (Iterator (Date Today None) sp u) in
  snd o' = snd o /\ tl (fst o') = tl (fst o) /\ List.length (fst o') = List.length (fst o).
Proof.
  intros now1 now2 n sp u N. cbv zeta. cbn [iterator_output]. destruct (counted_units md _ _) as [inc| | |] eqn:U; try (repeat split; reflexivity).
  cbn [date_meant exact_meant bind SpecAnswer.answer with_moment]. 
  assert (I : forall k, item_answer md (W now1) inc (S k) = item_answer md now1 inc (S k)).
  { intro k. apply item_whole. exact (units_amount _ _ _ U). }
  assert (L : forall w w', (forall k, w (S k) = w' (S k)) -> (exists v v', w 0%nat = Some (Ok v) /\ w' 0%nat = Some (Ok v')) \/ w 0%nat = w' 0%nat ->
    let o := listing n 0 w in let o' := listing n 0 w' in snd o' = snd o /\ tl (fst o') = tl (fst o) /\ List.length (fst o') = List.length (fst o)).
  { intros w w' E0 Z. cbv zeta. destruct n as [|n']; [repeat split|]. cbn [listing].
    assert (E : listing n' 1 w' = listing n' 1 w) by (apply listing_ext; intros [|j] J; [lia|symmetry; apply E0]).
    destruct Z as [(v & v' & -> & ->)|Z]; [cbn [fst snd tl List.length]; rewrite E; repeat split|]. rewrite Z, E. destruct (w' 0%nat) as [[?|?|?|]|]; repeat split. }
  destruct u as [[x|c]|]; [elim (N x eq_refl)| |].
  - apply L; [intro k; rewrite I; reflexivity|]. destruct (Z.of_nat 0 <? c); [left; repeat eexists|right; reflexivity].
  - apply L; [intro k; rewrite I; reflexivity|]. left. repeat eexists.
Qed.
End Stable.

(** ** The program *)
Definition suffix_of_text (args : list string) (s : string) : Prop := exists w1 w2, String.concat " " args = w1 ++ s ++ w2.
Section Program.
Variable cfg : nom_cfg.
Variable pd : parser isodate.
Variable pdt : parser (isodate * isotime).
Hypothesis Fpd : forall s, fine pd s.
Hypothesis Fpdt : forall s, fine pdt s.
Hypothesis Hpd : forall s r d, pd s = Done r d -> isodate_ok d.
Hypothesis Hpdt : forall s r d t, pdt s = Done r (d, t) -> isodate_ok d /\ isotime_ok t.

Lemma main_alike : forall md now1 now2 now1' now2' n args, dt_valid now1 = true -> dt_valid now2 = true -> dt_valid now1' = true -> dt_valid now2' = true ->
  (forall s x r, suffix_of_text args s -> reads cfg pd pdt x s r -> exact_program md now1 now2 n x = exact_program md now1' now2' n x) ->
  main md cfg pd pdt now1 now2 n args = main md cfg pd pdt now1' now2' n args.
Proof.
  intros md now1 now2 now1' now2' n args V1 V2 V1' V2' H. destruct (trim_spec (String.concat " " args)) as (w1 & w2 & S1 & S2 & E & So).
  set (s := trim (String.concat " " args)) in *.
  destruct (program_cases cfg pd pdt Fpd Fpdt Hpd Hpdt md now1 now2 n args w1 s w2 V1 V2 E S1 S2 So) as [(x & r & R & ->)|[[S ->]|(N & S & ->)]];
    destruct (program_cases cfg pd pdt Fpd Fpdt Hpd Hpdt md now1' now2' n args w1 s w2 V1' V2' E S1 S2 So) as [(x' & r' & R' & M')|[[S' ->]|(N' & S' & ->)]].
  - rewrite (exact_program_correct cfg pd pdt Fpd Fpdt Hpd Hpdt md now1' now2' n args w1 s w2 x r V1' V2' E S1 S2 So R). apply (H s x r); [|exact R]. exists w1, w2. exact E.
  - elim (proj1 (starved_rejected cfg pd pdt Fpd Fpdt md now1 now2 s S') x r R).
  - elim (N' x r R).
  - elim (proj1 (starved_rejected cfg pd pdt Fpd Fpdt md now1 now2 s S) x' r' R').
  - reflexivity.
  - elim (S' S).
  - elim (N x' r' R').
  - elim (S S').
  - reflexivity.
Qed.

Lemma contains_app : forall w p s q, contains w s -> contains w (p ++ s ++ q).
Proof. intros w p s q (a & b & ->). exists (p ++ a), (b ++ q). rewrite !CliProofs.app_assoc. reflexivity. Qed.
Lemma contains_suffix : forall w r s, suffix r s -> contains w r -> contains w s.
Proof. intros w r s [p ->] (a & b & ->). exists (p ++ a), b. rewrite !CliProofs.app_assoc. reflexivity. Qed.
Lemma asks_word : forall x s r, exact_reads pd pdt x s r -> asks x = true -> names_day s.
Proof.
  intros x s r H A. destruct H; try discriminate A;
    [exists "today", Today|exists "yesterday", Yesterday|exists "tomorrow", Tomorrow]; (split; [cbn; tauto|]); exists "", rest; reflexivity.
Qed.
Lemma names_suffix : forall r s, suffix r s -> names_day r -> names_day s.
Proof. intros r s S (w & x & I & C). exists w, x. split; [exact I|]. exact (contains_suffix _ _ _ S C). Qed.
Lemma date_word : forall x o s r, date_begins pd pdt (Date x o) s r -> asks x = true -> names_day s.
Proof. intros x o s r H A. inversion H; subst; eapply asks_word; eassumption. Qed.
Lemma exact_suffix : forall x s r, exact_reads pd pdt x s r -> suffix r s.
Proof.
  intros x s r H. destruct H as [r|r|r|d t s r K E|d s r K _ E].
  - exists "today". reflexivity.
  - exists "yesterday". reflexivity.
  - exists "tomorrow". reflexivity.
  - pose proof (Fpdt s) as F. unfold fine in F. rewrite E in F. exact F.
  - pose proof (Fpd s) as F. unfold fine in F. rewrite E in F. exact F.
Qed.
Lemma date_suffix : forall d s r, date_begins pd pdt d s r -> suffix r s.
Proof.
  intros d s r H. inversion H; subst; [eapply exact_suffix; eassumption|].
  match goal with K : exact_reads _ _ _ _ _ |- _ => apply exact_suffix in K; destruct K as [p ->] end.
  exists (p ++ b1 ++ op_text op ++ b2 ++ t ++ b3). rewrite !CliProofs.app_assoc. reflexivity.
Qed.
Lemma sfx_trans : forall a b c, suffix a b -> suffix b c -> suffix a c.
Proof. intros a b c [p ->] [q ->]. exists (q ++ p). rewrite CliProofs.app_assoc. reflexivity. Qed.
Lemma drop_suffix : forall s, suffix (drop_blanks s) s.
Proof. intro s. rewrite ParserProofs.drop_skip. apply ParserProofs2.suffix_skip. Qed.
Lemma bound_suffix : forall d sp u s r, iterator_read pd pdt (Iterator d sp u) s r -> exists s', suffix s' s /\ bound_read pd pdt u s' r.
Proof.
  intros d sp u s r (r1 & r2 & [D _] & [(t & _ & T) _] & B). exists (drop_blanks r2). split; [|exact B].
  eapply sfx_trans; [apply drop_suffix|]. eapply sfx_trans; [exists t; exact T|]. eapply sfx_trans; [apply drop_suffix|]. eapply sfx_trans; [exact (date_suffix _ _ _ D)|apply drop_suffix].
Qed.
Lemma first_word : forall d sp u s r, iterator_read pd pdt (Iterator d sp u) s r -> (let 'Date x _ := d in asks x) = true -> names_day s.
Proof.
  intros [x o] sp u s r (r1 & r2 & [D _] & _) A. apply (names_suffix _ _ (drop_suffix s)). exact (date_word _ _ _ _ D A).
Qed.
Lemma end_word : forall d sp x s r, iterator_read pd pdt (Iterator d sp (Some (UExact x))) s r -> contains "until" s /\ (asks x = true -> names_day s).
Proof.
  intros d sp x s r H. destruct (bound_suffix _ _ _ _ _ H) as (s' & S & B). cbn [bound_read] in B. inversion B; subst. split.
  - apply (contains_suffix _ _ _ S). exists "", s0. reflexivity.
  - intro A. apply (names_suffix _ _ S). apply (names_suffix s0); [exists "until"; reflexivity|]. apply (names_suffix _ _ (drop_suffix s0)). eapply asks_word; eassumption.
Qed.
Lemma text_contains : forall args w s, suffix_of_text args s -> contains w s -> contains w (String.concat " " args).
Proof. intros args w s (w1 & w2 & ->) C. apply contains_app. exact C. Qed.
Lemma text_names : forall args s, suffix_of_text args s -> names_day s -> names_day (String.concat " " args).
Proof. intros args s T (w & x & I & C). exists w, x. split; [exact I|]. eapply text_contains; eassumption. Qed.

Lemma without_words : forall md now1 now2 now1' now2' n args, dt_valid now1 = true -> dt_valid now2 = true -> dt_valid now1' = true -> dt_valid now2' = true ->
  ~ names_day (String.concat " " args) -> main md cfg pd pdt now1 now2 n args = main md cfg pd pdt now1' now2' n args.
Proof.
  intros md now1 now2 now1' now2' n args V1 V2 V1' V2' N. apply main_alike; try assumption. intros s x r T R.
  assert (N' : ~ names_day s) by (intro K; apply N; exact (text_names _ _ T K)). destruct R as [[[x o] sp u] s r R|[x o] s r _ [R _]|e s r _ _ _ R]; cbn [exact_program].
  - assert (A : asks x = false) by (destruct (asks x) eqn:A; [elim (N' (first_word _ _ _ _ _ R A))|reflexivity]).
    cbn [iterator_output date_meant]. rewrite (fixed_meant x now1 now1' A). destruct u as [[y|c]|]; try reflexivity.
    assert (B : asks y = false) by (destruct (asks y) eqn:B; [elim (N' (proj2 (end_word _ _ _ _ _ R) B))|reflexivity]). rewrite (fixed_meant y now2 now2' B). reflexivity.
  - assert (A : asks x = false) by (destruct (asks x) eqn:A; [elim (N' (date_word _ _ _ _ R A))|reflexivity]).
    unfold text_output. cbn [text_meant date_meant]. rewrite (fixed_meant x now1 now1' A). reflexivity.
  - reflexivity.
Qed.
Lemma without_until : forall md now1 now2 now2' n args, dt_valid now1 = true -> dt_valid now2 = true -> dt_valid now2' = true ->
  ~ contains "until" (String.concat " " args) -> main md cfg pd pdt now1 now2 n args = main md cfg pd pdt now1 now2' n args.
Proof.
  intros md now1 now2 now2' n args V1 V2 V2' N. apply main_alike; try assumption. intros s x r T R.
  destruct R as [[d sp u] s r R|d s r _ _|e s r _ _ _ R]; cbn [exact_program]; try reflexivity. cbn [iterator_output]. destruct u as [[y|c]|]; try reflexivity.
  elim N. apply (text_contains _ _ _ T). apply (end_word _ _ _ _ _ R).
Qed.

Variables (w1 s w2 r : string) (args : list string) (x : reading).
Hypothesis Text : String.concat " " args = w1 ++ s ++ w2.
Hypothesis S1 : spaces w1.
Hypothesis S2 : spaces w2.
Hypothesis So : solid s.
Hypothesis R : reads cfg pd pdt x s r.
Lemma valid_whole : forall m, dt_valid m = true -> dt_valid (whole_second m) = true.
Proof. intros m V. exact (tt_ok_whole (Moment m) V). Qed.
Lemma valid_rounded : forall m, dt_valid m = true -> dt_valid (rounded m) = true.
Proof.
  intros m V. apply valid_whole in V. unfold dt_valid in *. cbn [whole_second rounded year month day hour minute second nano] in *. rewrite !andb_true_iff in *. destruct (0 <? nano m); intuition.
Qed.
Lemma valid_nano : forall m, dt_valid m = true -> 0 <= nano m.
Proof. intros m V. unfold dt_valid in V. rewrite !andb_true_iff in V. lia. Qed.
Lemma first_parts : forall md now1 now2 n, dt_valid now1 = true -> dt_valid now2 = true -> from_today x = false ->
  main md cfg pd pdt now1 now2 n args = main md cfg pd pdt (whole_second now1) now2 n args.
Proof.
  intros md now1 now2 n V1 V2 J. rewrite !(exact_program_correct cfg pd pdt Fpd Fpdt Hpd Hpdt md) with (w1 := w1) (s := s) (w2 := w2) (x := x) (r := r) by (assumption || apply valid_whole; assumption).
  destruct x as [[[y o] sp u]|[[y o]|e]]; cbn [exact_program]; [| |reflexivity]; symmetry.
  - apply iterator_start_whole. destruct y; try reflexivity. destruct o; [reflexivity|discriminate J].
  - apply text_whole. intros d [= <-]. destruct y; try reflexivity. destruct o; [reflexivity|discriminate J].
Qed.
Lemma second_parts : forall md now1 now2 n, dt_valid now1 = true -> dt_valid now2 = true ->
  (until_today x = false -> main md cfg pd pdt now1 now2 n args = main md cfg pd pdt now1 (whole_second now2) n args) /\
  (from_today x = false -> main md cfg pd pdt now1 now2 n args = main md cfg pd pdt now1 (rounded now2) n args).
Proof.
  intros md now1 now2 n V1 V2. split; intro J;
    rewrite !(exact_program_correct cfg pd pdt Fpd Fpdt Hpd Hpdt md) with (w1 := w1) (s := s) (w2 := w2) (x := x) (r := r) by (assumption || (apply valid_whole; assumption) || (apply valid_rounded; assumption));
    destruct x as [[d sp u]|p]; cbn [exact_program]; try reflexivity; symmetry.
  - apply iterator_end_whole. intros ->. destruct d. discriminate J.
  - destruct u as [[y|c]|]; try reflexivity. assert (Jd : just_today d = false) by (destruct d as [z [o|]]; destruct z; try reflexivity; discriminate J).
    destruct y; try (apply iterator_end_rounded; [exact Jd|exact (valid_nano now2 V2)]);
      rewrite <- (iterator_end_whole md now1 now2), <- (iterator_end_whole md now1 (rounded now2)) by discriminate; reflexivity.
Qed.
Lemma today_parts : forall md now1 now2 n sp u, dt_valid now1 = true -> dt_valid now2 = true -> x = AsIterator (Iterator (Date Today None) sp u) -> (forall y, u <> Some (UExact y)) ->
  let o := main md cfg pd pdt now1 now2 n args in let o' := main md cfg pd pdt (whole_second now1) now2 n args in
  snd o' = snd o /\ tl (fst o') = tl (fst o) /\ List.length (fst o') = List.length (fst o).
Proof.
  intros md now1 now2 n sp u V1 V2 E N. cbv zeta. rewrite !(exact_program_correct cfg pd pdt Fpd Fpdt Hpd Hpdt md) with (w1 := w1) (s := s) (w2 := w2) (x := x) (r := r) by (assumption || apply valid_whole; assumption).
  rewrite E. apply today_lines. exact N.
Qed.
End Program.

(** Looking for a word. *)
Fixpoint occurs (w s : string) : bool := (prefix w s || match s with EmptyString => false | String _ s' => occurs w s' end)%bool.
Lemma prefix_app : forall w q, prefix w (w ++ q) = true.
Proof. induction w as [|c w IH]; intro q; [destruct q; reflexivity|]. cbn. destruct (Ascii.ascii_dec c c) as [_|N]; [apply IH|elim N; reflexivity]. Qed.
Lemma contains_occurs : forall w s, contains w s -> occurs w s = true.
Proof.
  intros w s (p & q & ->). induction p as [|c p IH].
  - change ("" ++ w ++ q) with (w ++ q). pose proof (prefix_app w q) as P. destruct (w ++ q); cbn [occurs]; rewrite P; reflexivity.
  - cbn [append occurs]. rewrite IH. apply orb_true_r.
Qed.
Lemma no_day : forall s, forallb (fun w => negb (occurs (fst w) s)) keywords = true -> ~ names_day s.
Proof. intros s H (w & x & I & C). rewrite forallb_forall in H. specialize (H _ I). apply contains_occurs in C. cbn [fst] in H. rewrite C in H. discriminate H. Qed.
