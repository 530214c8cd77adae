(** The worth of texts. *)
Require Import ZArith Bool List String Lia ZifyBool.
From Verif Require Import Prelude Spec Chrono Util TimeType SpecTree SpecMoment SpecIter SpecSeq SpecMode SpecOver SpecWide SpecValue Nom ParserTimetype ParserIterator ParserMod SpecText SpecDoc SpecLong SpecValue2
  PreludeProofs CalendarProofs AddProofs EvalProofs AmountProofs ShapeProofs CompProofs LowerProofs OverProofs ModeProofs ValueProofs ParserProofs3 DocProofs LongProofs LongProofs2 LongProofs3.
Local Open Scope Z_scope.
Ltac Zify.zify_post_hook ::= Z.div_mod_to_equations.

Lemma val_add : forall a b, amount_only a = false -> value (Addition a b) = on_worth plus (value a) (value b).
Proof. intros a b H. cbn [value amount_only]. rewrite H. reflexivity. Qed.
Lemma val_sub : forall a b u n, amount_only a = false -> value b = Amounts u n -> value (Subtraction a b) = on_worth minus (value a) (Amounts u n).
Proof. intros a b u n H E. cbn [value amount_only]. rewrite H, E. destruct (right_first a b); reflexivity. Qed.
Lemma val_mk : forall u n, in_i64 n = true -> value (mk u n) = Amounts u n.
Proof.
  intros u n H. destruct u; cbn [mk value amount_only fits finest secs]; rewrite H; (rewrite Z.div_mul; [reflexivity|discriminate]).
Qed.
Lemma expr_worth : forall md e, expr_ok e -> total e <= i64_max -> exists t, amountexpr_into md e = Ok t /\ tt_ok t = true /\ amount_only t = true /\
  value t = Amounts (expr_unit e) (expr_count e) /\ finest t = expr_unit e /\ secs t = right_value e.
Proof.
  intros md e He Ht. destruct (expr_value md e He Ht) as (t & T1 & T2 & T3 & T4 & T5 & T6). exists t.
  split; [exact T1|]. split; [exact T2|]. split; [exact T3|]. split; [|split; assumption].
  pose proof (value_amount t T2 T3) as V. destruct (value t) as [u n|m| | |l r]; try contradiction.
  - destruct V as (-> & -> & _). unfold expr_count. rewrite T6, T4. reflexivity.
  - destruct (calculate_amount_exact Checked t T2 T3 ltac:(lia)) as (v & C & _). congruence.
Qed.

(** What the lowering of a date must satisfy. *)
Definition lowered (w : worth) (r : result) : Prop :=
  match r with
  | Ok t => tt_ok t = true /\ shape_of t = SMoment /\ value t = w
  | Err (OutOfBounds _ _ _ _ _ _) => w = Outside
  | _ => False
  end.
Lemma low_date : forall m, dt_valid m = true -> lowered (Time m) (Ok (Moment m)).
Proof. intros m H. repeat split. exact H. Qed.
Lemma low_add : forall w a u n, lowered w (Ok a) -> in_i64 n = true -> is_diff a = false -> is_end a = false -> lowered (later w u n) (Ok (Addition a (mk u n))).
Proof.
  intros w a u n (L1 & L2 & L4) Hn D1 D2.
  assert (A : amount_only a = false) by (destruct (amount_only a) eqn:A; [apply shape_amount in A; congruence|reflexivity]).
  assert (Sm : shape_of (mk u n) = SAmount) by (destruct u; reflexivity).
  unfold lowered. split; [|split].
  - cbn [tt_ok]. rewrite L1. destruct u; exact Hn.
  - cbn [shape_of]. rewrite L2, Sm, D1, D2. reflexivity.
  - rewrite val_add by exact A. rewrite L4, (val_mk u n Hn). reflexivity.
Qed.
Lemma midnight_worth : forall y mo d, representable y mo d = true -> date_at (y, mo, d) 0 = Time (midnight y mo d).
Proof. intros y mo d H. unfold date_at. rewrite H. reflexivity. Qed.

Lemma exact_lowered : forall md now x, dt_valid now = true -> exact_ok x -> lowered (exact_worth now x) (exactdate_into md now x).
Proof.
  intros md now x Hn Hx.
  assert (Out : forall u n, later Outside u n = Outside) by reflexivity.
  assert (J : forall y, ((min_year <=? y) && (y <=? max_year)) = false -> date_at (y, 1, 1) 0 = Outside).
  { intros y R. rewrite <- jan1 in R. unfold date_at. rewrite R. reflexivity. }
  assert (J1 : forall y, ((min_year <=? y) && (y <=? max_year)) = true -> date_at (y, 1, 1) 0 = Time (midnight y 1 1) /\ dt_valid (midnight y 1 1) = true).
  { intros y R. rewrite <- jan1 in R. split; [apply midnight_worth; exact R|apply midnight_valid; exact R]. }
  assert (Wk : forall md y ww, u32 ww -> ((min_year <=? y) && (y <=? max_year)) = true ->
    exists w, weeks md ww = Ok w /\ lowered (later (date_at (y, 1, 1) 0) UDay (7 * ww)) (Ok (op_add (Moment (midnight y 1 1)) w))).
  { intros md0 y ww Hw R. destruct (J1 y R) as [E V]. exists (Days (ww * 7)). unfold weeks. rewrite mul7 by (apply u32_7; exact Hw). split; [reflexivity|].
    rewrite E. replace (7 * ww) with (ww * 7) by lia. apply (low_add (Time (midnight y 1 1)) _ UDay); [apply low_date; exact V|apply u32_7; exact Hw|reflexivity|reflexivity]. }
  destruct x as [| | |d|d t]; cbn [exact_ok] in Hx.
  - apply low_date. exact Hn.
  - cbn [exactdate_into exact_worth]. unfold op_sub, today, moment, days.
    split; [cbn [tt_ok]; rewrite Hn; reflexivity|]. split; [reflexivity|].
    rewrite (val_sub _ _ UDay 1); reflexivity.
  - cbn [exactdate_into exact_worth]. apply (low_add (Time now) _ UDay 1); [apply low_date; exact Hn|reflexivity|reflexivity|reflexivity].
  - destruct d as [y mo d|y ww d|y ddd].
    + rewrite ymd_into. cbn [exact_worth day_worth]. unfold date_at. destruct (representable y mo d) eqn:R; [|reflexivity].
      apply low_date. apply midnight_valid. exact R.
    + destruct Hx as (Hy & Hw & Hd). cbn [exactdate_into]. rewrite first_into. cbn [exact_worth day_worth].
      destruct ((min_year <=? y) && (y <=? max_year)) eqn:R; [|cbn [bind lowered]; rewrite (J y R), !Out; reflexivity].
      destruct (Wk md y ww Hw R) as (w & -> & L). cbn [bind]. apply (low_add _ _ UDay d L); [apply u32_i64; exact Hd|reflexivity|reflexivity].
    + destruct Hx as (Hy & Hd). cbn [exactdate_into]. rewrite first_into. cbn [exact_worth day_worth].
      destruct ((min_year <=? y) && (y <=? max_year)) eqn:R; [|cbn [bind lowered]; rewrite (J y R), !Out; reflexivity].
      cbn [bind]. destruct (J1 y R) as [-> V]. apply (low_add _ _ UDay ddd (low_date _ V)); [apply u32_i64; exact Hd|reflexivity|reflexivity].
  - destruct Hx as [Hx (Hh & Hm & Hs)]. destruct d as [y mo d|y ww d|y ddd].
    + rewrite ymdhms_into. cbn [exact_worth].
      assert (E : time_ok (t_hour t) (t_minute t) (t_second t) = (t_hour t <? 24) && (t_minute t <? 60) && (t_second t <? 60)) by (unfold time_ok, u32 in *; lia).
      rewrite E. unfold date_at. destruct (representable y mo d) eqn:R; [|cbn [andb lowered]; destruct ((t_hour t <? 24) && (t_minute t <? 60) && (t_second t <? 60)); reflexivity].
      cbn [andb]. destruct ((t_hour t <? 24) && (t_minute t <? 60) && (t_second t <? 60)) eqn:T; [|reflexivity].
      replace (at_time y mo d (clock_secs t)) with (mkdt y mo d (t_hour t) (t_minute t) (t_second t) 0).
      * apply low_date. unfold dt_valid. cbn [year month day hour minute second nano]. unfold representable in R. rewrite R. unfold u32 in *. lia.
      * unfold at_time, clock_secs, u32 in *. f_equal; lia.
    + destruct Hx as (Hy & Hw & Hd). cbn [exactdate_into]. rewrite first_into. cbn [exact_worth day_worth].
      destruct ((min_year <=? y) && (y <=? max_year)) eqn:R; [|cbn [bind lowered]; rewrite (J y R), !Out; reflexivity].
      destruct (Wk md y ww Hw R) as (w & -> & L). cbn [bind].
      apply (low_add _ _ USec); [|apply u32_i64; assumption|reflexivity|reflexivity].
      apply (low_add _ _ UMin); [|apply u32_i64; assumption|reflexivity|reflexivity].
      apply (low_add _ _ UHour); [|apply u32_i64; assumption|reflexivity|reflexivity].
      apply (low_add _ _ UDay d L); [apply u32_i64; exact Hd|reflexivity|reflexivity].
    + destruct Hx as (Hy & Hd). cbn [exactdate_into]. rewrite first_into. cbn [exact_worth day_worth].
      destruct ((min_year <=? y) && (y <=? max_year)) eqn:R; [|cbn [bind lowered]; rewrite (J y R), !Out; reflexivity].
      cbn [bind]. destruct (J1 y R) as [-> V].
      apply (low_add _ _ USec); [|apply u32_i64; assumption|reflexivity|reflexivity].
      apply (low_add _ _ UMin); [|apply u32_i64; assumption|reflexivity|reflexivity].
      apply (low_add _ _ UHour); [|apply u32_i64; assumption|reflexivity|reflexivity].
      apply (low_add _ _ UDay ddd (low_date _ V)); [apply u32_i64; exact Hd|reflexivity|reflexivity].
Qed.

Lemma starts_lowered : forall md now x, exact_ok x ->
  match exactdate_into md now x with
  | Ok b => starts_in x = true /\ (counted x = match b with Addition _ _ => true | _ => false end)
  | Err (OutOfBounds _ _ _ _ _ _) => starts_in x = false
  | _ => False
  end.
Proof.
  intros md now x Hx.
  assert (W : forall ww, u32 ww -> weeks md ww = Ok (Days (ww * 7))) by (intros ww Hw; unfold weeks; rewrite mul7 by (apply u32_7; exact Hw); reflexivity).
  destruct x as [| | |d|d t]; cbn [exact_ok] in Hx; try (split; reflexivity).
  - destruct d as [y mo d|y ww d|y ddd]; [rewrite ymd_into|cbn [exactdate_into]; rewrite first_into|cbn [exactdate_into]; rewrite first_into]; cbn [starts_in counted].
    + destruct (representable y mo d); [split|]; reflexivity.
    + rewrite jan1. destruct ((min_year <=? y) && (y <=? max_year)); [|reflexivity]. cbn [bind]. rewrite W by apply Hx. split; reflexivity.
    + rewrite jan1. destruct ((min_year <=? y) && (y <=? max_year)); [|reflexivity]. split; reflexivity.
  - destruct Hx as [Hx (Hh & Hm & Hs)].
    destruct d as [y mo d|y ww d|y ddd]; [rewrite ymdhms_into|cbn [exactdate_into]; rewrite first_into|cbn [exactdate_into]; rewrite first_into]; cbn [starts_in counted].
    + assert (E : time_ok (t_hour t) (t_minute t) (t_second t) = (t_hour t <? 24) && (t_minute t <? 60) && (t_second t <? 60)) by (unfold time_ok, u32 in *; lia).
      rewrite E. destruct (representable y mo d && ((t_hour t <? 24) && (t_minute t <? 60) && (t_second t <? 60))) eqn:R; [split|]; reflexivity.
    + rewrite jan1. destruct ((min_year <=? y) && (y <=? max_year)); [|reflexivity]. cbn [bind]. rewrite W by apply Hx. split; reflexivity.
    + rewrite jan1. destruct ((min_year <=? y) && (y <=? max_year)); [|reflexivity]. split; reflexivity.
Qed.
Lemma outside_start : forall now x, starts_in x = false -> exact_worth now x = Outside.
Proof.
  intros now x H. destruct x as [| | |d|d t]; try discriminate H; destruct d as [y mo d|y ww d|y ddd]; cbn [starts_in] in H; cbn [exact_worth day_worth]; unfold date_at; try rewrite H; try reflexivity.
  destruct (representable y mo d); cbn [andb] in H; [rewrite H; reflexivity|]. destruct ((t_hour t <? 24) && (t_minute t <? 60) && (t_second t <? 60)); reflexivity.
Qed.

(** Amount expressions. *)
Lemma amount_lower : forall a, amount_ok a ->
  (in_i64 (amount_count a) = true -> forall md, amount_into md a = Ok (amount_tree a)) /\ (in_i64 (amount_count a) = false -> amount_into Checked a = Panic PArith).
Proof.
  intros [n u] Ha. cbn [amount_ok] in Ha. assert (In : in_i64 n = true) by (apply in_i64_iff; unfold i64_min, i64_max in *; lia).
  split; destruct u; cbn [amount_count amount_into]; try (intros _ md; reflexivity); try (rewrite In; discriminate).
  - intros H md. unfold weeks. rewrite mul7 by (rewrite Z.mul_comm; exact H). rewrite Z.mul_comm. reflexivity.
  - intros H. unfold weeks, mulc, arith. cbn [bind]. replace (n * 7) with (7 * n) by lia. rewrite H. reflexivity.
Qed.
Lemma expr_lower : forall e, expr_ok e -> (numbers_fit e = true -> forall md, amountexpr_into md e = Ok (expr_tree e)) /\
  (numbers_fit e = false -> amountexpr_into Checked e = Panic PArith).
Proof.
  induction e as [a|a op e IH]; intro He; cbn [numbers_fit expr_tree amountexpr_into].
  - apply amount_lower. exact He.
  - destruct He as [Ha He]. destruct (amount_lower a Ha) as [A1 A2]. destruct (IH He) as [I1 I2]. split; intro H.
    + apply andb_true_iff in H. destruct H as [H1 H2]. intro md. rewrite (A1 H1 md), (I1 H2 md). destruct op; reflexivity.
    + destruct (in_i64 (amount_count a)) eqn:E; [rewrite (A1 eq_refl Checked)|rewrite (A2 eq_refl); reflexivity]. cbn [andb bind] in *. rewrite (I2 H). reflexivity.
Qed.
Lemma tree_ok : forall e, numbers_fit e = true -> tt_ok (expr_tree e) = true.
Proof.
  induction e as [a|a op e IH]; cbn [numbers_fit expr_tree]; intro H.
  - unfold amount_tree. rewrite ok_mk. exact H.
  - apply andb_true_iff in H. destruct H as [H1 H2]. destruct op; cbn [tt_ok]; unfold amount_tree; rewrite ok_mk, H1, (IH H2); reflexivity.
Qed.
Lemma mk_amount : forall u n, amount_only (mk u n) = true. Proof. destruct u; reflexivity. Qed.
Lemma tree_amount : forall e, amount_only (expr_tree e) = true.
Proof. induction e as [a|a [|] e IH]; cbn [expr_tree amount_only]; unfold amount_tree; rewrite ?mk_amount, ?IH; reflexivity. Qed.
Lemma tree_over : forall e, numbers_fit e = false -> value (expr_tree e) = Overflow.
Proof.
  intros e H. assert (F : fits (expr_tree e) = false).
  { assert (L : forall a, fits (amount_tree a) = in_i64 (amount_count a)) by (intro a; unfold amount_tree; destruct (amount_unit a); reflexivity).
    induction e as [a|a [|] e IH]; cbn [numbers_fit expr_tree fits] in *; rewrite ?L; [exact H| |]; (destruct (in_i64 (amount_count a)); [cbn [andb] in *; rewrite (IH H); reflexivity|reflexivity]). }
  pose proof (tree_amount e) as A. destruct (expr_tree e) eqn:E; cbn [value amount_only] in *; try discriminate A; rewrite ?A, F; reflexivity.
Qed.
Lemma tree_amounts : forall e u n, value (expr_tree e) = Amounts u n -> numbers_fit e = true /\ in_i64 n = true.
Proof.
  intros e u n H. destruct (numbers_fit e) eqn:N; [|rewrite (tree_over e N) in H; discriminate H]. split; [reflexivity|].
  pose proof (value_amount _ (tree_ok e N) (tree_amount e)) as V. rewrite H in V. apply V.
Qed.
Lemma amounts_worth : forall e, expr_ok e -> total e <= i64_max -> value (expr_tree e) = Amounts (expr_unit e) (expr_count e).
Proof.
  intros e He Ht. destruct (expr_worth Checked e He Ht) as (t & T1 & T2 & T3 & T4 & _).
  destruct (expr_lower e He) as [L1 L2]. destruct (numbers_fit e); [|rewrite (L2 eq_refl) in T1; discriminate T1].
  rewrite (L1 eq_refl Checked) in T1. injection T1 as <-. exact T4.
Qed.

(** Adding to `yesterday`. *)
Lemma sum_yesterday : forall md now t, dt_valid now = true -> tt_ok t = true -> amount_only t = true ->
  calculate md (Addition (Subtraction (Moment now) (Days 1)) t) =
  match t with
  | Addition _ _ => do x <- calculate md t; do m <- calculate md (Subtraction (Moment now) (Days 1)); Err (CannotAdd x m)
  | _ => do m <- calculate md (Subtraction (Moment now) (Days 1)); Err (CannotAdd t m)
  end.
Proof.
  intros md now t Hn Ht Ha. set (Y := Subtraction (Moment now) (Days 1)).
  assert (HY : tt_ok Y = true) by (cbn; rewrite Hn; reflexivity).
  assert (Ad : forall a b, calculate md (Addition a b) = ev md (CAdd a b)).
  { intros a b. reflexivity. }
  assert (Last : forall x, tt_ok x = true -> amount_only x = true -> (match x with Addition _ _ => False | _ => True end) ->
    ev md (CAdd Y x) = do m <- calculate md Y; Err (CannotAdd x m)).
  { intros x Hx Hax Hs. rewrite ev_eq by (split; assumption). change (calculate md Y) with (ev md (CSub (Moment now) (Days 1))).
    pose proof (calc_tt_ok md Y) as O. pose proof (calculate_shape md Y) as K. change (shape_of Y) with SMoment in K. change (calculate md Y) with (ev md (CSub (Moment now) (Days 1))) in O, K.
    unfold Y. cbn [body add]. destruct x; try discriminate Hax; try contradiction;
      (destruct (ev md (CSub (Moment now) (Days 1))) as [v| | |]; cbn [bind]; try reflexivity; cbn [kres] in K; destruct v; try discriminate K;
       rewrite ev_eq by (split; [exact Hx|exact (O _ HY eq_refl)]); reflexivity). }
  rewrite Ad. destruct t; try discriminate Ha; try (apply Last; [exact Ht|exact Ha|exact I]).
  rewrite ev_eq by (split; assumption). unfold Y at 1. cbn [body add]. change (calculate md (Addition t1 t2)) with (ev md (CAdd t1 t2)).
  destruct (ev md (CAdd t1 t2)) as [v| | |] eqn:E; cbn [bind]; try reflexivity.
  destruct (calc_amount md (Addition t1 t2) v Ha Ht E) as (u & k & -> & Hk). fold Y. apply Last; [rewrite ok_mk; exact Hk|apply mk_amount|destruct u; exact I].
Qed.

Definition reading_ok (p : ptimetype) : Prop := match p with PTDate d => date_ok d | PTAmountExpr e => expr_ok e end.
Lemma value_mode : forall md t, tt_ok t = true -> shape_of t <> SBad -> (md = Wrapping /\ value t = Overflow) \/ worth_result (value t) (calculate md t).
Proof.
  intros [|] t H1 H2; [right; apply value_correct; assumption|].
  destruct (value t) eqn:W; try (left; split; reflexivity); right; rewrite <- W; apply value_release; try assumption; congruence.
Qed.
Lemma minus_one : forall md now, dt_valid now = true -> worth_result (minus now UDay 1) (calculate md (Subtraction (Moment now) (Days 1))) /\ calm (minus now UDay 1) = true.
Proof.
  intros md now Hn. destruct (valid_facts now Hn) as (Vy & Vmo & Vd & Vml & Vh & Vmi & Vs).
  assert (F : sub_fits UDay now 1 = true) by (unfold sub_fits; apply in_i64_iff; unfold i64_min, i64_max; cbn [field]; lia).
  split; [apply (minus_correct md now UDay 1); [exact Hn|reflexivity|exact F]|].
  unfold minus. rewrite F. apply back_calm.
Qed.
Lemma yesterday_worth : forall md now e, dt_valid now = true -> numbers_fit e = true ->
  (md = Wrapping /\ after_yesterday now e = Overflow) \/
  worth_result (after_yesterday now e) (calculate md (Addition (Subtraction (Moment now) (Days 1)) (expr_tree e))).
Proof.
  intros md now e Hn He. pose proof (tree_ok e He) as Ht. pose proof (tree_amount e) as Ha.
  rewrite (sum_yesterday md now _ Hn Ht Ha). destruct (minus_one md now Hn) as [M C]. unfold after_yesterday.
  assert (V : (md = Wrapping /\ value (expr_tree e) = Overflow) \/ worth_result (value (expr_tree e)) (calculate md (expr_tree e))).
  { apply value_mode; [exact Ht|]. apply shape_amount in Ha. congruence. }
  pose proof (value_amount _ Ht Ha) as VA.
  destruct e as [a|a [|] e]; cbn [first_op expr_tree] in *.
  - right. replace (match amount_tree a with Addition _ _ => _ | _ => _ end) with (do m <- calculate md (Subtraction (Moment now) (Days 1)); @Err kek timetype (CannotAdd (amount_tree a) m))
      by (unfold amount_tree; destruct (amount_unit a); reflexivity).
    destruct (minus now UDay 1) as [u n|m| | |l r]; try discriminate C; cbn [worth_result] in *; [rewrite M; reflexivity|].
    destruct M as (y & mo & d & h & mi & s & ->). repeat eexists.
  - destruct (value (Addition (amount_tree a) (expr_tree e))) as [u n|m| | |l r] eqn:E; try contradiction.
    + right. destruct V as [[_ V]|V]; [discriminate V|]. cbn [worth_result] in V. rewrite V. cbn [bind].
      destruct (minus now UDay 1) as [u' n'|m| | |l r]; try discriminate C; cbn [worth_result] in *; [rewrite M; reflexivity|].
      destruct M as (y & mo & d & h & mi & s & ->). repeat eexists.
    + destruct V as [[-> _]|V]; [left|right].
      * split; [reflexivity|]. destruct (minus now UDay 1); try discriminate C; reflexivity.
      * cbn [worth_result] in V. rewrite V. destruct (minus now UDay 1); try discriminate C; reflexivity.
  - right. destruct (minus now UDay 1) as [u n|m| | |l r]; try discriminate C; cbn [worth_result] in *; [rewrite M; reflexivity|].
    destruct M as (y & mo & d & h & mi & s & ->). repeat eexists.
Qed.

Lemma text_mode : forall md now p, dt_valid now = true -> reading_ok p ->
  (md = Wrapping /\ text_worth now p = Overflow) \/ worth_result (text_worth now p) (do t <- ptimetype_into md now p; calculate md t).
Proof.
  intros md now p Hn Hp. destruct p as [[x o]|e]; cbn [ptimetype_into].
  - cbn [reading_ok date_ok] in Hp. destruct Hp as [Hx He]. cbn [date_into].
    pose proof (exact_lowered md now x Hn Hx) as L. pose proof (starts_lowered md now x Hx) as Q.
    destruct (exactdate_into md now x) as [b|er| |] eqn:Eb; cbn [lowered] in L; try contradiction; cbn [bind].
    + destruct L as (L1 & L2 & L4). destruct Q as [Q1 Q2].
      destruct o as [[op e]|]; [|cbn [text_worth bind]; rewrite <- L4; apply value_mode; [exact L1|congruence]].
      cbn [text_worth]. unfold sum_worth. rewrite Q1. cbn [negb].
      destruct (expr_lower e He) as [E1 E2]. destruct (numbers_fit e) eqn:N; cbn [negb].
      2: { destruct md; [right; rewrite (E2 eq_refl); destruct op; reflexivity|left; split; reflexivity]. }
      pose proof (tree_ok e N) as T2. pose proof (tree_amount e) as T3. apply shape_amount in T3 as T7.
      assert (A : amount_only b = false) by (destruct (amount_only b) eqn:A; [apply shape_amount in A; congruence|reflexivity]).
      destruct op; rewrite (E1 eq_refl md); cbn [bind]; unfold op_add, op_sub.
      * assert (Y : x = Yesterday \/ x <> Yesterday) by (destruct x; [right|left|right|right|right]; congruence). destruct Y as [->|Y].
        -- cbn [exactdate_into] in Eb. injection Eb as <-. apply yesterday_worth; assumption.
        -- destruct (exact_no_diff md now x b Hx Eb Y) as [D1 D2].
           replace (match x with Yesterday => after_yesterday now e | _ => on_worth plus (exact_worth now x) (value (expr_tree e)) end) with (value (Addition b (expr_tree e)))
             by (rewrite val_add by exact A; rewrite L4; destruct x; try congruence; reflexivity).
           apply value_mode; [cbn [tt_ok]; rewrite L1, T2; reflexivity|cbn [shape_of]; rewrite L2, T7, D1, D2; discriminate].
      * replace (match counted x with true => _ | false => _ end) with (value (Subtraction b (expr_tree e))).
        -- apply value_mode; [cbn [tt_ok]; rewrite L1, T2; reflexivity|cbn [shape_of]; rewrite L2, T7, (exact_no_end md now x b Hx Eb); discriminate].
        -- cbn [value amount_only]. rewrite A, L4. cbn [andb]. rewrite Q2. unfold right_first.
           destruct b; try reflexivity; destruct e as [a|a [|] e]; cbn [expr_tree first_op]; try reflexivity; try (destruct (value (Subtraction (amount_tree a) (expr_tree e))); reflexivity); unfold amount_tree; destruct (amount_unit a); reflexivity.
    + destruct er; try contradiction. right. destruct o as [[op e]|]; cbn [text_worth]; [unfold sum_worth; rewrite Q|rewrite L]; repeat eexists.
  - cbn [reading_ok text_worth] in *. destruct (expr_lower e Hp) as [E1 E2]. destruct (numbers_fit e) eqn:N.
    + rewrite (E1 eq_refl md). cbn [bind]. apply value_mode; [apply tree_ok; exact N|]. pose proof (tree_amount e) as A. apply shape_amount in A. congruence.
    + rewrite (tree_over e N). destruct md; [right; rewrite (E2 eq_refl); reflexivity|left; split; reflexivity].
Qed.

Section Texts.
Variable cfg : nom_cfg.
Variable pd : parser isodate.
Variable pdt : parser (isodate * isotime).
Hypothesis F1 : forall s, fine pd s.
Hypothesis F2 : forall s, fine pdt s.
Hypothesis Hpd : forall s r d, pd s = Done r d -> isodate_ok d.
Hypothesis Hpdt : forall s r d t, pdt s = Done r (d, t) -> isodate_ok d /\ isotime_ok t.
Lemma reads_ok : forall p s r, reads cfg pd pdt (AsTimeType p) s r -> reading_ok p.
Proof.
  intros p s r H. inversion H as [|d s0 r0 _ [Hd _]|e s0 r0 _ _ _ [He _]]; subst; cbn [reading_ok].
  - destruct Hd as [x s r1 Hx|x s b1 op b2 e t' b3 r1 Hx _ _ Te _]; (split; [eapply exact_reads_okv; [exact Hpd|exact Hpdt|exact Hx]|]); [exact I|eapply expr_text_ok; exact Te].
  - destruct He as (t & b & _ & He & _). eapply expr_text_ok. exact He.
Qed.
Lemma text_correct : forall now1 now2 p s r, dt_valid now1 = true -> reads cfg pd pdt (AsTimeType p) s r ->
  worth_result (text_worth now1 p) (text_result Checked (parse Checked cfg pd pdt now1 now2 s)) /\
  (text_worth now1 p <> Overflow -> worth_result (text_worth now1 p) (text_result Wrapping (parse Wrapping cfg pd pdt now1 now2 s))).
Proof.
  intros now1 now2 p s r Hn Hr.
  assert (P : forall md, parse md cfg pd pdt now1 now2 s = lower_timetype md now1 p).
  { intro md. destruct (parse_reads cfg pd pdt F1 F2 md now1 now2 s) as [(x & r' & Hx & E)|[N _]]; [|elim (N _ _ Hr)].
    destruct (reads_fun cfg pd pdt F1 F2 _ _ _ _ _ Hr Hx) as [<- _]. exact E. }
  rewrite !P. pose proof (reads_ok _ _ _ Hr) as Hk.
  assert (L : forall md, text_result md (lower_timetype md now1 p) = do t <- ptimetype_into md now1 p; calculate md t).
  { intro md. unfold text_result, lower_timetype. destruct (ptimetype_into md now1 p); reflexivity. }
  rewrite !L. split.
  - destruct (text_mode Checked now1 p Hn Hk) as [[C _]|W]; [discriminate C|exact W].
  - intro No. destruct (text_mode Wrapping now1 p Hn Hk) as [[_ C]|W]; [contradiction|exact W].
Qed.
End Texts.
