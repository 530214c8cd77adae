(** From syntax trees to expressions and iterators. *)
Require Import ZArith Bool List String Lia ZifyBool.
From Verif Require Import Prelude Spec Chrono TimeType Nom ParserTimetype ParserIterator ParserMod Iter
  SpecTree SpecMoment SpecIter SpecAdapt SpecText NomProofs PreludeProofs EvalProofs AmountProofs ShapeProofs CompProofs CalendarProofs
  AddProofs AddProofs2 SubProofs EndProofs ErrProofs IterProofs IterProofs2 AdapterProofs AdapterProofs2 AdapterProofs3.
Import ListNotations.
Local Open Scope Z_scope.

Lemma mul7 : forall md E n, in_i64 (n * 7) = true -> mulc (E := E) md (Ok n) 7 = Ok (n * 7).
Proof. intros md E n H. unfold mulc. cbn [bind]. unfold arith. rewrite H. reflexivity. Qed.

(** ** Amount expressions *)
Definition good_amount (md : mode) (r : result) : Prop :=
  match r with Ok t => tt_ok t = true /\ amount_only t = true | Err _ => False | Panic p => allowed md p | OutOfFuel => False end.
Lemma amount_good : forall md a, amount_ok a -> good_amount md (amount_into md a).
Proof.
  intros md [n u] H. cbn in H.
  assert (I : in_i64 n = true) by (apply in_i64_iff; unfold i64_min, i64_max in *; lia).
  destruct u; cbn; try (split; [exact I|reflexivity]).
  unfold weeks, mulc. cbn [bind]. unfold arith. destruct (in_i64 (n * 7)) eqn:E; [cbn; split; [exact E|reflexivity]|].
  destruct md; [split; reflexivity|]. split; [|reflexivity]. apply in_i64_iff. apply wrap64_range.
Qed.
Lemma expr_good : forall md e, expr_ok e -> good_amount md (amountexpr_into md e).
Proof.
  intros md. induction e as [a|a op e IH]; intro H; [apply amount_good; exact H|]. destruct H as [Ha He]. specialize (IH He).
  cbn [amountexpr_into]. pose proof (amount_good md a Ha) as G. destruct (amount_into md a) as [x| | |]; cbn in *; try contradiction; try exact G.
  destruct (amountexpr_into md e) as [y| | |]; cbn in *; try contradiction; try exact IH.
  destruct G as [G1 G2], IH as [I1 I2]. destruct op; cbn; rewrite G1, G2, I1, I2; split; reflexivity.
Qed.
Lemma total_nonneg : forall e, expr_ok e -> 0 <= total e.
Proof.
  assert (A : forall a, amount_ok a -> 0 <= amount_secs a).
  { intros [n u] H. cbn in *. destruct u; cbn; lia. }
  induction e as [a|a op e IH]; intro H; cbn; [apply A; exact H|]. destruct H as [H1 H2]. specialize (IH H2). specialize (A a H1). lia.
Qed.
Lemma amount_value : forall md a, amount_ok a -> amount_secs a <= i64_max -> exists t, amount_into md a = Ok t /\
  tt_ok t = true /\ amount_only t = true /\ secs t = amount_secs a /\ abs_secs t = amount_secs a /\ finest t = amount_unit a.
Proof.
  intros md [n u] H S. cbn in H, S.
  assert (I : in_i64 n = true) by (apply in_i64_iff; unfold i64_min, i64_max in *; lia).
  assert (E : forall v, 0 <= v -> Z.abs v = v) by (intros; lia).
  destruct u; cbn [punit_secs] in S; cbn [amount_into];
    try (eexists; split; [reflexivity|]; cbn; split; [exact I|]; split; [reflexivity|]; repeat split; lia).
  unfold weeks. rewrite mul7 by (apply in_i64_iff; unfold i64_min, i64_max in *; lia). cbn [bind].
  eexists; split; [reflexivity|]. cbn. split; [apply in_i64_iff; unfold i64_min, i64_max in *; lia|]. repeat split; lia.
Qed.
Lemma expr_value : forall md e, expr_ok e -> total e <= i64_max -> exists t, amountexpr_into md e = Ok t /\
  tt_ok t = true /\ amount_only t = true /\ secs t = right_value e /\ abs_secs t = total e /\ finest t = expr_unit e.
Proof.
  intros md. induction e as [a|a op e IH]; intros H T; cbn [total] in T.
  - apply amount_value; assumption.
  - destruct H as [Ha He]. pose proof (total_nonneg e He).
    assert (0 <= amount_secs a) by (apply (total_nonneg (AELast a)); exact Ha).
    destruct (amount_value md a Ha) as (x & X1 & X2 & X3 & X4 & X5 & X6); [lia|].
    destruct (IH He) as (y & Y1 & Y2 & Y3 & Y4 & Y5 & Y6); [lia|].
    cbn [amountexpr_into]. rewrite X1, Y1. cbn [bind].
    destruct op; eexists; (split; [reflexivity|]); cbn [op_add op_sub tt_ok amount_only secs abs_secs finest right_value apply_op total expr_unit];
      rewrite X2, X3, Y2, Y3, X4, Y4, X5, Y5, X6, Y6; repeat split.
Qed.
(** Right-nested and left-to-right values agree if no operator follows a minus. *)
Lemma left_plus : forall e acc, minus_last e = true -> left_value_from acc Plus e = acc + right_value e.
Proof.
  induction e as [a|a op e IH]; intros acc H; [reflexivity|]. destruct op; cbn [left_value_from right_value apply_op minus_last] in *.
  - rewrite IH by exact H. lia.
  - destruct e; [|discriminate H]. cbn. lia.
Qed.
Lemma left_right : forall e, minus_last e = true -> left_value e = right_value e.
Proof. intros e H. unfold left_value. rewrite left_plus by exact H. lia. Qed.
Lemma expr_calc : forall md e, expr_ok e -> total e <= i64_max -> exists t v, amountexpr_into md e = Ok t /\
  tt_ok t = true /\ amount_only t = true /\ calculate md t = Ok (mk (expr_unit e) v) /\ v * unit_secs (expr_unit e) = right_value e.
Proof.
  intros md e H T. destruct (expr_value md e H T) as (t & T1 & T2 & T3 & T4 & T5 & T6).
  destruct (calculate_amount_exact md t T2 T3 ltac:(lia)) as (v & V1 & V2).
  exists t, v. rewrite <- T6, <- T4. auto.
Qed.

(** Texts have numbers that fit. *)
Lemma amount_text_ok : forall a s, amount_text a s -> amount_ok a.
Proof.
  intros a s [b1 ds b2 sp u Hb1 [Hd _] Hv Hb2 Hin|sp al Hin]; cbn; [|unfold i64_max; lia].
  pose proof (NomProofs.decimal_range ds Hd). lia.
Qed.
Lemma expr_text_ok : forall e s, expr_text e s -> expr_ok e.
Proof.
  intros e s H. induction H as [a s H|a s b1 op b2 e s' H _ _ _ IH]; cbn; [eapply amount_text_ok; exact H|].
  split; [eapply amount_text_ok; exact H|exact IH].
Qed.

(** ** Dates *)
Definition midnight (y mo d : Z) : datetime := mkdt y mo d 0 0 0 0.
Lemma ymd_into : forall md now y mo d, exactdate_into md now (Iso8601Date (YMD y mo d)) =
  if representable y mo d then Ok (Moment (midnight y mo d)) else Err (OutOfBounds y mo d 0 0 0).
Proof. intros. cbn [exactdate_into]. unfold from_ymd_opt, representable. destruct ((min_year <=? y) && (y <=? max_year) && date_exists y mo d); reflexivity. Qed.
Definition time_ok (h mi s : Z) : bool := (0 <=? h) && (h <? 24) && (0 <=? mi) && (mi <? 60) && (0 <=? s) && (s <? 60).
Lemma ymdhms_into : forall md now y mo d t, exactdate_into md now (Iso8601DateTime (YMD y mo d) t) =
  if representable y mo d && time_ok (t_hour t) (t_minute t) (t_second t)
  then Ok (Moment (mkdt y mo d (t_hour t) (t_minute t) (t_second t) 0))
  else Err (OutOfBounds y mo d (t_hour t) (t_minute t) (t_second t)).
Proof.
  intros. cbn [exactdate_into]. unfold from_ymd_opt, representable, time_ok.
  destruct ((min_year <=? y) && (y <=? max_year) && date_exists y mo d); [|reflexivity].
  unfold and_hms_opt. cbn [andb]. destruct (_ && _ && _ && _ && _ && _); reflexivity.
Qed.
Lemma jan1 : forall y, representable y 1 1 = (min_year <=? y) && (y <=? max_year).
Proof.
  intro y. unfold representable. replace (date_exists y 1 1) with true; [apply andb_true_r|].
  symmetry. apply date_exists_iff. pose proof (month_length_bounds y 1). lia.
Qed.
Lemma first_into : forall y, first_of_year y = if (min_year <=? y) && (y <=? max_year) then Ok (Moment (midnight y 1 1)) else Err (OutOfBounds y 1 1 0 0 0).
Proof. intro y. rewrite <- jan1. unfold first_of_year, from_ymd_opt, representable. destruct ((min_year <=? y) && (y <=? max_year) && date_exists y 1 1); reflexivity. Qed.
Lemma midnight_valid : forall y mo d, representable y mo d = true -> dt_valid (midnight y mo d) = true.
Proof. intros y mo d H. unfold representable in H. unfold dt_valid, midnight. cbn. rewrite H. reflexivity. Qed.

Definition good_base (r : result) : Prop :=
  match r with Ok t => tt_ok t = true /\ shape_of t = SMoment | Err e => exists y mo d h mi s, e = OutOfBounds y mo d h mi s | _ => False end.
Lemma u32_i64 : forall z, u32 z -> in_i64 z = true.
Proof. intros z H. apply in_i64_iff. unfold u32, i64_min, i64_max in *. lia. Qed.
Lemma u32_7 : forall z, u32 z -> in_i64 (z * 7) = true.
Proof. intros z H. apply in_i64_iff. unfold u32, i64_min, i64_max in *. lia. Qed.
Lemma exact_good : forall md now x, dt_valid now = true -> exact_ok x -> good_base (exactdate_into md now x).
Proof.
  intros md now x Hn Hx. destruct x as [| | |d|d t]; cbn in Hx.
  - cbn. auto.
  - cbn. rewrite Hn. auto.
  - cbn. rewrite Hn. auto.
  - destruct d as [y mo d|y ww d|y ddd].
    + rewrite ymd_into. destruct (representable y mo d) eqn:R; [|repeat eexists]. split; [apply midnight_valid; exact R|reflexivity].
    + destruct Hx as (Hy & Hw & Hd). cbn [exactdate_into]. rewrite first_into.
      destruct ((min_year <=? y) && (y <=? max_year)) eqn:R; [|cbn; repeat eexists]. cbn [bind]. unfold weeks. rewrite mul7 by (apply u32_7; exact Hw).
      cbn [bind good_base]. unfold op_add. split; [|reflexivity]. cbn [tt_ok]. unfold days. cbn [tt_ok].
      rewrite midnight_valid by (rewrite jan1; exact R). rewrite (u32_7 ww Hw), (u32_i64 d Hd). reflexivity.
    + destruct Hx as (Hy & Hd). cbn [exactdate_into]. rewrite first_into.
      destruct ((min_year <=? y) && (y <=? max_year)) eqn:R; [|cbn; repeat eexists]. cbn [bind good_base]. unfold op_add. split; [|reflexivity]. unfold days. cbn [tt_ok].
      rewrite midnight_valid by (rewrite jan1; exact R). rewrite (u32_i64 ddd Hd). reflexivity.
  - destruct Hx as [Hx (Hh & Hmi & Hs)]. destruct d as [y mo d|y ww d|y ddd].
    + rewrite ymdhms_into. destruct (representable y mo d && time_ok (t_hour t) (t_minute t) (t_second t)) eqn:R; [|repeat eexists].
      split; [|reflexivity]. apply andb_true_iff in R. destruct R as [R1 R2]. unfold representable in R1. unfold time_ok in R2.
      cbn [tt_ok]. unfold dt_valid. cbn [year month day hour minute second nano]. rewrite R1. cbn [andb]. rewrite <- !andb_assoc in R2 |- *. lia.
    + destruct Hx as (Hy & Hw & Hd). cbn [exactdate_into]. rewrite first_into.
      destruct ((min_year <=? y) && (y <=? max_year)) eqn:R; [|cbn; repeat eexists]. cbn [bind]. unfold weeks. rewrite mul7 by (apply u32_7; exact Hw).
      cbn [bind good_base]. unfold op_add. split; [|reflexivity]. unfold days, hours, minutes, seconds. cbn [tt_ok].
      rewrite midnight_valid by (rewrite jan1; exact R). rewrite (u32_7 ww Hw), (u32_i64 d Hd), (u32_i64 _ Hh), (u32_i64 _ Hmi), (u32_i64 _ Hs). reflexivity.
    + destruct Hx as (Hy & Hd). cbn [exactdate_into]. rewrite first_into.
      destruct ((min_year <=? y) && (y <=? max_year)) eqn:R; [|cbn; repeat eexists]. cbn [bind good_base]. unfold op_add. split; [|reflexivity]. unfold days, hours, minutes, seconds. cbn [tt_ok].
      rewrite midnight_valid by (rewrite jan1; exact R). rewrite (u32_i64 ddd Hd), (u32_i64 _ Hh), (u32_i64 _ Hmi), (u32_i64 _ Hs). reflexivity.
Qed.

Definition good_date (md : mode) (r : result) : Prop :=
  match r with
  | Ok t => tt_ok t = true /\ shape_of t <> SAmount
  | Err e => exists y mo d h mi s, e = OutOfBounds y mo d h mi s
  | Panic p => allowed md p
  | OutOfFuel => False
  end.
Lemma date_good : forall md now d, dt_valid now = true -> date_ok d -> good_date md (date_into md now d).
Proof.
  intros md now [x o] Hn [Hx Ho]. cbn [date_into]. pose proof (exact_good md now x Hn Hx) as G.
  destruct (exactdate_into md now x) as [b| | |]; cbn in *; try contradiction; try exact G. destruct G as [G1 G2].
  destruct o as [[op e]|]; [|split; [exact G1|congruence]].
  pose proof (expr_good md e Ho) as E.
  destruct op; destruct (amountexpr_into md e) as [y| | |]; cbn in *; try contradiction; try exact E;
    destruct E as [E1 E2]; rewrite G1, E1; (split; [reflexivity|]); rewrite G2; apply shape_amount in E2; rewrite E2;
    destruct (is_diff b || is_end b), (is_end b); discriminate.
Qed.

(** ** No panics *)
Lemma good_returns : forall md t, tt_ok t = true -> returns md (calculate md t).
Proof. intros md t H. pose proof (calculate_good md t H) as G. destruct (calculate md t); cbn in *; try exact I; [destruct G; split; assumption|contradiction]. Qed.
Lemma returns_bind : forall md A B (x : outcome kek A) (f : A -> outcome kek B), returns md x -> (forall a, x = Ok a -> returns md (f a)) -> returns md (do a <- x; f a).
Proof. intros md A B x f H1 H2. destruct x; cbn in *; try assumption. apply H2. reflexivity. Qed.
Lemma date_returns : forall md now d, dt_valid now = true -> date_ok d -> returns md (date_into md now d).
Proof. intros md now d H1 H2. pose proof (date_good md now d H1 H2) as G. destruct (date_into md now d); cbn in *; try exact I; exact G. Qed.
Lemma exact_returns : forall md now x, dt_valid now = true -> exact_ok x -> returns md (exactdate_into md now x).
Proof. intros md now x H1 H2. pose proof (exact_good md now x H1 H2) as G. destruct (exactdate_into md now x); cbn in *; try exact I; contradiction. Qed.
Lemma step_amount : forall md sp, in_i64 (step_count sp) = true -> recur_of md sp = Ok (mk (step_unit sp) (step_count sp)).
Proof.
  intros md sp H. destruct sp as [| | | | | | |n u]; try reflexivity. destruct u; try reflexivity.
  cbn [step_count times_kept step_unit punit_kept recur_of unit_to_amount mk] in *. unfold weeks.
  replace (7 * n) with (n * 7) in * by lia. rewrite mul7 by exact H. reflexivity.
Qed.
Lemma step_overflow : forall sp, step_spec_ok sp -> in_i64 (step_count sp) = false ->
  recur_of Checked sp = Panic PArith /\ recur_of Wrapping sp = Ok (mk (step_unit sp) (wrap64 (step_count sp))).
Proof.
  intros sp Hs H. destruct sp as [| | | | | | |n u]; try discriminate H. cbn in Hs.
  assert (I : in_i64 n = true) by (apply in_i64_iff; unfold i64_min, i64_max in *; lia).
  destruct u; cbn [step_count times_kept] in H; try congruence.
  cbn [step_count times_kept step_unit punit_kept recur_of unit_to_amount mk]. unfold weeks, mulc. cbn [bind]. unfold arith.
  replace (7 * n) with (n * 7) in * by lia. rewrite H. split; reflexivity.
Qed.
Lemma step_returns : forall md sp, step_spec_ok sp ->
  returns md (recur_of md sp) /\ forall r, recur_of md sp = Ok r -> tt_ok r = true /\ is_a_amount r = true.
Proof.
  intros md sp Hs. destruct (in_i64 (step_count sp)) eqn:E.
  - rewrite (step_amount md sp E). split; [exact I|]. intros r [= <-]. rewrite ok_mk. split; [exact E|]. destruct (step_unit sp); reflexivity.
  - destruct (step_overflow sp Hs E) as [H1 H2]. destruct md.
    + rewrite H1. split; [split; reflexivity|discriminate].
    + rewrite H2. split; [exact I|]. intros r [= <-]. rewrite ok_mk. split; [apply in_i64_iff, wrap64_range|]. destruct (step_unit sp); reflexivity.
Qed.

(** A moment-valued or ill-shaped expression, evaluated, is a moment, an error or an overflow. *)
Lemma ndt_eq : forall md x, tt_ok x = true -> shape_of x <> SAmount ->
  match calculate md x with
  | Ok v => exists m, v = Moment m /\ dt_valid m = true /\ into_ndt md x = Ok m
  | Err e => into_ndt md x = Err e /\ e <> NotADateInsideIterator
  | Panic p => into_ndt md x = Panic p /\ allowed md p
  | OutOfFuel => False
  end.
Proof.
  intros md x Hx Hs. unfold into_ndt. pose proof (calculate_good md x Hx) as G. pose proof (calculate_shape md x) as K.
  pose proof (error_kinds md x) as EK.
  destruct (calculate md x) as [v|e|p|]; cbn in G, K |- *.
  - destruct G as [G1 G2]. destruct (shape_of x); [congruence| |contradiction]. destruct v; try discriminate K. exists m. auto.
  - split; [reflexivity|]. intro Q. subst e. exact (EK _ Hx eq_refl).
  - destruct G. repeat split; assumption.
  - exact G.
Qed.

(** ** Iterators *)
Definition date_value (md : mode) (now : datetime) (d : pdate) : result := do x <- date_into md now d; calculate md x.
Definition exact_value (md : mode) (now : datetime) (x : exactdate) : result := do t <- exactdate_into md now x; calculate md t.
Definition as_moment (r : result) (q : outcome kek datetime) (md : mode) : Prop :=
  match r with
  | Ok v => exists m, v = Moment m /\ dt_valid m = true /\ q = Ok m
  | Err e => q = Err e /\ e <> NotADateInsideIterator
  | Panic p => q = Panic p /\ allowed md p
  | OutOfFuel => False
  end.
Lemma date_moment : forall md now d, dt_valid now = true -> date_ok d ->
  as_moment (date_value md now d) (do x <- date_into md now d; into_ndt md x) md.
Proof.
  intros md now d Hn Hd. unfold date_value. pose proof (date_good md now d Hn Hd) as G.
  destruct (date_into md now d) as [x|e|p|]; cbn in *; try contradiction.
  - destruct G as [G1 G2]. exact (ndt_eq md x G1 G2).
  - destruct G as (y & mo & dd & h & mi & s & ->). split; [reflexivity|discriminate].
  - split; [reflexivity|exact G].
Qed.
Lemma exact_moment : forall md now x, dt_valid now = true -> exact_ok x ->
  as_moment (exact_value md now x) (do t <- exactdate_into md now x; into_ndt md t) md.
Proof.
  intros md now x Hn Hd. unfold exact_value. pose proof (exact_good md now x Hn Hd) as G.
  destruct (exactdate_into md now x) as [t|e|p|]; cbn in *; try contradiction.
  - destruct G as [G1 G2]. apply (ndt_eq md t G1). congruence.
  - destruct G as (y & mo & dd & h & mi & s & ->). split; [reflexivity|discriminate].
Qed.

Definition bounded (i : iter) (u : option untilspec) (en : datetime) : useriterator :=
  match u with None => UIIterator i | Some (UTimes n) => UITimes (times_new i n) | Some (UExact _) => UIUntil i en end.
Lemma iterator_means : forall md now1 now2 d sp u, dt_valid now1 = true -> dt_valid now2 = true ->
  iterator_ok (Iterator d sp u) -> in_i64 (step_count sp) = true ->
  let res := into_user_iterator md now1 now2 (Iterator d sp u) in
  match date_value md now1 d with
  | Ok v => exists b it, v = Moment b /\ dt_valid b = true /\ build b (mk (step_unit sp) (step_count sp)) = Ok it /\
      match u with
      | Some (UExact x) =>
          match exact_value md now2 x with
          | Ok w => exists en, w = Moment en /\ dt_valid en = true /\ res = Ok (UIUntil it en)
          | Err e => res = Err e /\ e <> NotADateInsideIterator
          | Panic p => res = Panic p /\ allowed md p
          | OutOfFuel => False
          end
      | Some (UTimes n) => res = Ok (UITimes (times_new it n))
      | None => res = Ok (UIIterator it)
      end
  | Err e => res = Err e /\ e <> NotADateInsideIterator
  | Panic p => res = Panic p /\ allowed md p
  | OutOfFuel => False
  end.
Proof.
  intros md now1 now2 d sp u H1 H2 (Hd & Hs & Hu) HI res. subst res.
  unfold into_user_iterator. rewrite (step_amount md sp HI). cbn [bind].
  pose proof (date_moment md now1 d H1 Hd) as M. unfold as_moment in M.
  assert (B : forall b, build b (mk (step_unit sp) (step_count sp)) = Ok (mkiter (moment b) (mk (step_unit sp) (step_count sp)) false))
    by (intro b; unfold build; destruct (step_unit sp); reflexivity).
  destruct (date_value md now1 d) as [v|e|p|]; [|destruct M as [-> M]..|contradiction].
  - destruct M as (b & -> & Hb & ->). exists b, (mkiter (moment b) (mk (step_unit sp) (step_count sp)) false).
    split; [reflexivity|]. split; [exact Hb|]. split; [apply B|]. cbn [bind].
    destruct u as [[x|n]|]; [|rewrite B; reflexivity..].
    pose proof (exact_moment md now2 x H2 Hu) as E. unfold as_moment in E.
    destruct (exact_value md now2 x) as [w|e|p|]; [|destruct E as [-> E]..|contradiction].
    + destruct E as (en & -> & He & ->). exists en. split; [reflexivity|]. split; [exact He|]. cbn [bind]. rewrite B. reflexivity.
    + split; [reflexivity|exact E].
    + split; [reflexivity|exact E].
  - split; [destruct u as [[x|n]|]; reflexivity|exact M].
  - split; [destruct u as [[x|n]|]; reflexivity|exact M].
Qed.
(** Whatever the step. *)
Lemma iterator_returns : forall md now1 now2 it, dt_valid now1 = true -> dt_valid now2 = true -> iterator_ok it ->
  returns md (into_user_iterator md now1 now2 it) /\ into_user_iterator md now1 now2 it <> Err NotADateInsideIterator /\
  forall ui, into_user_iterator md now1 now2 it = Ok ui ->
    exists i, iter_ok i /\ (ui = UIIterator i \/ (exists n, ui = UITimes (times_new i n)) \/ exists en, ui = UIUntil i en).
Proof.
  intros md now1 now2 [d sp u] H1 H2 (Hd & Hs & Hu). unfold into_user_iterator.
  destruct (step_returns md sp Hs) as [R1 R2]. destruct (recur_of md sp) as [r|e|p|] eqn:Er; cbn in R1; try contradiction.
  2: { exfalso. destruct (in_i64 (step_count sp)) eqn:E; [rewrite (step_amount md sp E) in Er; discriminate|].
       destruct (step_overflow sp Hs E) as [A B]. destruct md; congruence. }
  2: { cbn [bind]. split; [exact R1|]. split; [discriminate|discriminate]. }
  destruct (R2 r eq_refl) as [R3 R4]. cbn [bind].
  assert (B : forall b, build b r = Ok (mkiter (moment b) r false)) by (intro b; unfold build; rewrite R4; reflexivity).
  assert (IO : forall b, dt_valid b = true -> iter_ok (mkiter (moment b) r false)) by (intros b Hb; repeat split; cbn; assumption).
  pose proof (date_moment md now1 d H1 Hd) as M. unfold as_moment in M.
  destruct (date_value md now1 d) as [v|e|p|]; [|destruct M as [-> M]..|contradiction].
  - destruct M as (b & -> & Hb & ->). cbn [bind]. destruct u as [[x|n]|]; [|rewrite B..].
    + pose proof (exact_moment md now2 x H2 Hu) as E. unfold as_moment in E.
      destruct (exact_value md now2 x) as [w|e|p|]; [|destruct E as [-> E]..|contradiction].
      * destruct E as (en & -> & He & ->). cbn [bind]. rewrite B. split; [exact I|]. split; [discriminate|].
        intros ui [= <-]. eexists. split; [apply IO; exact Hb|]. right; right. eexists. reflexivity.
      * cbn. split; [exact I|]. split; [congruence|discriminate].
      * cbn. split; [exact E|]. split; discriminate.
    + split; [exact I|]. split; [discriminate|]. intros ui [= <-]. eexists. split; [apply IO; exact Hb|]. right; left. eexists. reflexivity.
    + split; [exact I|]. split; [discriminate|]. intros ui [= <-]. eexists. split; [apply IO; exact Hb|]. left. reflexivity.
  - assert (Q : forall A (f : datetime -> outcome kek A), (do b <- Err (A := datetime) e; f b) = Err e) by reflexivity.
    destruct u as [[x|n]|]; cbn [bind]; (split; [exact I|]); (split; [congruence|discriminate]).
  - destruct u as [[x|n]|]; cbn [bind]; (split; [exact M|]); (split; [discriminate|discriminate]).
Qed.

(** Items of user iterators are those of the adapters. *)
Lemma user_after_plain : forall md k i, after (user_next md) k (UIIterator i) = UIIterator (after (iter_next md) k i).
Proof. intros md. induction k; intro i; [reflexivity|]. cbn [after user_next]. destruct (iter_next md i). apply IHk. Qed.
Lemma user_plain : forall md k i, nth_item (user_next md) k (UIIterator i) = nth_item (iter_next md) k i.
Proof. intros. unfold nth_item. rewrite user_after_plain. cbn [user_next]. destruct (iter_next md _). reflexivity. Qed.
Lemma user_after_times : forall md k t, after (user_next md) k (UITimes t) = UITimes (after (times_next md (iter_next md)) k t).
Proof. intros md. induction k; intro i; [reflexivity|]. cbn [after user_next]. destruct (times_next md (iter_next md) i). apply IHk. Qed.
Lemma user_times : forall md k t, nth_item (user_next md) k (UITimes t) = nth_item (times_next md (iter_next md)) k t.
Proof. intros. unfold nth_item. rewrite user_after_times. cbn [user_next]. destruct (times_next md (iter_next md) _). reflexivity. Qed.
Lemma user_after_until : forall md k i en, after (user_next md) k (UIUntil i en) = UIUntil (after (until_next md (iter_next md) en) k i) en.
Proof. intros md. induction k; intros i en; [reflexivity|]. cbn [after user_next]. destruct (until_next md (iter_next md) en i). apply IHk. Qed.
Lemma user_until : forall md k i en, nth_item (user_next md) k (UIUntil i en) = nth_item (until_next md (iter_next md) en) k i.
Proof. intros. unfold nth_item. rewrite user_after_until. cbn [user_next]. destruct (until_next md (iter_next md) en _). reflexivity. Qed.
Lemma iter_item_ok : forall md it k t, iter_ok it -> nth_item (iter_next md) k it = Some (Ok t) -> tt_ok t = true.
Proof.
  intros md it k t Hok H. pose proof (iter_ok_after md k it Hok) as (H1 & H2 & H3). unfold nth_item in H.
  set (it' := after (iter_next md) k it) in *. destruct (had_first it') eqn:F.
  - rewrite next_later in H by exact F.
    assert (OA : tt_ok (step it') = true) by (unfold step; cbn [tt_ok]; rewrite H1; exact H2).
    pose proof (calculate_good md (step it') OA) as G.
    destruct (calculate md (step it')); cbn in *; try discriminate H. injection H as <-. apply G.
  - rewrite next_first in H by exact F. cbn in H. injection H as <-. exact H1.
Qed.
Lemma user_returns : forall md now1 now2 it ui k, dt_valid now1 = true -> dt_valid now2 = true -> iterator_ok it ->
  into_user_iterator md now1 now2 it = Ok ui -> item_returns md (nth_item (user_next md) k ui).
Proof.
  intros md now1 now2 it ui k H1 H2 Hit E. destruct (iterator_returns md now1 now2 it H1 H2 Hit) as (_ & _ & R).
  destruct (R ui E) as (i & Hi & [-> | [[n ->] | [en ->]]]).
  - rewrite user_plain. apply iter_returns. exact Hi.
  - rewrite user_times. apply times_returns. intro j. apply iter_returns. exact Hi.
  - rewrite user_until. apply until_returns.
    + intro j. apply iter_returns. exact Hi.
    + intros j t Ht. eapply iter_item_ok; eassumption.
Qed.
