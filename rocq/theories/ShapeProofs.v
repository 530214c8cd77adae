(** Shape of an expression decides its outcome; errors of bad operands; sub-seconds. *)
Require Import ZArith Bool List Lia String.
From Verif Require Import Prelude Spec Chrono Util TimeType SpecTree PreludeProofs EvalProofs AmountProofs.
Local Open Scope Z_scope.

Definition is_oob (e : kek) : bool := match e with OutOfBounds _ _ _ _ _ _ => true | _ => false end.

Definition kres (k : shape) (r : result) : Prop :=
  match r with
  | Ok v => match k with
            | SAmount => is_a_amount v = true
            | SMoment => is_moment v = true
            | SBad => False
            end
  | Err e => match k with
             | SAmount => False
             | SMoment => is_oob e = true
             | SBad => True
             end
  | _ => True
  end.

Definition kcall (c : call) : shape :=
  match c with
  | CCalc t => shape_of t
  | CAdd a b => shape_of (Addition a b)
  | CSub a b => shape_of (Subtraction a b)
  | CEndOfYear t | CEndOfMonth t | CEndOfDay t | CEndOfHour t | CEndOfMinute t =>
      match shape_of t with SMoment => SMoment | _ => SBad end
  | CAddToSeconds _ t | CAddToMinutes _ t | CAddToHours _ t | CAddToDays _ t | CAddToMonths _ t
  | CAddToYears _ t | CSubFromSeconds _ t | CSubFromMinutes _ t | CSubFromHours _ t
  | CSubFromDays _ t | CSubFromMonths _ t | CSubFromYears _ t =>
      match shape_of t with SAmount => SAmount | _ => SBad end
  | CAddToMoment _ t | CSubFromMoment _ t =>
      match shape_of t with SAmount => SMoment | _ => SBad end
  end.

Lemma kres_build : forall f, kres SMoment (build_moment f).
Proof.
  intros [[[[[y mo] d] h] mi] s]. unfold build_moment.
  destruct (from_ymd_opt _ _ _); [|reflexivity].
  destruct (and_hms_opt _ _ _ _); reflexivity.
Qed.

(** An arithmetic step returns or panics; it never produces an error. *)
Definition noerr {A} (x : outcome kek A) : Prop := match x with Err _ => False | _ => True end.
Lemma noerr_bind : forall {A B} (x : outcome kek A) (f : A -> outcome kek B),
  noerr x -> (forall a, noerr (f a)) -> noerr (bind x f).
Proof. intros A B x f Hx Hf. destruct x; cbn in *; auto. Qed.
Lemma noerr_arith : forall md z, @noerr Z (arith md z).
Proof. intros. unfold arith. destruct (in_i64 z); [exact I|]. destruct md; exact I. Qed.
Lemma noerr_while : forall {S} (c : S -> bool) (step : S -> outcome kek S) s,
  (forall s, noerr (step s)) -> noerr (while c step s).
Proof.
  intros S c step s H. unfold while.
  set (bd := fun st : S => _). assert (Hb : forall s, match bd s with inr r => noerr r | _ => True end).
  { intro st. unfold bd. destruct (c st); [|exact I]. specialize (H st).
    destruct (step st); auto. }
  assert (Hi : forall p s, match iter_pos p bd s with inr r => noerr r | _ => True end).
  { induction p; intro st; cbn [iter_pos].
    - specialize (Hb st). destruct (bd st) as [s'|]; [|assumption].
      specialize (IHp s') as H1. destruct (iter_pos p bd s') as [s''|]; [|assumption]. apply IHp.
    - specialize (IHp st) as H1. destruct (iter_pos p bd st) as [s''|]; [|assumption]. apply IHp.
    - apply Hb. }
  specialize (Hi loop_fuel s). destruct (iter_pos loop_fuel bd s); [exact I|assumption].
Qed.
Ltac ne := repeat
  lazymatch goal with
  | |- noerr (Ok _) => exact I
  | |- noerr (arith _ _) => apply noerr_arith
  | |- noerr (while _ _ _) => apply noerr_while; intro
  | |- noerr (bind _ _) => apply noerr_bind; [|intro]
  | |- noerr (addc _ _ _) => unfold addc
  | |- noerr (subc _ _ _) => unfold subc
  | |- noerr (mulc _ _ _) => unfold mulc
  | |- noerr (divc _ _) => unfold divc
  | |- noerr (remc _ _) => unfold remc
  | |- noerr (absc _ _) => unfold absc
  | |- noerr (fix_carry _ _ _ _) => unfold fix_carry
  | |- noerr (borrow _ _ _ _ _ _) => unfold borrow
  | |- noerr (month_loop _ _ _ _) => unfold month_loop
  | |- noerr (year_loop _ _ _) => unfold year_loop
  | |- noerr (match ?p with (_, _) => _ end) => destruct p
  | |- noerr (if ?b then _ else _) => destruct b
  end.
Lemma noerr_adjust_add : forall md y mo d h mi s, @noerr fields (adjust_times_add md y mo d h mi s).
Proof. intros. unfold adjust_times_add. ne. Qed.
Lemma noerr_adjust_sub : forall md y mo d h mi s, @noerr fields (adjust_times_sub md y mo d h mi s).
Proof. intros. unfold adjust_times_sub. ne. Qed.

Lemma kres_bind_noerr : forall {A} k (x : outcome kek A) f, noerr x -> (forall a, kres k (f a)) ->
  kres k (bind x f).
Proof. intros A k x f Hx Hf. destruct x; cbn [bind]; try exact I; auto. contradiction. Qed.

Lemma kres_bind : forall k k' (x : result) f, kres k x ->
  (forall v, is_value v = true -> shape_of v = k -> kres k' (f v)) ->
  (k = SBad -> k' = SBad) ->
  (k = SMoment -> k' = SMoment \/ k' = SBad) ->
  kres k' (bind x f).
Proof.
  intros k k' x f Hx Hf Hb Hm. destruct x as [v|e| |]; cbn [bind kres] in *; try exact I.
  - apply Hf; destruct k; try contradiction; destruct v; try discriminate; reflexivity.
  - destruct k; [contradiction| |].
    + destruct (Hm eq_refl) as [-> | ->]; auto.
    + rewrite Hb by reflexivity. exact I.
Qed.

Section Body.
Variable md : mode.
Variable rec : call -> result.
Hypothesis IH : forall c, kres (kcall c) (rec c).

Lemma body_kres_end : forall c t,
  c = CEndOfYear t \/ c = CEndOfMonth t \/ c = CEndOfDay t \/ c = CEndOfHour t \/ c = CEndOfMinute t ->
  kres (kcall c) (body md rec c).
Proof.
  intros c t Hc.
  assert (H : forall f, (forall v, is_value v = true -> kres (match shape_of v with SMoment => SMoment | _ => SBad end) (f v)) ->
     kres (match shape_of t with SMoment => SMoment | _ => SBad end) (bind (rec (CCalc t)) f)).
  { intros f Hf. apply (kres_bind (shape_of t)); [apply (IH (CCalc t))| | |].
    - intros v Hv <-. apply Hf. assumption.
    - intros ->. reflexivity.
    - intros ->. auto. }
  destruct Hc as [->|[->|[->|[->| ->]]]]; cbn [kcall body]; apply H; clear H;
    intros v Hv; destruct v; try discriminate Hv; try exact I; cbn [shape_of].
  all: repeat match goal with
    | |- context [from_ymd_opt ?a ?b ?c] => destruct (from_ymd_opt a b c) as [nd|]; cbn [ok_or bind]; [|reflexivity]
    | |- context [and_hms_opt ?a ?b ?c ?d] => destruct (and_hms_opt a b c d) as [dt|]; cbn [ok_or bind]; [|reflexivity]
    | |- context [and_hms ?n ?a ?b ?c] => unfold and_hms
    end.
  all: try reflexivity.
  all: destruct (and_hms_opt _ _ _ _); reflexivity.
Qed.

Lemma body_kres_to : forall c,
  match c with
  | CCalc _ | CAdd _ _ | CSub _ _ | CEndOfYear _ | CEndOfMonth _ | CEndOfDay _ | CEndOfHour _ | CEndOfMinute _ => False
  | _ => True end ->
  kres (kcall c) (body md rec c).
Proof.
  intros c Hc. destruct c; try contradiction; clear Hc; cbn [kcall body].
  all: destruct t;
    cbn [add_to_seconds add_to_minutes add_to_hours add_to_days add_to_months add_to_years add_to_moment
         sub_from_seconds sub_from_minutes sub_from_hours sub_from_days sub_from_months sub_from_years sub_from_moment].
  all: try match goal with |- context [shape_of (Addition ?a ?b)] => set (sh := shape_of (Addition a b)) end.
  all: try match goal with |- context [shape_of (Subtraction ?a ?b)] => set (sh := shape_of (Subtraction a b)) end.
  all: cbn [shape_of].
  all: try (cbn; match goal with |- context [shape_of ?t] => destruct (shape_of t) end; cbn; auto; fail).
  all: try (cbn; auto; fail).
  all: try (apply kres_bind_noerr; [solve [ne]|intro; reflexivity]).
  all: try (apply kres_bind_noerr; [solve [ne]|intro];
    apply kres_bind_noerr; [first [apply noerr_adjust_add|apply noerr_adjust_sub]|intro; apply kres_build]).
  all: (apply (kres_bind sh);
     [ subst sh; match goal with |- kres _ (rec ?c) => apply (IH c) end
     | let v := fresh "v" in let Hv := fresh in let E := fresh in
       intros v Hv E; match goal with |- kres _ (rec ?c) => pose proof (IH c) as Hih; cbn [kcall] in Hih; rewrite E in Hih; exact Hih end
     | intros ->; reflexivity
     | intros ->; auto ]).
Qed.

(** Values: shape and constructors. *)
Lemma val_shape : forall v, is_value v = true ->
  is_diff v = false /\ is_end v = false /\ shape_of v <> SBad.
Proof. intros v H. destruct v; try discriminate H; repeat split; discriminate. Qed.

Definition sadd (ka kb : shape) (da ea : bool) : shape :=
  match ka, kb with
  | SAmount, SAmount => SAmount
  | SMoment, SAmount => if da || ea then SBad else SMoment
  | _, _ => SBad
  end.
Definition ssub (ka kb : shape) (ea : bool) : shape :=
  match ka, kb with
  | SAmount, SAmount => SAmount
  | SMoment, SAmount => if ea then SBad else SMoment
  | _, _ => SBad
  end.
Lemma ih_add : forall a b, kres (sadd (shape_of a) (shape_of b) (is_diff a) (is_end a)) (rec (CAdd a b)).
Proof. intros. apply (IH (CAdd a b)). Qed.
Lemma ih_sub : forall a b, kres (ssub (shape_of a) (shape_of b) (is_end a)) (rec (CSub a b)).
Proof. intros. apply (IH (CSub a b)). Qed.
Lemma ih_calc : forall a, kres (shape_of a) (rec (CCalc a)).
Proof. intros. apply (IH (CCalc a)). Qed.

Lemma add_a_o : forall k1 o c, kres k1 (rec c) ->
  kres (sadd k1 (shape_of o) false false) (bind (rec c) (fun v => rec (CAdd v o))).
Proof.
  intros k1 o c H. apply (kres_bind k1); [exact H| | |].
  - intros v Hv Hs. destruct (val_shape v Hv) as (Hd & He & _).
    pose proof (ih_add v o) as Hi. rewrite Hs, Hd, He in Hi. exact Hi.
  - intros ->. reflexivity.
  - intros ->. cbn. destruct (shape_of o); auto.
Qed.
Lemma add_o_a : forall k1 o c, kres k1 (rec c) ->
  kres (sadd (shape_of o) k1 (is_diff o) (is_end o)) (bind (rec c) (fun v => rec (CAdd o v))).
Proof.
  intros k1 o c H. apply (kres_bind k1); [exact H| | |].
  - intros v Hv Hs. pose proof (ih_add o v) as Hi. rewrite Hs in Hi. exact Hi.
  - intros ->. destruct (shape_of o); reflexivity.
  - intros ->. cbn. destruct (shape_of o); auto.
Qed.
Lemma sub_a_o : forall k1 o c, kres k1 (rec c) ->
  kres (ssub k1 (shape_of o) false) (bind (rec c) (fun v => rec (CSub v o))).
Proof.
  intros k1 o c H. apply (kres_bind k1); [exact H| | |].
  - intros v Hv Hs. destruct (val_shape v Hv) as (Hd & He & _).
    pose proof (ih_sub v o) as Hi. rewrite Hs, He in Hi. exact Hi.
  - intros ->. reflexivity.
  - intros ->. cbn. destruct (shape_of o); auto.
Qed.
Lemma sub_o_a : forall k1 o c, kres k1 (rec c) ->
  kres (ssub (shape_of o) k1 (is_end o)) (bind (rec c) (fun v => rec (CSub o v))).
Proof.
  intros k1 o c H. apply (kres_bind k1); [exact H| | |].
  - intros v Hv Hs. pose proof (ih_sub o v) as Hi. rewrite Hs in Hi. exact Hi.
  - intros ->. destruct (shape_of o); reflexivity.
  - intros ->. cbn. destruct (shape_of o); auto.
Qed.
Lemma bad_bind : forall k1 c f, kres k1 (rec c) ->
  (forall v, is_value v = true -> shape_of v = k1 -> kres SBad (f v)) ->
  kres SBad (bind (rec c) f).
Proof. intros k1 c f H Hf. apply (kres_bind k1); auto. Qed.
Lemma end_shape : forall o, is_end o = true -> shape_of o = SMoment \/ shape_of o = SBad.
Proof.
  intros o H. destruct o; try discriminate H; cbn [shape_of];
    match goal with |- context [shape_of ?e] => destruct (shape_of e) end; auto.
Qed.
Lemma sadd_end : forall o k d, is_end o = true -> sadd (shape_of o) k d true = SBad.
Proof. intros o k d H. destruct (end_shape o H) as [-> | ->], k, d; reflexivity. Qed.
Lemma ssub_end : forall o k, is_end o = true -> ssub (shape_of o) k true = SBad.
Proof. intros o k H. destruct (end_shape o H) as [-> | ->], k; reflexivity. Qed.
Lemma sadd_l : forall o k d e, is_end o = true -> sadd k (shape_of o) d e = SBad.
Proof. intros o k d e H. destruct (end_shape o H) as [-> | ->], k; reflexivity. Qed.
Lemma ssub_l : forall o k e, is_end o = true -> ssub k (shape_of o) e = SBad.
Proof. intros o k e H. destruct (end_shape o H) as [-> | ->], k; reflexivity. Qed.

Ltac toih := match goal with |- kres _ (rec ?c) => let H := fresh in pose proof (IH c) as H; cbn [kcall] in H end.

Lemma body_kres_add : forall a b, kres (sadd (shape_of a) (shape_of b) (is_diff a) (is_end a)) (body md rec (CAdd a b)).
Proof.
  intros a b. cbn [body].
  destruct a, b; cbn [add].
  all: try (rewrite sadd_l by reflexivity; exact I).
  all: try (cbn [is_end]; rewrite sadd_end by reflexivity; exact I).
  (* calls *)
  all: try (toih; exact H).
  all: try (toih; cbn [shape_of is_diff is_end sadd orb] in *; exact H).
  all: try (toih; change (shape_of (Addition a b)) with (sadd (shape_of a) (shape_of b) (is_diff a) (is_end a)) in *; exact H).
  all: try (match goal with |- kres _ (Err (CannotAdd _ (Moment _))) =>
         match goal with |- kres (sadd ?x _ _ _) _ => destruct x end; exact I end).
  (* Addition on the left *)
  all: try (match goal with |- kres (sadd (shape_of (Addition ?x ?y)) _ _ _) _ =>
         exact (add_a_o _ _ (CAdd x y) (ih_add x y)) end).
  (* Addition on the right *)
  all: try (match goal with |- kres (sadd ?k (shape_of (Addition ?x ?y)) _ _) (bind (rec (CAdd ?x ?y)) (fun v => rec (CAdd ?o v))) =>
         exact (add_o_a _ o (CAdd x y) (ih_add x y)) end).
  (* end_of on the left, Subtraction on the right *)
  all: try (cbn [is_end]; rewrite sadd_end by reflexivity;
     eapply bad_bind; [apply ih_calc|]; intros v Hv Hs; eapply bad_bind; [apply ih_add|];
     intros w Hw Hs'; exfalso; cbn [is_end] in Hs'; rewrite sadd_end in Hs' by reflexivity;
     destruct w; discriminate).
  (* Subtraction on the left *)
  all: match goal with |- kres (sadd (shape_of (Subtraction ?x ?y)) (shape_of ?o) _ _) _ =>
    pose proof (add_o_a _ o (CSub x y) (ih_sub x y)) as H;
    change (shape_of (Subtraction x y)) with (ssub (shape_of x) (shape_of y) (is_end x));
    revert H; generalize (ssub (shape_of x) (shape_of y) (is_end x)); intros k H;
    cbn [is_diff is_end] in *; 
    try change (shape_of (Subtraction b1 b2)) with (ssub (shape_of b1) (shape_of b2) (is_end b1)) in *
  end.
  all: try (destruct k; exact H).
  all: try (destruct k; cbn [sadd] in *; destruct (ssub _ _ _); cbn in *; exact H).
  all: rewrite sadd_l by reflexivity; rewrite sadd_end in H by reflexivity; exact H.
Qed.

Lemma body_kres_sub : forall a b, kres (ssub (shape_of a) (shape_of b) (is_end a)) (body md rec (CSub a b)).
Proof.
  intros a b. cbn [body].
  destruct a, b; cbn [sub].
  all: try (rewrite ssub_l by reflexivity; exact I).
  all: try (cbn [is_end]; rewrite ssub_end by reflexivity; exact I).
  all: try (toih; exact H).
  all: try (toih; cbn [shape_of is_diff is_end ssub orb] in *; exact H).
  all: try (match goal with |- kres (ssub (shape_of (Subtraction ?x ?y)) _ _) _ =>
         exact (sub_a_o _ _ (CSub x y) (ih_sub x y)) end).
  all: try (match goal with |- kres (ssub ?k (shape_of (Subtraction ?x ?y)) _) (bind (rec (CSub ?x ?y)) (fun v => rec (CSub ?o v))) =>
         exact (sub_o_a _ o (CSub x y) (ih_sub x y)) end).
  all: try (match goal with |- kres (ssub (shape_of (Addition ?x ?y)) _ _) _ =>
         exact (sub_a_o _ _ (CAdd x y) (ih_add x y)) end).
  all: (cbn [is_end]; rewrite ssub_end by reflexivity;
     eapply bad_bind; [apply ih_calc|]; intros v Hv Hs; eapply bad_bind; [apply ih_sub|];
     intros w Hw Hs'; exfalso; cbn [is_end] in Hs'; rewrite ssub_end in Hs' by reflexivity;
     destruct w; discriminate).
Qed.

Lemma body_kres : forall c, kres (kcall c) (body md rec c).
Proof.
  intro c. destruct c;
    try (apply body_kres_to; exact I);
    try (eapply body_kres_end; eauto 6; fail).
  - destruct t; cbn [body do_calculate kcall];
      try (match goal with |- kres _ (Ok _) => reflexivity end); toih; exact H.
  - exact (body_kres_add a b).
  - exact (body_kres_sub a b).
Qed.
End Body.

Theorem run_kres : forall md n c, kres (kcall c) (run md n c).
Proof.
  intros md n. induction n; intro c; [exact I|]. cbn [run]. apply body_kres. exact IHn.
Qed.
Theorem calculate_shape : forall md t, kres (shape_of t) (calculate md t).
Proof. intros. apply (run_kres md (S (size t)) (CCalc t)). Qed.

Lemma shape_amount : forall t, shape_of t = SAmount <-> amount_only t = true.
Proof.
  induction t; cbn [shape_of amount_only]; try (split; congruence);
    try (destruct (shape_of t); split; congruence).
  - rewrite andb_true_iff, <- IHt1, <- IHt2.
    destruct (shape_of t1), (shape_of t2), (is_diff t1 || is_end t1); split; intros; intuition congruence.
  - rewrite andb_true_iff, <- IHt1, <- IHt2.
    destruct (shape_of t1), (shape_of t2), (is_end t1); split; intros; intuition congruence.
Qed.

(** ** Evaluation equations *)
Lemma calc_value : forall md v, is_value v = true -> calculate md v = Ok v.
Proof. intros md v H. destruct v; try discriminate H; reflexivity. Qed.

Lemma calc_eq : forall md t, tt_ok t = true -> calculate md t = do_calculate (ev md) t.
Proof. intros md t H. rewrite calculate_ev. rewrite ev_eq by exact H. reflexivity. Qed.

Lemma calculate_good : forall md t, tt_ok t = true -> good md (calculate md t).
Proof. intros md t H. rewrite calculate_ev. apply ev_good. exact H. Qed.

Lemma calc_result_value : forall md t v, calculate md t = Ok v -> is_value v = true.
Proof.
  intros md t v H. pose proof (calculate_shape md t) as K. rewrite H in K. cbn in K. unfold is_value.
  destruct (shape_of t); [|destruct v; try discriminate K; reflexivity|contradiction].
  rewrite K. reflexivity.
Qed.
Lemma calc_idem : forall md t v, calculate md t = Ok v -> calculate md v = Ok v.
Proof. intros. apply calc_value. eapply calc_result_value; eassumption. Qed.

(** *** A moment as right operand *)
Lemma add_any_moment : forall md t m, tt_ok t = true -> dt_valid m = true ->
  calculate md (Addition t (Moment m)) = Err (CannotAdd t (Moment m)).
Proof.
  intros md t m Ht Hm. rewrite calc_eq by (cbn; rewrite Ht; exact Hm). cbn [do_calculate].
  rewrite ev_eq by (split; assumption). cbn [body].
  destruct t; cbn [add]; reflexivity.
Qed.

Lemma ev_value_sub_moment : forall md v m, is_value v = true -> tt_ok v = true -> dt_valid m = true ->
  ev md (CSub v (Moment m)) = Err (CannotSub v (Moment m)).
Proof.
  intros md v m Hv Ht Hm. rewrite ev_eq by (split; assumption). cbn [body].
  destruct v; try discriminate Hv; cbn [sub]; rewrite ev_eq by (first [exact I | exact Hm | split; assumption]); reflexivity.
Qed.

Lemma ev_ok_value : forall md c v, call_ok c -> ev md c = Ok v -> is_value v = true /\ tt_ok v = true.
Proof. intros md c v Hc H. pose proof (ev_good md c Hc) as G. rewrite H in G. exact G. Qed.

Lemma sub_any_moment : forall md t v m, tt_ok t = true -> dt_valid m = true -> is_end t = false ->
  calculate md t = Ok v ->
  calculate md (Subtraction t (Moment m)) = Err (CannotSub v (Moment m)).
Proof.
  intros md t v m Ht Hm He Hc. rewrite calc_eq by (cbn; rewrite Ht; exact Hm). cbn [do_calculate].
  pose proof (calculate_good md t Ht) as G. rewrite Hc in G. destruct G as [Hv Hok].
  rewrite calc_eq in Hc by assumption.
  destruct t; try discriminate He; cbn [do_calculate] in Hc;
    try (injection Hc as <-; apply ev_value_sub_moment; assumption).
  - rewrite ev_eq by (split; assumption). cbn [body sub]. rewrite Hc. cbn [bind].
    apply ev_value_sub_moment; assumption.
  - rewrite ev_eq by (split; assumption). cbn [body sub]. rewrite Hc. cbn [bind].
    apply ev_value_sub_moment; assumption.
Qed.

(** *** (moment-valued) - a + b *)
Lemma sub_then_add : forall md x a u n, tt_ok x = true -> tt_ok a = true -> in_i64 n = true ->
  calculate md (Addition (Subtraction x a) (mk u n)) =
  (do r <- calculate md (Subtraction x a); calculate md (Addition (mk u n) r)).
Proof.
  intros md x a u n Hx Ha Hn.
  assert (Hs : tt_ok (Subtraction x a) = true) by (cbn; rewrite Hx; exact Ha).
  assert (Hu : tt_ok (mk u n) = true) by (rewrite ok_mk; exact Hn).
  rewrite (calc_eq md (Addition (Subtraction x a) (mk u n))) by (cbn [tt_ok]; cbn [tt_ok] in Hs; rewrite Hs; exact Hu).
  rewrite (calc_eq md (Subtraction x a)) by exact Hs. cbn [do_calculate].
  rewrite ev_eq by (split; assumption). cbn [body].
  assert (E : add (ev md) (Subtraction x a) (mk u n) = bind (ev md (CSub x a)) (fun bx => ev md (CAdd (mk u n) bx))).
  { destruct u; reflexivity. }
  rewrite E. destruct (ev md (CSub x a)) as [r| | |] eqn:Er; reflexivity.
Qed.

(** ** Sub-seconds *)
Definition whole (r : result) : Prop :=
  match r with Ok (Moment m) => nano m = 0 | _ => True end.
Definition bare (c : call) : bool :=
  match c with CCalc t => is_value t | _ => false end.

Lemma whole_bind : forall {A} (x : outcome kek A) f, (forall a, x = Ok a -> whole (f a)) -> whole (bind x f).
Proof. intros A x f H. destruct x; cbn [bind]; try exact I. apply H. reflexivity. Qed.
Lemma whole_build : forall f, whole (build_moment f).
Proof.
  intros [[[[[y mo] d] h] mi] s]. unfold build_moment.
  destruct (from_ymd_opt _ _ _) as [nd|] eqn:H1; [|exact I].
  destruct (and_hms_opt _ _ _ _) as [dt|] eqn:H2; [|exact I].
  destruct (ymd_hms_valid _ _ _ _ _ _ _ _ H1 H2) as [-> _]. reflexivity.
Qed.
Lemma and_hms_opt_nano : forall nd h mi s dt, and_hms_opt nd h mi s = Some dt -> nano dt = 0.
Proof. intros nd h mi s dt H. apply and_hms_some in H. destruct H as [-> _]. reflexivity. Qed.

Lemma body_whole : forall md n c, (forall c, bare c = false -> whole (run md n c)) ->
  bare c = false -> whole (body md (run md n) c).
Proof.
  intros md n c IH Hc.
  assert (Hv : forall t v, run md n (CCalc t) = Ok v -> is_value v = true).
  { intros t v H. pose proof (run_kres md n (CCalc t)) as K. rewrite H in K. cbn in K. unfold is_value.
    destruct (shape_of t); [|destruct v; try discriminate K; reflexivity|contradiction].
    rewrite K. reflexivity. }
  destruct c; cbn [body].
  - destruct t; try discriminate Hc; cbn [do_calculate]; apply IH; reflexivity.
  - destruct a, b; cbn [add]; repeat (first [exact I | apply IH; reflexivity | apply whole_bind; intros ? _]).
  - destruct a, b; cbn [sub]; repeat (first [exact I | apply IH; reflexivity | apply whole_bind; intros ? _]).
  - apply whole_bind; intros v E. apply Hv in E. destruct v; try discriminate E; try exact I.
    apply whole_bind; intros nd _. unfold and_hms. destruct (and_hms_opt _ _ _ _) eqn:H2; [|exact I].
    apply and_hms_opt_nano in H2. exact H2.
  - apply whole_bind; intros v E. apply Hv in E. destruct v; try discriminate E; try exact I.
    apply whole_bind; intros nd _. unfold and_hms. destruct (and_hms_opt _ _ _ _) eqn:H2; [|exact I].
    apply and_hms_opt_nano in H2. exact H2.
  - apply whole_bind; intros v E. apply Hv in E. destruct v; try discriminate E; try exact I.
    apply whole_bind; intros nd _. unfold and_hms. destruct (and_hms_opt _ _ _ _) eqn:H2; [|exact I].
    apply and_hms_opt_nano in H2. exact H2.
  - apply whole_bind; intros v E. apply Hv in E. destruct v; try discriminate E; try exact I.
    apply whole_bind; intros dt H2. destruct (from_ymd_opt _ _ _); [|discriminate].
    destruct (and_hms_opt _ _ _ _) eqn:H3; [|discriminate]. injection H2 as <-.
    apply and_hms_opt_nano in H3. exact H3.
  - apply whole_bind; intros v E. apply Hv in E. destruct v; try discriminate E; try exact I.
    apply whole_bind; intros dt H2. destruct (from_ymd_opt _ _ _); [|discriminate].
    destruct (and_hms_opt _ _ _ _) eqn:H3; [|discriminate]. injection H2 as <-.
    apply and_hms_opt_nano in H3. exact H3.
  - destruct t; cbn [add_to_seconds]; repeat (first [exact I | apply IH; reflexivity | apply whole_bind; intros ? _]).
  - destruct t; cbn [add_to_minutes]; repeat (first [exact I | apply IH; reflexivity | apply whole_bind; intros ? _]).
  - destruct t; cbn [add_to_hours]; repeat (first [exact I | apply IH; reflexivity | apply whole_bind; intros ? _]).
  - destruct t; cbn [add_to_days]; repeat (first [exact I | apply IH; reflexivity | apply whole_bind; intros ? _]).
  - destruct t; cbn [add_to_months]; repeat (first [exact I | apply IH; reflexivity | apply whole_bind; intros ? _]).
  - destruct t; cbn [add_to_years]; repeat (first [exact I | apply IH; reflexivity | apply whole_bind; intros ? _]).
  - destruct t; cbn [add_to_moment]; repeat (first [apply whole_build | apply IH; reflexivity | apply whole_bind; intros ? _]); exact I.
  - destruct t; cbn [sub_from_seconds]; repeat (first [exact I | apply IH; reflexivity | apply whole_bind; intros ? _]).
  - destruct t; cbn [sub_from_minutes]; repeat (first [exact I | apply IH; reflexivity | apply whole_bind; intros ? _]).
  - destruct t; cbn [sub_from_hours]; repeat (first [exact I | apply IH; reflexivity | apply whole_bind; intros ? _]).
  - destruct t; cbn [sub_from_days]; repeat (first [exact I | apply IH; reflexivity | apply whole_bind; intros ? _]).
  - destruct t; cbn [sub_from_months]; repeat (first [exact I | apply IH; reflexivity | apply whole_bind; intros ? _]).
  - destruct t; cbn [sub_from_years]; repeat (first [exact I | apply IH; reflexivity | apply whole_bind; intros ? _]).
  - destruct t; cbn [sub_from_moment]; repeat (first [apply whole_build | apply IH; reflexivity | apply whole_bind; intros ? _]); exact I.
Qed.

Lemma run_whole : forall md n c, bare c = false -> whole (run md n c).
Proof.
  intros md n. induction n; intros c Hc; [exact I|]. cbn [run]. apply body_whole; assumption.
Qed.

Lemma calculate_whole : forall md t m, calculate md t = Ok (Moment m) -> is_moment t = false -> nano m = 0.
Proof.
  intros md t m H Ht. unfold calculate in H.
  pose proof (run_whole md (S (size t)) (CCalc t)) as W. rewrite H in W. apply W.
  cbn [bare]. unfold is_value. rewrite Ht. 
  destruct (is_a_amount t) eqn:Ha; [|reflexivity]. exfalso.
  destruct t; try discriminate Ha; discriminate H.
Qed.
