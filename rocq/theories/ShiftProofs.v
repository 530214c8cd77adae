(** Parts of seconds have no influence on evaluation; the calendar repeats every 400 years. *)
Require Import ZArith Bool List Lia ZifyBool.
From Verif Require Import Prelude Spec Chrono TimeType Iter SpecTree SpecMoment SpecIter SpecOver SpecWide SpecValue SpecAnswer SpecShift
  EvalProofs AnswerProofs2.
Local Open Scope Z_scope.

Section Over.
Variable f : datetime -> datetime.
Lemma over_secs : forall t, secs (over f t) = secs t.
Proof. induction t; cbn [over secs]; congruence. Qed.
Lemma over_finest : forall t, finest (over f t) = finest t.
Proof. induction t; cbn [over finest]; congruence. Qed.
Lemma over_fits : forall t, fits (over f t) = fits t.
Proof. induction t; cbn [over fits finest]; unfold count_fits; cbn [secs]; rewrite ?over_secs, ?over_finest; congruence. Qed.
Lemma over_end : forall t, is_end (over f t) = is_end t.
Proof. destruct t; reflexivity. Qed.
Lemma over_diff : forall t, is_diff (over f t) = is_diff t.
Proof. destruct t; reflexivity. Qed.
Lemma over_sum : forall t, is_sum (over f t) = is_sum t.
Proof. destruct t; reflexivity. Qed.
Lemma over_leaf : forall t, is_moment_leaf (over f t) = is_moment_leaf t.
Proof. destruct t; reflexivity. Qed.
Lemma over_coarse : forall t, coarse (over f t) = coarse t.
Proof. destruct t; reflexivity. Qed.
Lemma over_mk : forall u n, over f (mk u n) = mk u n.
Proof. destruct u; reflexivity. Qed.
Lemma over_or : forall A v (x y : A), moment_or_else (over f v) x y = moment_or_else v x y.
Proof. destruct v; reflexivity. Qed.
End Over.

(** ** Parts of seconds *)
Section Whole.
Variable md : mode.
Notation W := whole_second.
Notation RW := (result_over whole_second).
Lemma bind_over : forall (x : result) (g g' : timetype -> result), (forall v, g' (over W v) = RW (g v)) -> bind (RW x) g' = RW (bind x g).
Proof. intros [v|e|p|] g g' H; cbn; auto. Qed.
Lemma within_over : forall z g g', (forall x, g' x = RW (g x)) -> within md z g' = RW (within md z g).
Proof. intros z g g' H. unfold within. destruct (in_i64 z); [apply H|]. destruct md; [reflexivity|apply H]. Qed.
Lemma dated_over : forall n, RW (dated n) = dated n.
Proof. intros [[[[[y mo] d] h] mi] s]. unfold dated. destruct (representable _ _ _ && _ && _ && _); reflexivity. Qed.
Lemma numbers_whole : forall m u x, numbers_of (W m) u x = numbers_of m u x.
Proof. intros m []; reflexivity. Qed.
Lemma field_whole : forall m u, field u (W m) = field u m.
Proof. intros m []; reflexivity. Qed.
Lemma carried_over : forall n, RW (carried md n) = carried md n.
Proof.
  intros [[[[[y mo] d] h] mi] s]. unfold carried. destruct (carry_days _ _ _) as [mo' d']. unfold within.
  destruct (in_i64 mo').
  - destruct (12 <? mo'); apply dated_over.
  - destruct md; [reflexivity|]. destruct (12 <? wrap64 mo'); apply dated_over.
Qed.
Lemma forward_over : forall m u n, RW (forward md m u n) = forward md m u n.
Proof. intros. unfold forward, within. destruct (in_i64 _); [apply carried_over|]. destruct md eqn:E; [reflexivity|]. rewrite <- E. apply carried_over. Qed.
Lemma backward_over : forall m u n, RW (backward md m u n) = backward md m u n.
Proof. intros. unfold backward, within. destruct (in_i64 _); [apply dated_over|]. destruct md; [reflexivity|apply dated_over]. Qed.
Lemma forward_whole : forall m u n, forward md (W m) u n = forward md m u n.
Proof. intros. unfold forward. rewrite field_whole. unfold within. rewrite !numbers_whole. reflexivity. Qed.
Lemma backward_whole : forall m u n, backward md (W m) u n = backward md m u n.
Proof. intros. unfold backward. rewrite field_whole. unfold within. rewrite !numbers_whole. reflexivity. Qed.
Lemma amount_over : forall t, amount_of md (over W t) = RW (amount_of md t).
Proof.
  intro t. unfold amount_of. rewrite over_secs, over_finest, over_fits. destruct (fits t).
  - cbn [result_over]. rewrite over_mk. reflexivity.
  - destruct md; [reflexivity|]. cbn [result_over]. rewrite over_mk. reflexivity.
Qed.
Lemma plus_cases : forall v w, plus_values md v w =
  if is_moment_leaf w then Err (CannotAdd v w)
  else match v with Moment m => forward md m (finest w) (secs w / unit_secs (finest w)) | _ => amount_of md (Addition v w) end.
Proof. intros v w. destruct w; destruct v; reflexivity. Qed.
Lemma plus_over : forall v w, plus_values md (over W v) (over W w) = RW (plus_values md v w).
Proof.
  intros v w. rewrite !plus_cases, over_leaf, over_finest, over_secs. destruct (is_moment_leaf w); [reflexivity|].
  destruct v; cbn [over]; try (rewrite forward_whole, forward_over; reflexivity);
    match goal with |- _ = RW (amount_of md ?t) => exact (amount_over t) end.
Qed.
Lemma minus_cases : forall v w, minus_values md v w =
  if is_moment_leaf w then Err (CannotSub v w)
  else match v with Moment m => backward md m (finest w) (secs w / unit_secs (finest w)) | _ => amount_of md (Subtraction v w) end.
Proof. intros v w. destruct w; destruct v; reflexivity. Qed.
Lemma minus_over : forall v w, minus_values md (over W v) (over W w) = RW (minus_values md v w).
Proof.
  intros v w. rewrite !minus_cases, over_leaf, over_finest, over_secs. destruct (is_moment_leaf w); [reflexivity|].
  destruct v; cbn [over]; try (rewrite backward_whole, backward_over; reflexivity);
    match goal with |- _ = RW (amount_of md ?t) => exact (amount_over t) end.
Qed.
Lemma ended_over : forall k r, ended k (RW r) = RW (ended k r).
Proof. intros k [v|e|p|]; try reflexivity. cbn. destruct v, k; reflexivity. Qed.
Lemma ends_over : forall err a b, (forall x y, error_over W (err x y) = err (over W x) (over W y)) ->
  ends_named err (over W a) (over W b) = error_over W (ends_named err a b).
Proof. intros err a b H. unfold ends_named. rewrite !over_coarse. destruct (_ <=? _); symmetry; apply H. Qed.

Lemma or_over : forall v (x y x' y' : result), x' = RW x -> y' = RW y -> moment_or_else (over W v) x' y' = RW (moment_or_else v x y).
Proof. intros v x y x' y' -> ->. rewrite over_or. destruct v; reflexivity. Qed.

Lemma answer_over_n : forall n t, (size t < n)%nat -> answer md (over W t) = RW (answer md t).
Proof.
  induction n as [|n IH]; intros t Hn; [lia|].
  destruct t as [k|k|k|k|k|k|m|a b|a b|e|e|e|e|e]; try reflexivity; cbn [size] in Hn;
    try (cbn [over answer]; rewrite IH by lia; apply ended_over).
  - assert (Ha := IH a ltac:(lia)). assert (Hb := IH b ltac:(lia)). cbn [over answer].
    rewrite !over_leaf, !over_diff, !over_sum, !over_end.
    destruct (is_moment_leaf b) eqn:Eb; [reflexivity|].
    destruct (is_diff a) eqn:Ea.
    + destruct (is_sum b) eqn:Sb.
      * rewrite Hb. apply bind_over. intro w. apply or_over; [reflexivity|]. rewrite Ha. apply bind_over. intro v. apply plus_over.
      * rewrite Ha. apply bind_over. intro v. apply or_over; [reflexivity|]. destruct (is_end b); [reflexivity|].
        rewrite Hb. apply bind_over. intro w. apply plus_over.
    + destruct (is_end a) eqn:Na.
      * destruct b as [k|k|k|k|k|k|m|c d|c d|e|e|e|e|e]; cbn [over is_end]; try reflexivity; try discriminate Eb;
          try (match goal with |- _ = RW (Err (ends_named _ _ ?x)) => exact (f_equal Err (ends_over CannotAdd a x (fun _ _ => eq_refl))) end).
        -- cbn [over] in Hb. rewrite Hb. apply bind_over. intro w. rewrite over_or. destruct w; reflexivity.
        -- cbn [size] in Hn. rewrite (IH c) by lia. apply bind_over. intro w. rewrite over_or. destruct w; reflexivity.
      * rewrite Ha. apply bind_over. intro v. destruct (is_end b); [reflexivity|]. rewrite Hb. apply bind_over. intro w. apply plus_over.
  - assert (Ha := IH a ltac:(lia)). assert (Hb := IH b ltac:(lia)). cbn [over answer].
    rewrite !over_diff, !over_sum, !over_end.
    destruct (is_sum a && is_diff b) eqn:E.
    + rewrite Hb. apply bind_over. intro w. rewrite Ha. apply bind_over. intro v. apply minus_over.
    + destruct (is_end a) eqn:Na.
      * destruct b as [k|k|k|k|k|k|m|c d|c d|e|e|e|e|e]; cbn [over is_end]; try reflexivity;
          try (match goal with |- _ = RW (Err (ends_named _ _ ?x)) => exact (f_equal Err (ends_over CannotSub a x (fun _ _ => eq_refl))) end).
        -- cbn [size] in Hn. rewrite (IH c) by lia. apply bind_over. intro w. reflexivity.
        -- cbn [over] in Hb. rewrite Hb. apply bind_over. intro w. reflexivity.
      * rewrite Ha. apply bind_over. intro v. destruct (is_end b); [reflexivity|]. rewrite Hb. apply bind_over. intro w. apply minus_over.
Qed.
Lemma answer_over : forall t, answer md (over W t) = RW (answer md t).
Proof. intro t. exact (answer_over_n (S (size t)) t (Nat.lt_succ_diag_r _)). Qed.
End Whole.

(** Items of an iteration after the first. *)
Section Items.
Variables (md : mode) (inc : timetype).
Hypothesis Hinc : exists u n, inc = mk u n.
Notation W := whole_second.
Lemma inc_facts : is_moment_leaf inc = false /\ is_end inc = false /\ answer md inc = Ok inc /\ forall f, over f inc = inc.
Proof. destruct Hinc as (u & n & ->). destruct u; repeat split. Qed.
Lemma moment_plus : forall m, answer md (Addition (Moment m) inc) = forward md m (finest inc) (secs inc / unit_secs (finest inc)).
Proof. intro m. destruct Hinc as (u & n & ->). destruct u; reflexivity. Qed.
Definition failed (x : timetype) : Prop := is_sum x = true /\ result_over W (answer md x) = answer md x /\ forall v, answer md x <> Ok v.
Lemma failed_again : forall x, failed x -> answer md (Addition x inc) = answer md x.
Proof.
  intros x (S & _ & N). destruct inc_facts as (L & E & _). cbn [answer]. rewrite L. destruct x; try discriminate S.
  cbn [is_diff is_end]. destruct (answer md _) as [v| | |]; try reflexivity. elim (N v eq_refl).
Qed.
Lemma forward_moment : forall m u n v, forward md m u n = Ok v -> exists x, v = Moment x.
Proof.
  intros m u n v. unfold forward.
  assert (D : forall f, dated f = Ok v -> exists x, v = Moment x).
  { intros [[[[[y mo] d] h] mi] s]. unfold dated. destruct (_ && _ && _ && _); [|discriminate]. intros [= <-]. eexists. reflexivity. }
  assert (C : forall f, carried md f = Ok v -> exists x, v = Moment x).
  { intros [[[[[y mo] d] h] mi] s]. unfold carried. destruct (carry_days _ _ _) as [mo' d']. unfold within.
    destruct (in_i64 mo'); [destruct (12 <? mo'); apply D|]. destruct md; [discriminate|]. destruct (12 <? wrap64 mo'); apply D. }
  unfold within. destruct (in_i64 _); [apply C|]. destruct md eqn:E; [discriminate|]. rewrite <- E in *. exact (C _).
Qed.
Lemma held_kind : forall k m, (exists x, Nat.iter k (held md inc) (Moment m) = Moment x) \/ failed (Nat.iter k (held md inc) (Moment m)).
Proof.
  induction k as [|k IH]; intro m; [left; eexists; reflexivity|]. change (Nat.iter (S k) (held md inc) (Moment m)) with (held md inc (Nat.iter k (held md inc) (Moment m))).
  destruct (IH m) as [[x ->]|F].
  - unfold held. destruct (answer md (Addition (Moment x) inc)) as [v|e|p|] eqn:A.
    1: left; rewrite moment_plus in A; exact (forward_moment _ _ _ _ A).
    all: right; split; [reflexivity|]; rewrite A; split; [|discriminate]; try reflexivity; rewrite <- A, moment_plus; apply forward_over.
  - right. generalize dependent (Nat.iter k (held md inc) (Moment m)). intros x F. unfold held. pose proof (failed_again _ F) as G. destruct F as (_ & R & N).
    assert (F' : failed (Addition x inc)) by (split; [reflexivity|]; rewrite G; split; assumption).
    destruct (answer md (Addition x inc)) as [v|e|p|]; [elim (N v (eq_sym G))|exact F'..].
Qed.
Lemma held_over : forall x, held md inc (over W x) = over W (held md inc x).
Proof.
  intro x. unfold held. destruct inc_facts as (_ & _ & _ & I). pose proof (answer_over md (Addition x inc)) as A. cbn [over] in A. rewrite (I W) in A.
  rewrite A. destruct (answer md (Addition x inc)); cbn [result_over over]; rewrite ?I; reflexivity.
Qed.
Lemma iter_over : forall k m, Nat.iter k (held md inc) (Moment (W m)) = over W (Nat.iter k (held md inc) (Moment m)).
Proof.
  induction k as [|k IH]; intro m; [reflexivity|]. change (held md inc (Nat.iter k (held md inc) (Moment (W m))) = over W (held md inc (Nat.iter k (held md inc) (Moment m)))).
  rewrite IH. apply held_over.
Qed.
Lemma call_whole : forall k m, call_answer md (W m) inc (S k) = call_answer md m inc (S k).
Proof.
  intros k m. cbn [call_answer]. rewrite iter_over. destruct inc_facts as (_ & _ & _ & I).
  destruct (held_kind k m) as [[x ->]|F].
  - cbn [over]. rewrite !moment_plus. apply forward_whole.
  - pose proof (answer_over md (Addition (Nat.iter k (held md inc) (Moment m)) inc)) as A. cbn [over] in A. rewrite (I W) in A. rewrite A.
    rewrite (failed_again _ F). apply F.
Qed.
End Items.
