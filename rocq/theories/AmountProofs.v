(** Amount-only expressions. *)
Require Import ZArith Bool List Lia ZifyBool.
From Verif Require Import Prelude Spec Chrono Util TimeType SpecTree SpecGetter PreludeProofs EvalProofs.
Local Open Scope Z_scope.

(** Outcome [r] stands for [e] seconds in unit [u]: exactly in a checked build, or a panic
    that requires the bound [B] to exceed i64; modulo 2^64 in a wrapping build. *)
Definition amt (md : mode) (u : tunit) (e B : Z) (r : result) : Prop :=
  match md with
  | Checked => (exists v, r = Ok (mk u v) /\ in_i64 v = true /\ v * unit_secs u = e) \/
               (r = Panic PArith /\ i64_max < B)
  | Wrapping => exists v k, r = Ok (mk u v) /\ in_i64 v = true /\
                  (v + k * 18446744073709551616) * unit_secs u = e
  end.

(** The same for i64 expressions. *)
Definition zr (md : mode) (e B : Z) (x : outcome kek Z) : Prop :=
  match md with
  | Checked => (x = Ok e /\ in_i64 e = true) \/ (x = Panic PArith /\ i64_max < B)
  | Wrapping => exists v k, x = Ok v /\ in_i64 v = true /\ v + k * 18446744073709551616 = e
  end.

Section Zr.
Variables (md : mode) (B : Z).

Lemma zr_ok : forall a, in_i64 a = true -> zr md a B (Ok a).
Proof. intros a H. destruct md; cbn; [left; auto|]. exists a, 0. repeat split; auto. lia. Qed.

Lemma zr_arith : forall e z, Z.abs e <= B ->
  (match md with Checked => z = e | Wrapping => exists k, z + k * 18446744073709551616 = e end) ->
  zr md e B (arith md z).
Proof.
  intros e z HB Hz. unfold arith. destruct (in_i64 z) eqn:Hi; destruct md; cbn.
  - subst z. left. auto.
  - destruct Hz as [k Hk]. exists z, k. auto.
  - right. split; [reflexivity|]. subst z. apply in_i64_false in Hi. unfold i64_min, i64_max in *. lia.
  - destruct Hz as [k Hk]. destruct (wrap64_congr z) as [j Hj].
    exists (wrap64 z), (k - j). repeat split; [apply in_i64_iff, wrap64_range|]. lia.
Qed.

Lemma zr_mul : forall e x k, zr md e B x -> Z.abs (e * k) <= B -> zr md (e * k) B (mulc md x k).
Proof.
  intros e x k H HB. unfold mulc. assert (Hc := zr_arith). destruct md; cbn in H.
  - destruct H as [[-> Hi]|[-> Hi]]; cbn [bind]; [|right; auto]. apply Hc; auto.
  - destruct H as (v & j & -> & Hi & Hv). cbn [bind]. apply Hc; auto. exists (j * k). lia.
Qed.
Lemma zr_add : forall e x f y, zr md e B x -> zr md f B y -> Z.abs (e + f) <= B ->
  zr md (e + f) B (addc md x y).
Proof.
  intros e x f y H H' HB. unfold addc. assert (Hc := zr_arith). destruct md; cbn in H, H'.
  - destruct H as [[-> Hi]|[-> Hi]]; cbn [bind]; [|right; auto].
    destruct H' as [[-> Hi']|[-> Hi']]; cbn [bind]; [|right; auto]. apply Hc; auto.
  - destruct H as (v & j & -> & Hi & Hv). destruct H' as (v' & j' & -> & Hi' & Hv').
    cbn [bind]. apply Hc; auto. exists (j + j'). lia.
Qed.
Lemma zr_sub : forall e x f y, zr md e B x -> zr md f B y -> Z.abs (e - f) <= B ->
  zr md (e - f) B (subc md x y).
Proof.
  intros e x f y H H' HB. unfold subc. assert (Hc := zr_arith). destruct md; cbn in H, H'.
  - destruct H as [[-> Hi]|[-> Hi]]; cbn [bind]; [|right; auto].
    destruct H' as [[-> Hi']|[-> Hi']]; cbn [bind]; [|right; auto]. apply Hc; auto.
  - destruct H as (v & j & -> & Hi & Hv). destruct H' as (v' & j' & -> & Hi' & Hv').
    cbn [bind]. apply Hc; auto. exists (j - j'). lia.
Qed.

Lemma zr_amt : forall u e x f e', zr md e B x -> (forall r, f r = Ok (mk u r)) ->
  e * unit_secs u = e' -> amt md u e' B (bind x f).
Proof.
  intros u e x f e' H Hf He. destruct md; cbn in *.
  - destruct H as [[-> Hi]|[-> Hi]]; cbn [bind]; [|right; auto]. left. rewrite Hf. eauto.
  - destruct H as (v & k & -> & Hi & Hv). cbn [bind]. rewrite Hf. exists v, k. subst. auto.
Qed.
End Zr.

(** Amount part of a call: (unit, value) for the i64 argument. *)
Definition den (c : call) : option (tunit * Z * Z) :=
  let p u n t (s : Z) := Some (finer u (finest t), n * unit_secs u + s * secs t,
                               Z.abs (n * unit_secs u) + abs_secs t) in
  match c with
  | CCalc t => Some (finest t, secs t, abs_secs t)
  | CAdd a b => Some (finer (finest a) (finest b), secs a + secs b, abs_secs a + abs_secs b)
  | CSub a b => Some (finer (finest a) (finest b), secs a - secs b, abs_secs a + abs_secs b)
  | CAddToSeconds n t => p USec n t 1
  | CAddToMinutes n t => p UMin n t 1
  | CAddToHours n t => p UHour n t 1
  | CAddToDays n t => p UDay n t 1
  | CAddToMonths n t => p UMonth n t 1
  | CAddToYears n t => p UYear n t 1
  | CSubFromSeconds n t => p USec n t (-1)
  | CSubFromMinutes n t => p UMin n t (-1)
  | CSubFromHours n t => p UHour n t (-1)
  | CSubFromDays n t => p UDay n t (-1)
  | CSubFromMonths n t => p UMonth n t (-1)
  | CSubFromYears n t => p UYear n t (-1)
  | _ => None
  end.
Definition amt_args (c : call) : Prop :=
  match c with
  | CCalc t => amount_only t = true
  | CAdd a b | CSub a b => amount_only a = true /\ amount_only b = true
  | CAddToSeconds n t | CAddToMinutes n t | CAddToHours n t | CAddToDays n t | CAddToMonths n t
  | CAddToYears n t | CSubFromSeconds n t | CSubFromMinutes n t | CSubFromHours n t
  | CSubFromDays n t | CSubFromMonths n t | CSubFromYears n t =>
      in_i64 n = true /\ amount_only t = true
  | _ => False
  end.
Definition amt_call (md : mode) (rec : call -> result) (c : call) : Prop :=
  match den c with
  | Some (u, e, B) => amt md u e B (rec c)
  | None => True
  end.

Lemma finer_mk : forall u n, finest (mk u n) = u. Proof. destruct u; reflexivity. Qed.
Lemma secs_mk : forall u n, secs (mk u n) = n * unit_secs u. Proof. destruct u; reflexivity. Qed.
Lemma abs_secs_mk : forall u n, abs_secs (mk u n) = Z.abs (n * unit_secs u).
Proof. destruct u; reflexivity. Qed.
Lemma size_mk : forall u n, size (mk u n) = 1%nat. Proof. destruct u; reflexivity. Qed.
Lemma ok_mk : forall u n, tt_ok (mk u n) = in_i64 n. Proof. destruct u; reflexivity. Qed.
Lemma amount_mk : forall u n, amount_only (mk u n) = true. Proof. destruct u; reflexivity. Qed.
Lemma finer_comm : forall u v, finer u v = finer v u. Proof. destruct u, v; reflexivity. Qed.
Lemma finer_assoc : forall u v w, finer u (finer v w) = finer (finer u v) w.
Proof. destruct u, v, w; reflexivity. Qed.
Lemma finer_div : forall u v, exists k, unit_secs u = k * unit_secs (finer u v).
Proof.
  intros u v. exists (unit_secs u / unit_secs (finer u v)). destruct u, v; reflexivity.
Qed.
Lemma unit_secs_pos : forall u, 1 <= unit_secs u. Proof. destruct u; cbn; lia. Qed.
Lemma secs_abs : forall t, Z.abs (secs t) <= abs_secs t.
Proof. induction t; cbn [secs abs_secs]; lia. Qed.

(** Sequencing: first [e1] seconds in [u1], then a call whose meaning is affine in them. *)
Lemma amt_bind : forall md u1 e1 B1 x f w e B g,
  amt md u1 e1 B1 x ->
  (forall v, in_i64 v = true -> amt md w (g (v * unit_secs u1)) (Z.abs (v * unit_secs u1) + B) (f (mk u1 v))) ->
  Z.abs e1 <= B1 -> 0 <= B ->
  (forall z, g z = g e1 + (z - e1) \/ g z = g e1 - (z - e1)) ->
  e = g e1 -> (exists v, w = finer u1 v) ->
  amt md w e (B1 + B) (bind x f).
Proof.
  intros md u1 e1 B1 x f w e B g Hx Hf HB HB0 Hg He [u2 Hw]. subst e. destruct md; cbn [amt] in *.
  - destruct Hx as [(v & -> & Hi & Hv)|[-> Hp]]; cbn [bind].
    + specialize (Hf v Hi). rewrite Hv in Hf. destruct Hf as [Hf|[Hf Hb]]; [left; exact Hf|].
      right. split; [exact Hf|]. lia.
    + right. split; [reflexivity|lia].
  - destruct Hx as (v & k & -> & Hi & Hv). cbn [bind].
    destruct (Hf v Hi) as (v' & k' & Hr & Hi' & Hv'). rewrite Hr. exists v'.
    destruct (finer_div u1 u2) as [r Hr']. rewrite <- Hw in Hr'.
    assert (Hz : v * unit_secs u1 - e1 = - (k * r * 18446744073709551616) * unit_secs w).
    { rewrite <- Hv, Hr'. ring. }
    destruct (Hg (v * unit_secs u1)) as [Hq|Hq]; rewrite Hq, Hz in Hv'.
    + exists (k' + k * r). repeat split; [assumption|]. lia.
    + exists (k' - k * r). repeat split; [assumption|]. lia.
Qed.

Lemma amt_weaken : forall md u e B B' r, amt md u e B r -> B <= B' -> amt md u e B' r.
Proof.
  intros md u e B B' r H HB. destruct md; cbn in *; [|exact H].
  destruct H as [H|[H1 H2]]; [left; exact H|right]. split; [exact H1|lia].
Qed.
Lemma amt_conv : forall md u e B r u' e' B', amt md u e B r -> u = u' -> e = e' -> B = B' ->
  amt md u' e' B' r.
Proof. intros. subst. assumption. Qed.

Section Body.
Variable md : mode.
Variable rec : call -> result.
Variable n : nat.
Hypothesis IH : forall c, call_ok c -> amt_args c -> (meas c < n)%nat -> amt_call md rec c.

Ltac okargs :=
  repeat match goal with
  | H : _ && _ = true |- _ => apply andb_true_iff in H; destruct H
  | H : _ /\ _ |- _ => destruct H
  | |- _ && _ = true => apply andb_true_iff
  | |- _ /\ _ => split
  end.
Ltac measure :=
  cbn [meas size] in *; rewrite ?size_mk in *;
  repeat match goal with
  | a : timetype |- _ => lazymatch goal with
      | _ : (1 <= size a)%nat |- _ => fail
      | _ => pose proof (size_pos a)
      end
  end;
  lia.
Ltac callIH :=
  match goal with |- amt _ _ _ _ (rec ?c) =>
    refine (IH c _ _ _);
      [ cbn [call_ok tt_ok] in *; rewrite ?ok_mk; okargs; auto
      | cbn [amt_args amount_only] in *; rewrite ?amount_mk; okargs; auto
      | measure ]
  end.
Ltac norm := cbn [finest secs abs_secs]; rewrite ?finer_mk, ?secs_mk, ?abs_secs_mk.
Ltac posabs :=
  repeat match goal with
  | a : timetype |- _ => lazymatch goal with
      | _ : Z.abs (secs a) <= abs_secs a |- _ => fail
      | _ => pose proof (secs_abs a)
      end
  end.
Ltac funit :=
  repeat match goal with |- context [finest ?a] => generalize (finest a); intro end;
  solve [ reflexivity | apply finer_comm | apply finer_assoc | symmetry; apply finer_assoc
        | rewrite finer_comm; apply finer_assoc
        | rewrite finer_comm; symmetry; apply finer_assoc
        | rewrite finer_comm, ?finer_assoc; reflexivity
        | repeat match goal with u : tunit |- _ => destruct u end; reflexivity ].
Ltac fin :=
  norm; try reflexivity;
  try (match goal with |- finer _ _ = finer _ _ => funit end);
  try (exists UYear; match goal with |- ?x = _ => destruct x; reflexivity end);
  try (match goal with |- exists v, finer ?a ?b = finer _ v =>
         first [exists b; funit | exists a; funit] end);
  try (posabs; lia).
Ltac one := eapply amt_conv; [callIH|fin ..].
Ltac seq g Bo :=
  match goal with |- amt md ?w _ _ _ =>
  eapply amt_conv;
  [ eapply (amt_bind md _ _ _ _ _ w _ Bo g);
    [ callIH
    | let v := fresh "v" in let Hv := fresh in intros v Hv; eapply amt_conv; [callIH|fin ..]
    | | | | reflexivity | ]
  |..] end; cbv beta; fin.

Ltac leaf :=
  eapply zr_amt;
  [ repeat first [apply zr_add | apply zr_sub | apply zr_mul | apply zr_ok; assumption]
  | intro; reflexivity | ].

Lemma body_amt_calc : forall t, call_ok (CCalc t) -> amt_args (CCalc t) -> (meas (CCalc t) < S n)%nat ->
  amt_call md (body md rec) (CCalc t).
Proof.
  intros t Hok Ha Hm. unfold amt_call. cbn [den body].
  assert (Hl : forall u v, in_i64 v = true -> amt md u (v * unit_secs u) (Z.abs (v * unit_secs u)) (Ok (mk u v))).
  { intros u v Hv. destruct md; cbn; [left; eauto|]. exists v, 0. repeat split; auto. lia. }
  destruct t; cbn [call_ok tt_ok amt_args amount_only do_calculate] in *; try discriminate;
    try (first [ exact (Hl USec _ Hok) | exact (Hl UMin _ Hok) | exact (Hl UHour _ Hok) | exact (Hl UDay _ Hok)
               | exact (Hl UMonth _ Hok) | exact (Hl UYear _ Hok)]); one.
Qed.

Lemma body_amt_add : forall a b, call_ok (CAdd a b) -> amt_args (CAdd a b) ->
  (meas (CAdd a b) < S n)%nat -> amt_call md (body md rec) (CAdd a b).
Proof.
  intros a b [Hoa Hob] [Ha Hb] Hm. unfold amt_call. cbn [den body].
  destruct a; try discriminate Ha; destruct b; try discriminate Hb; cbn [add];
    try (one; fail);
    first [ match goal with |- amt _ _ _ _ (bind (rec (CAdd ?x ?y)) (fun z => rec (CAdd z ?o))) =>
              seq (fun z => z + secs o) (abs_secs o) end
          | match goal with |- amt _ _ _ _ (bind (rec _) (fun z => rec (CAdd ?o z))) =>
              seq (fun z => secs o + z) (abs_secs o) end ].
Qed.
Lemma body_amt_sub : forall a b, call_ok (CSub a b) -> amt_args (CSub a b) ->
  (meas (CSub a b) < S n)%nat -> amt_call md (body md rec) (CSub a b).
Proof.
  intros a b [Hoa Hob] [Ha Hb] Hm. unfold amt_call. cbn [den body].
  destruct a; try discriminate Ha; destruct b; try discriminate Hb; cbn [sub];
    try (one; fail);
    first [ match goal with |- amt _ _ _ _ (bind (rec _) (fun z => rec (CSub z ?o))) =>
              seq (fun z => z - secs o) (abs_secs o) end
          | match goal with |- amt _ _ _ _ (bind (rec _) (fun z => rec (CSub ?o z))) =>
              seq (fun z => secs o - z) (abs_secs o) end ].
Qed.

Lemma body_amt_to : forall c, call_ok c -> amt_args c -> (meas c < S n)%nat ->
  match c with CCalc _ | CAdd _ _ | CSub _ _ => False | _ => True end ->
  amt_call md (body md rec) c.
Proof.
  intros c Hok Ha Hm Hc. unfold amt_call.
  destruct c; try contradiction; cbn [call_ok amt_args body den] in *; destruct Ha as [Hn Ha];
    destruct t; try discriminate Ha; cbn [tt_ok] in Hok;
    cbn [add_to_seconds add_to_minutes add_to_hours add_to_days add_to_months add_to_years
         sub_from_seconds sub_from_minutes sub_from_hours sub_from_days sub_from_months sub_from_years].
  all: try match goal with
    |- amt _ (finer ?u _) (?x + ?s * _) _ (bind _ (fun z => rec _)) => seq (fun z => x + s * z) (Z.abs x) end.
  all: leaf; cbn [finest secs abs_secs unit_secs finer Z.leb Z.compare Pos.compare Pos.compare_cont]; lia.
Qed.
End Body.

Theorem run_amt : forall md n c, call_ok c -> amt_args c -> (meas c < n)%nat ->
  amt_call md (run md n) c.
Proof.
  intro md. induction n; intros c Hok Ha Hm; [lia|].
  unfold amt_call. cbn [run].
  destruct c; try (exact (body_amt_calc md _ n IHn _ Hok Ha Hm));
    try (exact (body_amt_add md _ n IHn _ _ Hok Ha Hm));
    try (exact (body_amt_sub md _ n IHn _ _ Hok Ha Hm));
    try contradiction;
    refine (body_amt_to md _ n IHn _ Hok Ha Hm I).
Qed.

Theorem calculate_amt : forall md t, tt_ok t = true -> amount_only t = true ->
  amt md (finest t) (secs t) (abs_secs t) (calculate md t).
Proof.
  intros md t Hok Ha. unfold calculate.
  exact (run_amt md (S (size t)) (CCalc t) Hok Ha (Nat.lt_succ_diag_r _)).
Qed.

(** ** Consequences *)
Lemma mk_inj : forall u v n m, mk u n = mk v m -> u = v /\ n = m.
Proof. destruct u, v; cbn; intros n m [= ->]; auto. Qed.

Lemma calculate_amount_exact : forall md t, tt_ok t = true -> amount_only t = true ->
  abs_secs t <= i64_max ->
  exists v, calculate md t = Ok (mk (finest t) v) /\ v * unit_secs (finest t) = secs t.
Proof.
  intros md t Hok Ha HB. pose proof (calculate_amt md t Hok Ha) as H. destruct md; cbn in H.
  - destruct H as [(v & H1 & _ & H2)|[_ H]]; [eauto|lia].
  - destruct H as (v & k & H1 & H2 & H3). exists v. split; [assumption|].
    apply in_i64_iff in H2. pose proof (secs_abs t). pose proof (unit_secs_pos (finest t)).
    assert (Hk : Z.abs (v + k * 18446744073709551616) <= i64_max).
    { assert (Z.abs (v + k * 18446744073709551616) * unit_secs (finest t) <= i64_max); [|nia].
      rewrite <- (Z.abs_eq (unit_secs (finest t))), <- Z.abs_mul by lia. lia. }
    assert (k = 0) by (unfold i64_min, i64_max in *; lia). subst k.
    rewrite <- H3. f_equal. lia.
Qed.

Lemma amount_checked : forall t, tt_ok t = true -> amount_only t = true ->
  (exists v, calculate Checked t = Ok (mk (finest t) v) /\ v * unit_secs (finest t) = secs t) \/
  calculate Checked t = Panic PArith.
Proof.
  intros t Hok Ha. destruct (calculate_amt Checked t Hok Ha) as [(v & H1 & _ & H2)|[H _]]; eauto.
Qed.

Lemma amount_wrapping : forall t, tt_ok t = true -> amount_only t = true ->
  exists exact, exact * unit_secs (finest t) = secs t /\
    calculate Wrapping t = Ok (mk (finest t) (wrap64 exact)).
Proof.
  intros t Hok Ha. destruct (calculate_amt Wrapping t Hok Ha) as (v & k & H1 & H2 & H3).
  exists (v + k * 18446744073709551616). split; [assumption|].
  rewrite H1. f_equal. f_equal. unfold wrap64.
  replace (v + k * 18446744073709551616 + 9223372036854775808)
    with (v + 9223372036854775808 + k * 18446744073709551616) by ring.
  rewrite Z.mod_add by lia. apply in_i64_iff in H2. unfold i64_min, i64_max in H2.
  rewrite Z.mod_small; lia.
Qed.

Lemma amt_unique : forall md u e B r r', amt md u e B r -> amt md u e B r' ->
  (md = Wrapping \/ B <= i64_max) -> r = r'.
Proof.
  intros md u e B r r' H H' HB. pose proof (unit_secs_pos u). destruct md; cbn in *.
  - destruct HB as [|HB]; [discriminate|].
    destruct H as [(v & -> & _ & Hv)|[_ ?]]; [|lia]. destruct H' as [(v' & -> & _ & Hv')|[_ ?]]; [|lia].
    replace v' with v; [reflexivity|]. nia.
  - destruct H as (v & k & -> & Hi & Hv). destruct H' as (v' & k' & -> & Hi' & Hv').
    assert (v + k * 18446744073709551616 = v' + k' * 18446744073709551616) by nia.
    apply in_i64_iff in Hi, Hi'. unfold i64_min, i64_max in *.
    replace v' with v; [reflexivity|]. lia.
Qed.

Lemma amount_algebra : forall md a b c,
  tt_ok a = true -> tt_ok b = true -> tt_ok c = true ->
  amount_only a = true -> amount_only b = true -> amount_only c = true ->
  md = Wrapping \/ abs_secs a + abs_secs b + abs_secs c <= i64_max ->
  calculate md (Addition a b) = calculate md (Addition b a) /\
  calculate md (Addition (Addition a b) c) = calculate md (Addition a (Addition b c)) /\
  calculate md (Subtraction a (Subtraction b c)) = calculate md (Addition (Subtraction a b) c) /\
  calculate md (Subtraction a (Addition b c)) = calculate md (Subtraction (Subtraction a b) c).
Proof.
  intros md a b c Ha Hb Hc Ka Kb Kc HB.
  assert (Hpos : forall t, 0 <= abs_secs t) by (intro t; pose proof (secs_abs t); lia).
  assert (Hu : forall t t', tt_ok t = true -> tt_ok t' = true -> amount_only t = true ->
     amount_only t' = true -> finest t = finest t' -> secs t = secs t' -> abs_secs t = abs_secs t' ->
     md = Wrapping \/ abs_secs t <= i64_max ->
     calculate md t = calculate md t').
  { intros t t' H1 H2 H3 H4 H5 H6 H7 H8.
    eapply amt_unique; [apply calculate_amt; assumption| |exact H8].
    rewrite H5, H6, H7. apply calculate_amt; assumption. }
  pose proof (Hpos a). pose proof (Hpos b). pose proof (Hpos c).
  repeat split; apply Hu; cbn [tt_ok amount_only finest secs abs_secs];
    rewrite ?Ha, ?Hb, ?Hc, ?Ka, ?Kb, ?Kc; try reflexivity; try lia;
    try (destruct HB; [left; assumption|right; lia]);
    auto using finer_comm, finer_assoc.
Qed.

(** ** Getters *)
Lemma quotq : forall x a b c, 0 < a -> 0 < b -> c = a * b -> Z.quot (Z.quot x a) b = Z.quot x c.
Proof. intros. subst. apply Z.quot_quot; lia. Qed.
Lemma quot_mul : forall x a b c, 0 < b -> 0 < c -> a = c * b -> Z.quot (x * a) b = x * c.
Proof. intros. subst a. rewrite Z.mul_assoc. apply Z.quot_mul. lia. Qed.
Lemma quot_scale : forall x a b c, 0 < a -> 0 < c -> b = c * a -> Z.quot (x * a) b = Z.quot x c.
Proof. intros. subst b. rewrite (Z.mul_comm c a), (Z.mul_comm x a). apply Z.quot_mul_cancel_l; lia. Qed.

Lemma getter_exact : forall md u v n, in_i64 n = true ->
  in_i64 (Z.quot (n * unit_secs v) (unit_secs u)) = true ->
  getter md u (mk v n) = Ok (Z.quot (n * unit_secs v) (unit_secs u)).
Proof.
  intros md u v n Hn. rewrite in_i64_iff in *.
  destruct u, v; cbn [getter mk unit_secs get_seconds get_minutes get_hours get_days get_months get_years];
    unfold mulc, divc; cbn [bind]; intro Hq;
    match goal with
    | H : _ <= Z.quot (n * ?a) ?b <= _ |- _ =>
        let c := eval vm_compute in (a / b) in
        let d := eval vm_compute in (b / a) in
        first
        [ let e := eval vm_compute in (c * b =? a) in
          match e with true => rewrite (quot_mul n a b c) in * by lia end
        | let e := eval vm_compute in (d * a =? b) in
          match e with true => rewrite (quot_scale n a b d) in * by lia end ]
    end.
  all: unfold i64_min, i64_max in *.
  all: try (repeat (rewrite arith_ok by (unfold i64_min, i64_max; lia); cbn [bind]); f_equal; lia).
  all: f_equal; rewrite ?Z.quot_quot by lia; reflexivity.
Qed.

Lemma getter_zero : forall md u t, is_a_amount t = false -> getter md u t = Ok 0.
Proof. destruct t; intro H; try discriminate H; destruct u; reflexivity. Qed.

(** Out of range: a panic in checked builds. *)
Lemma getter_overflow : forall u v n, in_i64 n = true ->
  in_i64 (Z.quot (n * unit_secs v) (unit_secs u)) = false ->
  getter Checked u (mk v n) = Panic PArith.
Proof.
  intros u v n Hn. rewrite in_i64_iff in Hn. rewrite in_i64_false.
  assert (Hsm : forall a b, 0 < a -> a <= b ->
    i64_min <= Z.quot (n * a) b <= i64_max).
  { intros a b Ha Hb. rewrite (Z.mul_comm n a).
    assert (Z.abs (Z.quot (a * n) b) <= Z.abs n).
    { rewrite <- Z.quot_abs by lia. rewrite Z.abs_mul, (Z.abs_eq a), (Z.abs_eq b) by lia.
      rewrite Z.quot_div_nonneg by lia. apply Z.div_le_upper_bound; nia. }
    assert (n = i64_min \/ Z.abs n <= i64_max) as [->|] by (unfold i64_min, i64_max in *; lia).
    - unfold i64_min, i64_max in *. split; [lia|].
      replace (a * -9223372036854775808) with (- (a * 9223372036854775808)) by ring.
      rewrite Z.quot_opp_l by lia. assert (0 <= Z.quot (a * 9223372036854775808) b) by (apply Z.quot_pos; lia). lia.
    - unfold i64_min, i64_max in *. lia. }
  intro Hq.
  assert (Hlt : unit_secs u < unit_secs v).
  { destruct (Z_lt_le_dec (unit_secs u) (unit_secs v)); [assumption|].
    pose proof (Hsm (unit_secs v) (unit_secs u)). pose proof (unit_secs_pos v). lia. }
  clear Hsm.
  assert (Hp : forall z, (z < i64_min \/ i64_max < z) -> @arith kek Checked z = Panic PArith).
  { intros z Hz. unfold arith. apply in_i64_false in Hz. rewrite Hz. reflexivity. }
  destruct u, v; try (cbn in Hlt; lia);
    cbn [getter mk unit_secs get_seconds get_minutes get_hours get_days get_months get_years] in *;
    unfold mulc; cbn [bind];
    match goal with
    | H : Z.quot (n * ?a) ?b < _ \/ _ |- _ =>
        let c := eval vm_compute in (a / b) in
        rewrite (quot_mul n a b c) in H by lia
    end;
    repeat first
    [ match goal with |- context [arith Checked ?z] =>
        rewrite (Hp z) by (unfold i64_min, i64_max in *; lia); reflexivity end
    | match goal with |- context [arith Checked ?z] =>
        let E := fresh in destruct (in_i64 z) eqn:E;
        [ apply in_i64_iff in E; rewrite (arith_ok Checked z E); cbn [bind]
        | apply in_i64_false in E; rewrite (Hp z E); reflexivity ] end ].
Qed.
