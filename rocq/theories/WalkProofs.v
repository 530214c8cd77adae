(** Proofs about walks of a stepping iterator. *)
Require Import ZArith Bool List Lia.
From Verif Require Import Prelude Spec Chrono TimeType Iter SpecTree SpecMoment SpecIter SpecWalk EvalProofs CalendarProofs AddProofs AddProofs2 SubProofs IterProofs.
Import ListNotations.
Ltac Zify.zify_post_hook ::= Z.to_euclidean_division_equations.
Local Open Scope Z_scope.

Section Walk.
Variable md : mode.

Lemma call_inc : forall o it, increment (snd (call md o it)) = increment it.
Proof.
  intros o [b i h]. destruct o; unfold call.
  - destruct (next_some md (mkiter b i h)) as (r & _ & _ & H). destruct (iter_next md (mkiter b i h)). exact H.
  - unfold skip, recalculate. cbn [base increment had_first]. destruct (calculate md (op_add_assign b i)); reflexivity.
  - unfold rollback, recalculate. cbn [base increment had_first]. destruct (calculate md (op_sub_assign b i)); reflexivity.
Qed.
Lemma perform_inc : forall o it, increment (snd (perform md o it)) = increment it.
Proof.
  intros o it. rewrite <- (call_inc o it). destruct o; unfold perform, call; [destruct (iter_next md it)|destruct (skip md it)|destruct (rollback md it)]; reflexivity.
Qed.
Lemma performs_inc : forall os it, get_increment (performs md os it) = get_increment it.
Proof. induction os as [|o os IH]; intro it; cbn [performs]; [reflexivity|]. rewrite IH. apply perform_inc. Qed.

Section General.
Variable at_step : Z -> datetime.
Variable inc : timetype.
Variable inside : Z -> Prop.
Hypothesis go : forall p, inside p -> inside (p + 1) -> calculate md (Addition (Moment (at_step p)) inc) = Ok (Moment (at_step (p + 1))).
Hypothesis back : forall p, inside p -> inside (p - 1) -> calculate md (Subtraction (Moment (at_step p)) inc) = Ok (Moment (at_step (p - 1))).

Lemma walked : forall os started p, inside p -> Forall inside (places started p os) ->
  replies md os (mkiter (Moment (at_step p)) inc started) = walk at_step started p os.
Proof.
  induction os as [|o os IH]; intros started p Hp Hq; [reflexivity|]. cbn [replies walk places] in *. inversion Hq as [|x l Hx Hl]; subst.
  destruct o; cbn [steps starts] in *; unfold call.
  - destruct started.
    + rewrite next_later by reflexivity. unfold IterProofs.step. cbn [base increment]. rewrite (go p Hp Hx). cbn [fst snd]. rewrite IH by assumption. reflexivity.
    + rewrite next_first by reflexivity. cbn [base increment fst snd]. rewrite Z.add_0_r in *. rewrite IH by assumption. reflexivity.
  - unfold skip, recalculate, op_add_assign. cbn [base increment had_first]. rewrite (go p Hp Hx). cbn [fst snd]. rewrite IH by assumption. reflexivity.
  - unfold rollback, recalculate, op_sub_assign. cbn [base increment had_first]. rewrite (back p Hp Hx). cbn [fst snd]. rewrite IH by assumption. reflexivity.
Qed.
End General.

Lemma exists_28 : forall y mo d, 1 <= mo <= 12 -> 1 <= d <= 28 -> date_exists y mo d = true.
Proof. intros y mo d H1 H2. pose proof (month_length_bounds y mo H1). unfold date_exists. rewrite !andb_true_iff, !Z.leb_le. lia. Qed.

Lemma away_valid : forall y mo d m, dt_valid m = true -> min_year <= y <= max_year -> date_exists y mo d = true ->
  dt_valid (mkdt y mo d (hour m) (minute m) (second m) 0) = true.
Proof.
  intros y mo d m Hm Hy Hd. apply dt_valid_iff in Hm. apply dt_valid_iff. cbn [year month day hour minute second nano]. intuition lia.
Qed.
Lemma built_away : forall y mo d x, dt_valid x = true -> min_year <= y <= max_year -> date_exists y mo d = true ->
  built y mo d (sod x) = Ok (Moment (mkdt y mo d (hour x) (minute x) (second x) 0)).
Proof.
  intros y mo d x Hx Hy Hd. unfold built. replace (representable y mo d) with true by (symmetry; apply representable_iff; auto).
  rewrite at_sod by exact Hx. reflexivity.
Qed.

Definition months_inside (m : datetime) (n p : Z) : Prop := min_year * 12 <= year m * 12 + month m - 1 + p * n <= max_year * 12 + 11.
Lemma walk_months : forall m n it os, dt_valid m = true -> nano m = 0 -> day m <= 28 -> 0 <= n <= 12 -> build m (Months n) = Ok it ->
  Forall (fun p => min_year <= year (months_away m n p) <= max_year) (places false 0 os) ->
  replies md os it = walk (months_away m n) false 0 os.
Proof.
  intros m n it os Hm Hz Hd Hn Hb Hp. injection Hb as <-. destruct (valid_facts m Hm) as (Vy & Vmo & Vd & _).
  assert (M0 : m = months_away m n 0).
  { destruct m as [y mo d h mi s na]; cbn in *. subst na. unfold months_away. cbn [year month day hour minute second]. f_equal; lia. }
  unfold moment. rewrite M0 at 1.
  set (inside := fun p => min_year <= year (months_away m n p) <= max_year).
  assert (V : forall p, inside p -> dt_valid (months_away m n p) = true).
  { intros p H. unfold inside, months_away in *. cbn [year] in H. apply away_valid; [exact Hm|exact H|apply exists_28; lia]. }
  apply (walked (months_away m n) (Months n) inside); [| | |exact Hp].
  - intros p H1 H2. pose proof (V p H1) as Vp. unfold inside, months_away in H1, H2. cbn [year] in H1, H2.
    rewrite (add_months_same_day md (months_away m n p) n (year (months_away m n (p + 1))) (month (months_away m n (p + 1))));
      [reflexivity|exact Vp|exact Hd|lia| | |]; unfold months_away; cbn [year month]; lia.
  - intros p H1 H2. pose proof (V p H1) as Vp. pose proof (V _ H2) as Vq. unfold inside, months_away in H1, H2. cbn [year] in H1, H2.
    destruct (sub_months md (months_away m n p) n Vp ltac:(lia)) as (A & B & _). cbv zeta in A, B.
    assert (W : forall y mo, y = year (months_away m n (p - 1)) -> mo = month (months_away m n (p - 1)) ->
      built y mo (day (months_away m n p)) (sod (months_away m n p)) = Ok (Moment (months_away m n (p - 1)))).
    { intros y mo -> ->. rewrite built_away; [reflexivity|exact Vp|unfold months_away; cbn [year]; lia|].
      apply exists_28; unfold months_away; cbn [month day]; lia. }
    destruct (Z_le_gt_dec 1 (month (months_away m n p) - n)) as [L|L].
    + rewrite (A L). apply W; unfold months_away in *; cbn [year month] in *; lia.
    + rewrite B by (unfold months_away in *; cbn [month] in *; lia). apply W; unfold months_away in *; cbn [year month] in *; lia.
  - unfold inside. rewrite <- M0. exact Vy.
Qed.

Lemma walk_years : forall m n it os, dt_valid m = true -> nano m = 0 -> ~ (month m = 2 /\ day m = 29) -> in_i64 n = true -> build m (Years n) = Ok it ->
  Forall (fun p => min_year <= year m + p * n <= max_year) (places false 0 os) ->
  replies md os it = walk (years_away m n) false 0 os.
Proof.
  intros m n it os Hm Hz Hf Hn Hb Hp. injection Hb as <-. destruct (valid_facts m Hm) as (Vy & Vmo & Vd & Vl & _).
  assert (M0 : m = years_away m n 0).
  { destruct m as [y mo d h mi s na]; cbn in *. subst na. unfold years_away. cbn [year month day hour minute second]. f_equal; lia. }
  unfold moment. rewrite M0 at 1.
  assert (X : forall y, date_exists y (month m) (day m) = true).
  { intro y. unfold date_exists. rewrite !andb_true_iff, !Z.leb_le. repeat split; try lia.
    assert (C : month m = 2 \/ month_length y (month m) = month_length (year m) (month m)).
    { assert (K : month m = 1 \/ month m = 2 \/ month m = 3 \/ month m = 4 \/ month m = 5 \/ month m = 6 \/ month m = 7 \/ month m = 8 \/ month m = 9 \/
        month m = 10 \/ month m = 11 \/ month m = 12) by lia.
      repeat (destruct K as [K|K]; [rewrite K; tauto|]). rewrite K. tauto. }
    destruct C as [C|C]; [|lia]. assert (day m <> 29) by tauto. rewrite C in *.
    assert (F : forall x, month_length x 2 = if leap x then 29 else 28) by reflexivity. rewrite !F in *. destruct (leap y), (leap (year m)); lia. }
  set (inside := fun p => min_year <= year m + p * n <= max_year).
  assert (V : forall p, inside p -> dt_valid (years_away m n p) = true).
  { intros p H. unfold inside in *. apply away_valid; [exact Hm|exact H|apply X]. }
  apply (walked (years_away m n) (Years n) inside); [| | |exact Hp].
  - intros p H1 H2. rewrite add_years_in_range; [|exact (V p H1)|unfold inside, years_away in *; cbn [year]; lia].
    unfold years_away. cbn [year month day hour minute second].
    replace ((month m =? 2) && (day m =? 29) && negb (leap (year m + p * n + n))) with false.
    + do 3 f_equal. lia.
    + symmetry. destruct (month m =? 2) eqn:E1; [|reflexivity]. destruct (day m =? 29) eqn:E2; [|reflexivity]. exfalso. apply Hf. split; lia.
  - intros p H1 H2. rewrite sub_years; [|exact (V p H1)|exact Hn|unfold inside, years_away, min_year, max_year, i64_min, i64_max in *; cbn [year]; lia].
    unfold inside in H1, H2. replace (year (years_away m n p) - n) with (year m + (p - 1) * n) by (unfold years_away; cbn [year]; lia).
    replace (wrap32 (year m + (p - 1) * n)) with (year m + (p - 1) * n) by (unfold wrap32, min_year, max_year in *; lia).
    rewrite built_away; [reflexivity|exact (V p H1)|exact H2|apply X].
  - unfold inside. lia.
Qed.

Lemma walk_clock : forall m u n it os, dt_valid m = true -> nano m = 0 -> clock_unit u = true -> 0 <= n -> (u <> UDay -> n < modulus u) ->
  in_i64 n = true -> build m (mk u n) = Ok it ->
  Forall (fun p => 1 <= day_away m u n p <= month_length (year m) (month m)) (places false 0 os) ->
  replies md os it = walk (time_away m u n) false 0 os.
Proof.
  intros m u n it os Hm Hz Hu Hn0 Hn Hi Hb Hp. assert (Ei : it = mkiter (Moment m) (mk u n) false) by (destruct u; injection Hb as <-; reflexivity). subst it.
  destruct (valid_facts m Hm) as (Vy & Vmo & Vd & Vl & Vh & Vmi & Vs). pose proof (sod_range m Hm) as Sr.
  set (s := n * unit_secs u) in *.
  assert (Hs : 0 <= s) by (subst s; destruct u; cbn; lia).
  assert (M0 : m = time_away m u n 0).
  { destruct m as [y mo d h mi sc na]; cbn in *. subst na. unfold time_away, day_away, at_time. cbn [year month day].
    unfold sod in *. cbn [hour minute second] in *. fold s. rewrite Z.mul_0_l, Z.add_0_r. f_equal; lia. }
  pose proof M0 as M1. rewrite M0 at 1. clear M0.
  set (inside := fun p => 1 <= day_away m u n p <= month_length (year m) (month m)).
  assert (R : forall p, 0 <= (sod m + p * s) mod 86400 < 86400) by (intro p; apply Z.mod_pos_bound; lia).
  assert (P : forall p, inside p -> representable (year m) (month m) (day_away m u n p) = true).
  { intros p H. apply representable_iff. split; [exact Vy|]. unfold inside in H. unfold date_exists. rewrite !andb_true_iff, !Z.leb_le. lia. }
  assert (V : forall p, inside p -> dt_valid (time_away m u n p) = true).
  { intros p H. apply at_valid; [apply R|apply P; exact H]. }
  assert (I : forall p, inst (time_away m u n p) = day_number (year m) (month m) (day m) * 86400 + sod m + p * s).
  { intro p. unfold time_away. rewrite inst_at by apply R. fold s. unfold day_away. fold s.
    assert (E : day_number (year m) (month m) (day m + (sod m + p * s) / 86400) = day_number (year m) (month m) (day m) + (sod m + p * s) / 86400) by (unfold day_number; lia).
    rewrite E. pose proof (Z.div_mod (sod m + p * s) 86400). lia. }
  assert (D : forall p, sod (time_away m u n p) = (sod m + p * s) mod 86400).
  { intro p. pose proof (R p). unfold time_away, at_time, sod at 1. cbn [hour minute second]. fold s. lia. }
  apply (walked (time_away m u n) (mk u n) inside); [| | |exact Hp].
  - intros p H1 H2.
    assert (E1 : inst (time_away m u n p) + s = inst (time_away m u n (p + 1))) by (rewrite !I; lia).
    destruct (add_clock_exact md (time_away m u n p) u n (V p H1) Hu Hn0) as (x & E & Vx & Nx & Ix).
    + fold s. rewrite E1. pose proof (inst_year_end _ (V _ H2)) as B. change (year (time_away m u n p)) with (year m). change (year (time_away m u n (p + 1))) with (year m) in B.
      unfold instant in *. rewrite day_number_jan in *. lia.
    + fold s. rewrite E1. apply inst_max. apply V. exact H2.
    + rewrite E. do 2 f_equal. pose proof (inst_inj x (time_away m u n (p + 1)) Vx (V _ H2)) as J.
      rewrite Ix, !I in J. fold s in J. specialize (J ltac:(lia)). destruct x; cbn in *. subst. exact J.
  - intros p H1 H2. unfold inside in H1, H2.
    assert (G : day_away m u n p + ((sod m + p * s) mod 86400 - s) / 86400 = day_away m u n (p - 1)).
    { unfold day_away. fold s. replace ((p - 1) * s) with (p * s - s) by lia. set (N := p * s). clearbody N. lia. }
    assert (G' : ((sod m + p * s) mod 86400 - s) mod 86400 = (sod m + (p - 1) * s) mod 86400).
    { replace ((p - 1) * s) with (p * s - s) by lia. set (N := p * s). clearbody N. lia. }
    assert (W : built (year m) (month m) (day_away m u n (p - 1)) ((sod m + (p - 1) * s) mod 86400) = Ok (Moment (time_away m u n (p - 1)))).
    { unfold built. rewrite (P (p - 1) H2). reflexivity. }
    assert (Hd : u = UDay \/ u <> UDay) by (destruct u; (left; reflexivity) || (right; discriminate)). destruct Hd as [Hd|Hd].
    + destruct (sub_days md (time_away m u n p) n (V p H1)) as (A & _).
      { assert (s = n * 86400) by (subst s; rewrite Hd; reflexivity). pose proof (month_length_bounds (year m) (month m) Vmo). unfold day_away in H1, H2. fold s in H1, H2.
        replace ((p - 1) * s) with (p * s - n * 86400) in H2 by lia. set (N := p * s) in *. clearbody N. clear - H1 H2 H0 Hn0. lia. }
      cbv zeta in A. change (day (time_away m u n p)) with (day_away m u n p) in A.
      assert (E : day_away m u n p - n = day_away m u n (p - 1)).
      { unfold day_away. assert (E : n * unit_secs u = n * 86400) by (rewrite Hd; reflexivity). rewrite E. replace ((p - 1) * (n * 86400)) with (p * (n * 86400) - n * 86400) by ring.
        set (N := p * (n * 86400)). clearbody N. clear. lia. }
      assert (E' : (sod m + p * s) mod 86400 = (sod m + (p - 1) * s) mod 86400).
      { assert (Es : s = n * 86400) by (subst s; rewrite Hd; reflexivity). rewrite Es. replace ((p - 1) * (n * 86400)) with (p * (n * 86400) - n * 86400) by ring.
        set (N := p * (n * 86400)). clearbody N. clear. lia. }
      replace (mk u n) with (Days n) by (rewrite Hd; reflexivity). rewrite A by (rewrite E; lia). rewrite D, E, E'.
      change (year (time_away m u n p)) with (year m). change (month (time_away m u n p)) with (month m).
      unfold back_day. replace (1 <=? day_away m u n (p - 1)) with true by lia. exact W.
    + destruct (sub_clock md (time_away m u n p) u n (V p H1) Hu Hd) as (A & _); [pose proof (Hn Hd); assert (modulus u <= 60) by (destruct u; cbn; lia); lia|]. cbv zeta in A.
      rewrite A by (pose proof (Hn Hd); destruct (valid_facts _ (V p H1)) as (_ & _ & _ & _ & F1 & F2 & F3); destruct u; try discriminate Hu; try (exfalso; apply Hd; reflexivity); cbn [field]; lia).
      rewrite D. fold s. change (day (time_away m u n p)) with (day_away m u n p). rewrite G, G'.
      change (year (time_away m u n p)) with (year m). change (month (time_away m u n p)) with (month m).
      unfold back_day. replace (1 <=? day_away m u n (p - 1)) with true by lia. exact W.
  - unfold inside. unfold day_away. rewrite Z.mul_0_l, Z.add_0_r. rewrite Z.div_small by lia. lia.
Qed.
End Walk.

Lemma away_inst : forall m u n p, inst (time_away m u n p) = inst m + p * (n * unit_secs u).
Proof.
  intros m u n p. unfold time_away. rewrite inst_at by (apply Z.mod_pos_bound; lia). rewrite inst_sod. unfold day_away, day_number.
  set (T := p * (n * unit_secs u)). clearbody T. lia.
Qed.
