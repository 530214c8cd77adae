(** Exact conditions: ends before the moment, subtraction, rollback, sums of years. *)
Require Import ZArith Bool List Lia ZifyBool.
From Verif Require Import Prelude Spec Chrono Util TimeType Iter SpecTree SpecMoment SpecIter SpecExact PreludeProofs EvalProofs AmountProofs ShapeProofs CompProofs CalendarProofs
  AddProofs AddProofs2 SubProofs SubProofs2 EndProofs IterProofs IterProofs2 ExactProofs2.
Local Open Scope Z_scope.
Local Ltac Zify.zify_post_hook ::= Z.to_euclidean_division_equations.

Section Exact.
Variable md : mode.

Lemma end_back : forall k t m e, tt_ok t = true -> calculate md t = Ok (Moment m) -> calculate md (end_of k t) = Ok (Moment e) ->
  (inst e < inst m <-> 0 < sod m /\ match k with PYear => month m = 12 /\ day m = 31 | PMonth => day m = month_length (year m) (month m) | _ => False end).
Proof.
  intros k t m e Ht E F. destruct (end_inv _ _ _ _ _ Ht E F) as [-> V]. destruct (valid_facts m V) as (Vy & Vmo & Vd & Vml & Vh & Vmi & Vs).
  unfold inst, instant, sod, end_at. destruct k; cbn [year month day hour minute second].
  - pose proof (doy_bounds _ _ _ (valid_date m V)) as Dy. pose proof (days_before_13 (year m)) as Y13. pose proof (days_before_succ (year m) 12 ltac:(lia)) as S12.
    change (12 + 1) with 13 in S12. change (month_length (year m) 12) with 31 in S12. unfold day_number. split.
    + intro C. assert (E1 : days_before (year m) (month m) + day m = year_length (year m)) by lia. split; [lia|].
      destruct (Z.eq_dec (month m) 12) as [M12|N12]; [rewrite M12 in *; lia|exfalso]. pose proof (days_before_succ (year m) (month m) Vmo).
      pose proof (days_before_mono (year m) (month m + 1) 13 ltac:(lia) ltac:(lia) ltac:(lia)). lia.
    + intros (C & M12 & D31). rewrite M12, D31 in *. lia.
  - unfold day_number. lia.
  - unfold day_number. lia.
  - unfold day_number. lia.
  - unfold day_number. lia.
Qed.

Lemma sub_exact_iff : forall m u n m', dt_valid m = true -> clock_unit u = true -> 0 <= n < 2147483648 ->
  calculate md (Subtraction (Moment m) (mk u n)) = Ok (Moment m') ->
  (inst m' = inst m - n * unit_secs u <-> sub_exact u n m).
Proof.
  intros m u n m' Hm Hu Hn E. pose proof (sod_range m Hm) as Sr. destruct (valid_facts m Hm) as (Vy & Vmo & Vd & Vml & _).
  unfold sub_exact. set (L := let '(py, pm) := prev_month (year m) (month m) in month_length py pm).
  assert (Hc : (u <> UDay -> field u m - n <> - modulus u) \/ (u <> UDay /\ field u m - n = - modulus u)).
  { destruct (Z.eq_dec (field u m - n) (- modulus u)) as [Ee|Ne]; [|left; auto]. destruct u; try discriminate Hu; try (right; split; [discriminate|exact Ee]). left. tauto. }
  destruct Hc as [Hx|[Hd Hx]].
  - pose proof (sub_error md m u n m' Hm Hu Hn Hx E) as D. fold L in D. rewrite D.
    replace (sub_skips u n m) with false.
    + destruct (Z.leb_spec 1 (day m + (sod m - n * unit_secs u) / 86400)); lia.
    + symmetry. unfold sub_skips. destruct u; try reflexivity; apply Z.eqb_neq; apply Hx; discriminate.
  - replace (sub_skips u n m) with true by (symmetry; unfold sub_skips; destruct u; try (exfalso; apply Hd; reflexivity); try discriminate Hu; apply Z.eqb_eq; exact Hx).
    destruct (sub_clock md m u n Hm Hu Hd Hn) as (_ & A2 & _). cbv zeta in A2. rewrite (A2 Hx) in E.
    set (T := sod m - n * unit_secs u - modulus u * unit_secs u) in *.
    apply back_exact in E; [|exact Vmo|apply Z.mod_pos_bound; lia]. fold L in E. pose proof (Z.div_mod T 86400 ltac:(lia)) as Td.
    assert (Hl : 28 <= L <= 31).
    { subst L. unfold prev_month. destruct (Z.eqb_spec (month m) 1); apply month_length_bounds; lia. }
    assert (E' : inst m' = inst m - n * unit_secs u - modulus u * unit_secs u + (if 1 <=? day m + T / 86400 then 0 else 31 - L) * 86400).
    { rewrite E, inst_sod. unfold day_number. subst T. lia. }
    rewrite E'. clear E E' A2 Td. destruct u; try discriminate Hu; try contradiction; cbn [modulus unit_secs] in *.
    + split; [|intros [C _]; discriminate C]. destruct (1 <=? _); lia.
    + split; [|intros [C _]; discriminate C]. destruct (1 <=? _); lia.
    + replace (day m + T / 86400) with (day m + (sod m - n * 3600) / 86400 - 1).
      2:{ subst T. replace (sod m - n * 3600 - 24 * 3600) with (sod m - n * 3600 + (-1) * 86400) by ring. rewrite Z.div_add by discriminate. ring. }
      destruct (Z.leb_spec 1 (day m + (sod m - n * 3600) / 86400 - 1)) as [C|C]; split; intro G; [lia|lia|split; [reflexivity|lia]|lia].
Qed.

Lemma rollback_exact : forall m u n v it', dt_valid m = true -> 0 <= n < 2147483648 ->
  iter_next md (at_moment u n m true) = (Some (Ok v), it') ->
  (rollback md it' = (Ok tt, at_moment u n (whole_second m) true) <-> undone u n m).
Proof.
  intros m u n v it' Hm Hn H. assert (Hi : in_i64 n = true) by (apply in_i64_iff; unfold i64_min, i64_max; lia).
  rewrite next_later in H by reflexivity. unfold step, at_moment in H. cbn [base increment] in H.
  destruct (calculate md (Addition (Moment m) (mk u n))) as [w| | |] eqn:E; try discriminate H.
  injection H as -> <-.
  assert (Hv : exists m1, v = Moment m1).
  { pose proof (calculate_shape md (Addition (Moment m) (mk u n))) as K. rewrite E in K. cbn [shape_of] in K. rewrite shape_mk in K. cbn in K.
    destruct v; try discriminate K; try (exfalso; exact K); eexists; reflexivity. }
  destruct Hv as [m1 ->].
  rewrite <- (undo_exact md m u n Hm Hn). rewrite (round_comp md m u n m1 Hm Hi E).
  unfold rollback, recalculate, op_sub_assign, at_moment. cbn [base increment had_first].
  destruct (calculate md (Subtraction (Moment m1) (mk u n))) as [w| | |]; split; intro C; try discriminate C; [injection C as ->|injection C as ->]; reflexivity.
Qed.

Lemma years_twice : forall m a b, dt_valid m = true -> min_year <= year m + a <= max_year -> min_year <= year m + a + b <= max_year ->
  (calculate md (Addition (Addition (Moment m) (Years a)) (Years b)) = calculate md (Addition (Moment m) (Years (a + b))) <->
   ~ (month m = 2 /\ day m = 29 /\ leap (year m + a) = false /\ leap (year m + a + b) = true)).
Proof.
  intros m a b Hm Ha Hb. destruct (valid_facts m Hm) as (Vy & Vmo & Vd & Vml & Vh & Vmi & Vs).
  assert (Ia : in_i64 a = true) by (apply in_i64_iff; unfold min_year, max_year, i64_min, i64_max in *; lia).
  assert (Ib : in_i64 b = true) by (apply in_i64_iff; unfold min_year, max_year, i64_min, i64_max in *; lia).
  pose proof (add_years_in_range md m a Hm Ha) as E1. pose proof (add_years_in_range md m (a + b) Hm ltac:(lia)) as E2. rewrite E2.
  set (m1 := if (month m =? 2) && (day m =? 29) && negb (leap (year m + a)) then _ else _) in E1.
  assert (V1 : dt_valid m1 = true).
  { pose proof (calculate_good md (Addition (Moment m) (Years a))) as G. rewrite E1 in G. apply G. cbn. rewrite Hm. exact Ia. }
  assert (Y1 : year m1 = year m + a) by (subst m1; destruct (_ && _); reflexivity).
  assert (E3 : calculate md (Addition (Addition (Moment m) (Years a)) (Years b)) = calculate md (Addition (Moment m1) (Years b))).
  { destruct (calc_add_comp md (Addition (Moment m) (Years a)) (Years b)) as (C & _).
    - cbn. rewrite Hm, Ia. reflexivity.
    - exact Ib.
    - discriminate.
    - apply (C _ _ E1). reflexivity. }
  rewrite E3, (add_years_in_range md m1 b V1 ltac:(lia)). rewrite Y1. replace (year m + (a + b)) with (year m + a + b) by ring. subst m1.
  destruct (Z.eqb_spec (month m) 2) as [M2|N2]; [destruct (Z.eqb_spec (day m) 29) as [D29|N29]|]; cbn [andb].
  - destruct (leap (year m + a)) eqn:La, (leap (year m + a + b)) eqn:Lb; cbn [negb andb month day hour minute second Z.eqb Pos.eqb]; rewrite ?M2, ?D29; cbn [Z.eqb Pos.eqb andb].
    + split; [intros _ (_ & _ & C & _); discriminate C|reflexivity].
    + split; [intros _ (_ & _ & C & _); discriminate C|reflexivity].
    + split; [intro C; discriminate C|intro C; exfalso; tauto].
    + split; [intros _ (_ & _ & _ & C); discriminate C|reflexivity].
  - cbn [month day hour minute second]. replace (day m =? 29) with false by lia. rewrite andb_false_r. cbn [andb]. split; [intros _ C; tauto|reflexivity].
  - cbn [month day hour minute second]. replace (month m =? 2) with false by lia. cbn [andb]. split; [intros _ C; tauto|reflexivity].
Qed.
End Exact.
