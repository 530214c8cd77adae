(** Exact conditions for C11, C16, C22, C24 and C40 with amounts of any size. *)
Require Import ZArith Bool List Lia ZifyBool.
From Verif Require Import Prelude Spec Chrono Util TimeType Iter SpecTree SpecMoment SpecIter SpecExact SpecSeq SpecWide SpecFar PreludeProofs EvalProofs AmountProofs
  ShapeProofs CompProofs CalendarProofs AddProofs AddProofs2 SubProofs SubProofs2 EndProofs IterProofs DocProofs NegProofs ExactProofs ExactProofs2 ExactProofs3 WideProofs WideProofs2.
Local Open Scope Z_scope.
Local Ltac Zify.zify_post_hook ::= Z.to_euclidean_division_equations.

Lemma all_instants : forall m, dt_valid m = true -> -8300000000000 < inst m < 8400000000000.
Proof.
  intros m Hm. pose proof (inst_max m Hm) as U. pose proof (inst_low m Hm) as L.
  replace (instant (max_year + 1) 1 1 0 0 0) with 8272434096000 in U by (vm_compute; reflexivity).
  replace (instant min_year 1 1 0 0 0) with (-8272497168000) in L by (vm_compute; reflexivity). lia.
Qed.

Lemma parts_of_sod : forall m, dt_valid m = true -> sod m / 3600 = hour m /\ sod m mod 3600 / 60 = minute m /\ sod m mod 60 = second m.
Proof. intros m Hm. destruct (valid_facts m Hm) as (_ & _ & _ & _ & Vh & Vmi & Vs). unfold sod. lia. Qed.

Section Far.
Variable md : mode.

(** ** C11: no bound on the amount *)
Lemma moment_valid : forall t m', tt_ok t = true -> calculate md t = Ok (Moment m') -> dt_valid m' = true.
Proof. intros t m' Ht E. pose proof (calculate_good md t Ht) as G. rewrite E in G. apply G. Qed.
Lemma plus_ok : forall m u n, dt_valid m = true -> in_i64 n = true -> tt_ok (Addition (Moment m) (mk u n)) = true.
Proof. intros m u n Hm Hn. cbn. rewrite Hm. destruct u; exact Hn. Qed.
Lemma minus_ok : forall m u n, dt_valid m = true -> in_i64 n = true -> tt_ok (Subtraction (Moment m) (mk u n)) = true.
Proof. intros m u n Hm Hn. cbn. rewrite Hm. destruct u; exact Hn. Qed.

Lemma add_exact_every : forall m u n, dt_valid m = true -> clock_unit u = true -> 0 <= n -> in_i64 n = true ->
  ((exists m', calculate md (Addition (Moment m) (mk u n)) = Ok (Moment m') /\ inst m' = inst m + n * unit_secs u) <->
   lands (year m + 1) (days_past u n m) /\ inst m + n * unit_secs u < instant (max_year + 1) 1 1 0 0 0).
Proof.
  intros m u n Hm Hu Hn Hi. destruct (Z_le_gt_dec (n * unit_secs u) span32) as [L|G]; [apply add_exact_iff; assumption|].
  pose proof (all_instants m Hm) as I. unfold span32 in G. split.
  - intros (m' & E & E'). pose proof (all_instants m' (moment_valid _ _ (plus_ok m u n Hm Hi) E)). lia.
  - intros [_ C]. replace (instant (max_year + 1) 1 1 0 0 0) with 8272434096000 in C by (vm_compute; reflexivity). lia.
Qed.

(** ** C16: whenever the target can be represented *)
Lemma add_negative_every : forall m u n, dt_valid m = true -> clock_unit u = true -> n < 0 -> instant min_year 1 1 0 0 0 <= inst m + n * unit_secs u ->
  let r := calculate md (Addition (Moment m) (mk u n)) in
  oob r \/ exists m', r = Ok (Moment m') /\ dt_valid m' = true /\ nano m' = 0 /\ inst m' = inst m + n * unit_secs u.
Proof.
  intros m u n Hm Hu Hn Ht r. pose proof (all_instants m Hm) as I. replace (instant min_year 1 1 0 0 0) with (-8272497168000) in Ht by (vm_compute; reflexivity).
  destruct (valid_facts m Hm) as (Vy & Vmo & Vd & Vml & _). pose proof (sod_range m Hm) as Sr.
  assert (Hu1 : 1 <= unit_secs u) by (destruct u; cbn; lia).
  assert (Hb : -20000000000000 <= n * unit_secs u) by lia.
  assert (Hn1 : -20000000000000 <= n) by nia.
  destruct (add_negative_wide md m u n Hm Hu ltac:(unfold i64_min; lia)) as [A B]. fold r in A, B. cbv zeta in A, B.
  destruct (no_borrow u m (sod m + n * unit_secs u)) eqn:NB; [|left; apply B; reflexivity]. rewrite A by reflexivity. clear A B NB r.
  set (T := sod m + n * unit_secs u) in *. set (D := day m + T / 86400).
  assert (HD : -300000000 <= D <= 31) by (subst D; assert (T <= 86400) by nia; clear Ht Hn1; lia).
  destruct (Z_le_gt_dec 0 D) as [G|G].
  - replace (low32 D) with D by (unfold low32; rewrite Z.mod_small by lia; reflexivity).
    unfold built. destruct (representable (year m) (month m) D) eqn:R; [right|left; repeat eexists].
    eexists. split; [reflexivity|]. split; [apply at_valid; [apply Z.mod_pos_bound; lia|exact R]|]. split; [reflexivity|].
    rewrite inst_at by (apply Z.mod_pos_bound; lia). rewrite inst_sod. unfold day_number. subst D T. clear - Sr. lia.
  - left. unfold built. replace (representable (year m) (month m) (low32 D)) with false; [repeat eexists|].
    symmetry. apply not_true_iff_false. intro R. apply representable_iff in R as [_ R]. apply date_exists_iff in R as [_ R].
    pose proof (month_length_bounds (year m) (month m) ltac:(lia)). unfold low32 in R. clear - R G HD H. lia.
Qed.

(** ** C22 and C23: differences of every size *)
Lemma sub_exact_every : forall m u n m', dt_valid m = true -> clock_unit u = true -> in_i64 n = true ->
  calculate md (Subtraction (Moment m) (mk u n)) = Ok (Moment m') ->
  (inst m' = inst m - n * unit_secs u <-> -2147483648 <= n < 2147483648 /\ (0 <= n -> sub_exact u n m)).
Proof.
  intros m u n m' Hm Hu Hi E. pose proof (all_instants m Hm) as I. pose proof (all_instants m' (moment_valid _ _ (minus_ok m u n Hm Hi) E)) as I'.
  assert (Hu1 : 1 <= unit_secs u) by (destruct u; cbn; lia). assert (Hyr : u <> UYear) by (intros ->; discriminate Hu).
  apply in_i64_iff in Hi. unfold i64_min, i64_max in Hi.
  destruct (Z_lt_le_dec n 0) as [N|P].
  - destruct (Z_le_gt_dec (-2147483648) n) as [L|G].
    + destruct (sub_negative md m u n Hm Hu ltac:(lia)) as [(y & mo & d & h & mi & s & C)|(m2 & C & _ & _ & C')]; rewrite E in C; [discriminate C|].
      injection C as <-. split; [lia|intros _; exact C'].
    + split; [|lia]. intro C. exfalso.
      destruct (Z_le_gt_dec n (-20000000000000)) as [F|F]; [nia|].
      pose proof (sub_negative_wide md m u n Hm Hyr ltac:(unfold i64_min; lia)) as W. destruct (valid_facts m Hm) as (Vy & Vmo & Vd & Vml & Vh & Vmi & Vs).
      assert (Hf : 0 <= field u m <= 300000) by (destruct u; try discriminate Hu; cbn [field]; lia).
      specialize (W ltac:(unfold i64_max; lia)). cbv zeta in W. rewrite E in W. pose proof (sod_range m Hm) as Sr.
      assert (Cl : forall x, (x < modulus u -> Ok (Moment m') = built (year m) (month m) (day m) (sod m + (x - field u m) * unit_secs u)) /\ (modulus u <= x -> oob (Ok (Moment m'))) ->
         0 <= x -> u <> UDay -> False).
      { intros x [W1 W2] Hx Hd. destruct (Z_lt_le_dec x (modulus u)) as [Lx|Gx]; [|destruct (W2 Gx) as (? & ? & ? & ? & ? & ? & K); discriminate K].
        specialize (W1 Lx). symmetry in W1. apply built_ok in W1 as [_ [= ->]].
        assert (Hr : 0 <= sod m + (x - field u m) * unit_secs u < 86400).
        { assert (Hs : sod m = hour m * 3600 + minute m * 60 + second m) by reflexivity. rewrite Hs. destruct u; try discriminate Hu; try (elim Hd; reflexivity); cbn [unit_secs field modulus] in *; lia. }
        rewrite inst_at in C by exact Hr. rewrite inst_sod in C. nia. }
      assert (Hx0 : 0 <= low32 (field u m - n)) by (unfold low32; apply Z.mod_pos_bound; lia).
      destruct u; try discriminate Hu; [exact (Cl _ W Hx0 ltac:(discriminate))|exact (Cl _ W Hx0 ltac:(discriminate))|exact (Cl _ W Hx0 ltac:(discriminate))|].
      symmetry in W. apply built_ok in W as [R [= ->]]. apply representable_iff in R as [_ R]. apply date_exists_iff in R as [_ R].
      rewrite inst_at in C by exact Sr. rewrite inst_sod in C. unfold day_number in C. cbn [unit_secs] in C.
      pose proof (month_length_bounds (year m) (month m) ltac:(lia)). cbn [field] in R. clear - C R H G Vd. lia.
  - destruct (Z_lt_le_dec n 2147483648) as [L|G].
    + rewrite (sub_exact_iff md m u n m' Hm Hu ltac:(lia) E). intuition lia.
    + split; [|lia]. intro C. exfalso. destruct (Z_lt_le_dec n (period u)) as [Lp|Gp].
      * destruct (sub_far_deep md m u n Hm Hyr ltac:(lia)) as (y & mo & d & h & mi & s & K). rewrite E in K. discriminate K.
      * destruct u; try discriminate Hu; cbn [period unit_secs] in *; lia.
Qed.
(** ** C24 and C40 *)
Lemma undo_iff : forall m u n, dt_valid m = true -> in_i64 n = true ->
  (calculate md (Subtraction (Addition (Moment m) (mk u n)) (mk u n)) = Ok (Moment (whole_second m)) <->
   exists m1, calculate md (Addition (Moment m) (mk u n)) = Ok (Moment m1) /\ calculate md (Subtraction (Moment m1) (mk u n)) = Ok (Moment (whole_second m))).
Proof.
  intros m u n Hm Hi. split.
  - intro E. destruct (round_inv md m u n _ Hm Hi E) as (m1 & E1 & _ & E2). exists m1. auto.
  - intros (m1 & E1 & E2). rewrite (round_comp md m u n m1 Hm Hi E1). exact E2.
Qed.
Lemma undo_large : forall m u n v, dt_valid m = true -> u <> UYear -> 2147483648 <= n < period u ->
  calculate md (Subtraction (Addition (Moment m) (mk u n)) (mk u n)) <> Ok v.
Proof.
  intros m u n v Hm Hu Hn E. assert (Hi : in_i64 n = true) by (apply in_i64_iff; unfold i64_min, i64_max; destruct u; cbn [period] in Hn; lia).
  destruct (round_inv md m u n _ Hm Hi E) as (m1 & E1 & V1 & E2).
  destruct (sub_far_deep md m1 u n V1 Hu Hn) as (y & mo & d & h & mi & s & K). rewrite E2 in K. discriminate K.
Qed.
Lemma undo_round : forall m u n, dt_valid m = true -> u <> UYear -> 2147483648 <= n <= i64_max ->
  (calculate md (Subtraction (Addition (Moment m) (mk u n)) (mk u n)) = Ok (Moment (whole_second m)) <->
   exists m1, calculate md (Addition (Moment m) (mk u n)) = Ok (Moment m1) /\ year m1 = year m + 1 /\
     calculate md (Subtraction (Moment m1) (mk u (n mod period u))) = Ok (Moment (whole_second m))).
Proof.
  intros m u n Hm Hu Hn. assert (Hi : in_i64 n = true) by (apply in_i64_iff; unfold i64_min, i64_max in *; lia).
  rewrite (undo_iff m u n Hm Hi). split; intros (m1 & E1 & E2); exists m1; (split; [exact E1|]).
  - apply sub_round in E2; [|exact (moment_valid _ _ (plus_ok m u n Hm Hi) E1)|exact Hu|exact Hn]. cbn [year whole_second] in E2. split; [lia|apply E2].
  - apply sub_round; [exact (moment_valid _ _ (plus_ok m u n Hm Hi) E1)|exact Hu|exact Hn|]. cbn [year whole_second]. split; [apply E2|lia].
Qed.

Lemma undo_years_every : forall m n, dt_valid m = true -> Z.abs n <= 4611686018427387904 ->
  (calculate md (Subtraction (Addition (Moment m) (Years n)) (Years n)) = Ok (Moment (whole_second m)) <-> undone_back UYear n m).
Proof.
  intros m n Hm Hn. assert (Hi : in_i64 n = true) by (apply in_i64_iff; unfold i64_min, i64_max; lia). pose proof (sod_range m Hm) as Sr.
  destruct (valid_facts m Hm) as (Vy & Vmo & Vd & Vml & _). rewrite (undo_iff m UYear n Hm Hi). cbn [undone_back mk]. cbv zeta.
  rewrite add_years by (assumption || unfold i64_min, i64_max, min_year, max_year in *; lia). set (Y := wrap32 (year m + n)).
  assert (HY : -2147483648 <= Y < 2147483648) by (subst Y; unfold wrap32; lia).
  assert (Back : wrap32 (Y - n) = year m) by (subst Y; unfold wrap32, min_year, max_year in *; lia).
  assert (Sub : forall mo d, dt_valid (at_time Y mo d (sod m)) = true ->
    calculate md (Subtraction (Moment (at_time Y mo d (sod m))) (Years n)) = built (year m) mo d (sod m)).
  { intros mo d V. rewrite sub_years; [|exact V|exact Hi|cbn; unfold i64_min, i64_max; lia]. rewrite sod_at by exact Sr. cbn [year month day at_time]. rewrite Back. reflexivity. }
  unfold in_year. split.
  - intros (m1 & E1 & E2). destruct ((month m =? 2) && (day m =? 29) && negb (leap Y)) eqn:C; apply built_ok in E1 as [Rp [= ->]].
    + rewrite Sub in E2 by (apply at_valid; assumption). apply built_whole in E2 as [E2 _]; [|assumption|assumption]. apply triple_eq in E2. lia.
    + apply representable_iff in Rp as [Rp _]. split; [exact Rp|]. intros (C1 & C2 & C3). rewrite C1, C2, C3 in C. discriminate C.
  - intros [R N]. assert (C : (month m =? 2) && (day m =? 29) && negb (leap Y) = false).
    { apply not_true_iff_false. intro C. rewrite !andb_true_iff, negb_true_iff, !Z.eqb_eq in C. tauto. }
    rewrite C. assert (Rp : representable Y (month m) (day m) = true).
    { apply representable_iff. split; [exact R|]. apply date_exists_iff. split; [exact Vmo|]. split; [lia|].
      destruct (Z.eq_dec (month m) 2) as [M2|M2].
      - assert (F : forall y, month_length y 2 = if leap y then 29 else 28) by reflexivity. rewrite M2, F in Vml |- *. clear F. rewrite M2 in N. destruct (leap Y) eqn:L; [destruct (leap (year m)); lia|]. destruct (leap (year m)); [|lia].
        destruct (Z.eq_dec (day m) 29); [tauto|lia].
      - replace (month_length Y (month m)) with (month_length (year m) (month m)); [lia|].
        destruct (month_cases (month m) Vmo) as [E|[E|[E|[E|[E|[E|[E|[E|[E|[E|[E|E]]]]]]]]]]]; rewrite E in *; try reflexivity. elim M2. reflexivity. }
    exists (at_time Y (month m) (day m) (sod m)). split; [unfold built; rewrite Rp; reflexivity|].
    rewrite Sub by (apply at_valid; assumption). apply built_whole; [assumption|assumption|]. auto.
Qed.

Lemma low32_id : forall z, 0 <= z < 4294967296 -> low32 z = z.
Proof. intros z H. unfold low32. apply Z.mod_small, H. Qed.
Lemma low32_back : forall a n, low32 (low32 (a + n) - n) = low32 a.
Proof. intros a n. unfold low32. rewrite Zminus_mod_idemp_l. f_equal. ring. Qed.

Lemma undo_back_days : forall m n, dt_valid m = true -> -4611686018427387904 <= n < 0 ->
  (calculate md (Subtraction (Addition (Moment m) (Days n)) (Days n)) = Ok (Moment (whole_second m)) <-> undone_back UDay n m).
Proof.
  intros m n Hm Hn. assert (Hi : in_i64 n = true) by (apply in_i64_iff; unfold i64_min, i64_max; lia). pose proof (sod_range m Hm) as Sr.
  destruct (valid_facts m Hm) as (Vy & Vmo & Vd & Vml & _). pose proof (month_length_bounds (year m) (month m) Vmo) as Lb.
  rewrite (undo_iff m UDay n Hm Hi). cbn [undone_back].
  destruct (add_negative_wide md m UDay n Hm eq_refl ltac:(unfold i64_min; lia)) as [A _]. cbv zeta in A. rewrite A by reflexivity. clear A.
  cbn [unit_secs]. replace ((sod m + n * 86400) mod 86400) with (sod m) by (rewrite Z.mod_add by discriminate; rewrite Z.mod_small by lia; reflexivity).
  replace ((sod m + n * 86400) / 86400) with n by (rewrite Z.div_add by discriminate; rewrite Z.div_small by lia; ring).
  set (D := low32 (day m + n)).
  assert (Sub : dt_valid (at_time (year m) (month m) D (sod m)) = true -> calculate md (Subtraction (Moment (at_time (year m) (month m) D (sod m))) (mk UDay n)) = built (year m) (month m) (day m) (sod m)).
  { intro V. pose proof (sub_negative_wide md _ UDay n V ltac:(discriminate) ltac:(unfold i64_min; lia)) as W. cbv zeta in W.
    refine (eq_trans (W _) _).
    - unfold i64_max. subst D. cbn [field at_time day]. unfold low32. lia.
    - rewrite sod_at by exact Sr. cbn [field at_time year month day]. subst D. rewrite low32_back, low32_id by lia. reflexivity. }
  split.
  - intros (m1 & E1 & _). apply built_ok in E1 as [R _]. apply representable_iff in R as [_ R]. apply date_exists_iff in R. tauto.
  - intro R. assert (Rp : representable (year m) (month m) D = true) by (apply representable_iff; split; [exact Vy|]; apply date_exists_iff; tauto).
    exists (at_time (year m) (month m) D (sod m)). split; [unfold built; rewrite Rp; reflexivity|].
    rewrite Sub by (apply at_valid; assumption). apply built_whole; auto.
Qed.
Lemma undo_back_months : forall m n, dt_valid m = true -> -4611686018427387904 <= n < 0 ->
  (calculate md (Subtraction (Addition (Moment m) (Months n)) (Months n)) = Ok (Moment (whole_second m)) <-> undone_back UMonth n m).
Proof.
  intros m n Hm Hn. assert (Hi : in_i64 n = true) by (apply in_i64_iff; unfold i64_min, i64_max; lia). pose proof (sod_range m Hm) as Sr.
  destruct (valid_facts m Hm) as (Vy & Vmo & Vd & Vml & _).
  rewrite (undo_iff m UMonth n Hm Hi). cbn [undone_back mk]. cbv zeta. set (M := low32 (month m + n)).
  assert (HM : 0 <= M < 4294967296) by (subst M; unfold low32; apply Z.mod_pos_bound; lia).
  assert (Sub : forall Mo d, 0 <= Mo < 4294967296 -> dt_valid (at_time (year m) Mo d (sod m)) = true ->
    calculate md (Subtraction (Moment (at_time (year m) Mo d (sod m))) (Months n)) = built (year m) (low32 (Mo - n)) d (sod m)).
  { intros Mo d HMo V. pose proof (sub_negative_wide md _ UMonth n V ltac:(discriminate) ltac:(unfold i64_min; lia)) as W. cbv zeta in W.
    refine (eq_trans (W _) _); [cbn [field at_time month]; unfold i64_max; lia|]. rewrite sod_at by exact Sr. reflexivity. }
  destruct (Z_le_gt_dec 1 (month m + n)) as [P|P].
  - assert (EM : M = month m + n) by (subst M; apply low32_id; lia). rewrite EM in *.
    assert (Bk : low32 (month m + n - n) = month m) by (replace (month m + n - n) with (month m) by ring; apply low32_id; lia).
    destruct (add_months_negative md m n Hm ltac:(lia)) as (A1 & A2 & _). split.
    + intros (m1 & E1 & E2). split; [lia|]. split; [|lia]. destruct (Z_le_gt_dec (day m) (month_length (year m) (month m + n))) as [L|G]; [exact L|exfalso].
      rewrite A2 in E1 by lia. injection E1 as <-.
      assert (V : dt_valid (at_time (year m) (month m + n + 1) (day m - month_length (year m) (month m + n)) (sod m)) = true).
      { apply at_valid; [exact Sr|]. apply representable_iff. split; [exact Vy|]. apply date_exists_iff. pose proof (month_length_bounds (year m) (month m + n) ltac:(lia)).
        pose proof (month_length_bounds (year m) (month m + n + 1) ltac:(lia)). lia. }
      specialize (Sub (month m + n + 1) _ ltac:(lia) V). unfold at_time in Sub. destruct (parts_of_sod m Hm) as (P1 & P2 & P3). rewrite P1, P2, P3 in Sub. rewrite Sub in E2.
      apply built_whole in E2 as [E2 _]; [|assumption|assumption]. apply triple_eq in E2. pose proof (month_length_bounds (year m) (month m + n) ltac:(lia)). lia.
    + intros (_ & L & _). specialize (A1 P L). rewrite A1. eexists. split; [reflexivity|].
      assert (V : dt_valid (at_time (year m) (month m + n) (day m) (sod m)) = true).
      { apply at_valid; [exact Sr|]. apply representable_iff. split; [exact Vy|]. apply date_exists_iff. lia. }
      specialize (Sub (month m + n) _ ltac:(lia) V). unfold at_time in Sub. destruct (parts_of_sod m Hm) as (P1 & P2 & P3). rewrite P1, P2, P3 in Sub. rewrite Sub, Bk.
      apply built_whole; auto.
  - rewrite (add_months_wide md m n Hm ltac:(unfold i64_min; lia) ltac:(lia)). cbv zeta. fold M. destruct (Z.leb_spec (day m) 30) as [D|D].
    + assert (Bk : low32 (M - n) = month m) by (subst M; rewrite low32_back; apply low32_id; lia). split.
      * intros (m1 & E1 & _). apply built_ok in E1 as [R _]. apply representable_iff in R as [_ R]. apply date_exists_iff in R. lia.
      * intros (R1 & R2 & _). assert (R : representable (year m) M (day m) = true) by (apply representable_iff; split; [exact Vy|]; apply date_exists_iff; lia).
        exists (at_time (year m) M (day m) (sod m)). split; [unfold built; rewrite R; reflexivity|].
        rewrite Sub by (assumption || apply at_valid; assumption). rewrite Bk. apply built_whole; auto.
    + split; [|lia]. intros (m1 & E1 & E2). exfalso. apply built_ok in E1 as [R [= ->]].
      rewrite Sub in E2; [|unfold low32; apply Z.mod_pos_bound; lia|apply at_valid; assumption]. apply built_whole in E2 as [E2 _]; [|assumption|assumption]. apply triple_eq in E2. lia.
Qed.

Lemma undo_back_clock : forall m u n, dt_valid m = true -> clock_unit u = true -> u <> UDay -> -4611686018427387904 <= n < 0 ->
  (calculate md (Subtraction (Addition (Moment m) (mk u n)) (mk u n)) = Ok (Moment (whole_second m)) <-> undone_back u n m).
Proof.
  intros m u n Hm Hu Hd Hn. assert (Hi : in_i64 n = true) by (apply in_i64_iff; unfold i64_min, i64_max; lia). pose proof (sod_range m Hm) as Sr.
  destruct (valid_facts m Hm) as (Vy & Vmo & Vd & Vml & Vh & Vmi & Vs). pose proof (month_length_bounds (year m) (month m) Vmo) as Lb.
  assert (Hs : sod m = hour m * 3600 + minute m * 60 + second m) by reflexivity. assert (Hyr : u <> UYear) by (intros ->; discriminate Hu).
  rewrite (undo_iff m u n Hm Hi).
  destruct (add_negative_wide md m u n Hm Hu ltac:(unfold i64_min; lia)) as [A B]. cbv zeta in A, B.
  set (T := sod m + n * unit_secs u) in *. set (R := T mod 86400) in *. set (D := low32 (day m + T / 86400)) in *.
  assert (HR : 0 <= R < 86400) by (subst R; apply Z.mod_pos_bound; lia).
  assert (Key : (no_borrow u m T = true /\ D = day m /\ (let x := low32 (field u (at_time (year m) (month m) D R) - n) in
      x < modulus u /\ R + (x - field u (at_time (year m) (month m) D R)) * unit_secs u = sod m)) <-> undone_back u n m).
  { cbv zeta.
    assert (HD : D = day m <-> exists k, T / 86400 = 4294967296 * k).
    { subst D. unfold low32. clear - Vd. split; [intro E; exists ((day m + T / 86400) / 4294967296); lia|intros [k E]; rewrite E; lia]. }
    rewrite HD. clear HD A B Hi.
    destruct u; try discriminate Hu; try (elim Hd; reflexivity); cbn [field modulus unit_secs undone_back at_time hour minute second] in *; unfold no_borrow; cbv zeta.
    - split.
      + intros (NB & [k Ek] & X & Es). set (x := low32 (R mod 60 - n)) in *. assert (Hx0 : 0 <= x) by (subst x; unfold low32; apply Z.mod_pos_bound; lia).
        assert (Em : R / 60 = sod m / 60) by (clear - X Es Hx0 HR; lia). clear X Es. clearbody x.
        assert (Neg : second m + n < 0 -> T / 60 <> sod m / 60) by (subst T; clear - Hs Vs; lia).
        destruct (Z_le_gt_dec 0 (second m + n)) as [G|G]; [left; exact G|right]. specialize (Neg ltac:(lia)).
        assert (Pos : 0 <= T -> False) by (intro C; apply Neg; rewrite <- Em; subst R; f_equal; symmetry; apply Z.mod_small; subst T; lia).
        assert (R0 : R = 0).
        { rewrite !orb_true_iff, !andb_true_iff, !orb_true_iff, !andb_true_iff, !orb_true_iff, !Z.eqb_eq, Z.leb_le in NB. subst R. clear - NB Neg Pos Sr.
          destruct NB as [C|[C1 [C|[C2 [C|C3]]]]]; [contradiction|exfalso; apply Pos; lia|contradiction|lia]. }
        rewrite R0 in Em. assert (hour m = 0 /\ minute m = 0) as [H0 M0] by (clear - Em Hs Vs Vmi Vh; lia). repeat split; [exact H0|exact M0|].
        exists k. assert (T = 86400 * (4294967296 * k)) by (rewrite <- Ek; subst R; clear - R0; lia). subst T. rewrite H0, M0 in Hs. lia.
      + intros [C|(H0 & M0 & [k Ek])].
        * assert (ET : T / 60 = sod m / 60) by (subst T; clear - Hs Vs C Hn; lia). assert (T0 : 0 <= T < 86400) by (subst T; lia).
          assert (ER : R = T) by (subst R; apply Z.mod_small, T0). rewrite ER. rewrite ET, Z.eqb_refl. split; [reflexivity|].
          split; [exists 0; clear - T0; lia|]. assert (ES : T mod 60 = second m + n) by (subst T; clear - Hs C Hn Vs; lia). rewrite ES.
          replace (second m + n - n) with (second m) by ring. rewrite low32_id by lia. subst T. lia.
        * assert (ET : T = (4294967296 * k) * 86400) by (subst T; rewrite Hs, H0, M0; lia). assert (ER : R = 0) by (subst R; rewrite ET; apply Z.mod_mul; discriminate).
          rewrite ER. replace (T mod 60) with 0 by (rewrite ET; clear; lia). replace (T mod 3600 / 60) with 0 by (rewrite ET; clear; lia).
          fold R. rewrite ER. cbn [Z.div Z.eqb Z.div_eucl fst]. rewrite !orb_true_r. split; [reflexivity|]. split; [exists k; rewrite ET; apply Z.div_mul; discriminate|].
          assert (Ex : low32 (0 mod 60 - n) = second m).
          { unfold low32. replace (0 mod 60 - n) with (second m + (- k * 86400) * 4294967296) by (change (0 mod 60) with 0; lia). rewrite Z.mod_add by discriminate. apply Z.mod_small. lia. }
          rewrite Ex. change (0 mod 60) with 0. lia.
    - split.
      + intros (NB & [k Ek] & X & Es). set (x := low32 (R mod 3600 / 60 - n)) in *. assert (Hx0 : 0 <= x) by (subst x; unfold low32; apply Z.mod_pos_bound; lia).
        assert (Em : R / 3600 = hour m) by (clear - X Es Hx0 HR Hs Vs Vmi; lia). clear X Es. clearbody x.
        assert (Neg : minute m + n < 0 -> T / 3600 <> sod m / 3600) by (subst T; clear - Hs Vs Vmi; lia).
        destruct (Z_le_gt_dec 0 (minute m + n)) as [G|G]; [left; exact G|right]. specialize (Neg ltac:(lia)).
        assert (Pos : 0 <= T -> False) by (intro C; apply Neg; transitivity (hour m); [rewrite <- Em; subst R; f_equal; symmetry; apply Z.mod_small; subst T; lia|clear - Hs Vs Vmi; lia]).
        assert (R0 : R < 60).
        { rewrite !orb_true_iff, !andb_true_iff, !orb_true_iff, !Z.eqb_eq, Z.leb_le in NB. subst R. clear - NB Neg Pos Sr.
          destruct NB as [C|[C2 [C|C3]]]; [contradiction|contradiction|lia]. }
        assert (H0 : hour m = 0) by (clear - Em R0 HR; lia). split; [exact H0|].
        exists k. assert (T = 86400 * (4294967296 * k) + R) by (rewrite <- Ek; subst R; clear; lia). subst T. rewrite H0 in Hs. clear - H Hs R0 HR Vs. lia.
      + intros [C|(H0 & [k Ek])].
        * assert (ET : T / 3600 = sod m / 3600) by (subst T; clear - Hs Vs Vmi C Hn; lia). assert (T0 : 0 <= T < 86400) by (subst T; lia).
          assert (ER : R = T) by (subst R; apply Z.mod_small, T0). rewrite ER. rewrite ET, Z.eqb_refl. split; [reflexivity|].
          split; [exists 0; clear - T0; lia|]. assert (ES : T mod 3600 / 60 = minute m + n) by (subst T; clear - Hs C Hn Vs Vmi; lia). rewrite ES.
          replace (minute m + n - n) with (minute m) by ring. rewrite low32_id by lia. subst T. lia.
        * assert (ET : T = second m + (4294967296 * k) * 86400) by (subst T; rewrite Hs, H0; lia). assert (ER : R = second m) by (subst R; rewrite ET, Z.mod_add by discriminate; apply Z.mod_small; lia).
          replace (T mod 3600 / 60) with 0 by (rewrite ET; clear - Vs; lia). fold R. rewrite ER. replace (second m / 3600) with 0 by (clear - Vs; lia).
          cbn [Z.eqb]. rewrite !orb_true_r. split; [reflexivity|]. split; [exists k; rewrite ET, Z.div_add by discriminate; clear - Vs; lia|].
          replace (second m mod 3600 / 60) with 0 by (clear - Vs; lia).
          assert (Ex : low32 (0 - n) = minute m).
          { unfold low32. replace (0 - n) with (minute m + (- k * 1440) * 4294967296) by lia. rewrite Z.mod_add by discriminate. apply Z.mod_small. lia. }
          rewrite Ex. lia.
    - split.
      + intros (NB & [k Ek] & X & Es).
        destruct (Z_le_gt_dec 0 (hour m + n)) as [G|G]; [left; exact G|right].
        assert (R0 : R / 3600 = 0).
        { rewrite !orb_true_iff, !Z.eqb_eq, Z.leb_le in NB. destruct NB as [C|C]; [exfalso; subst T; lia|exact C]. }
        exists k. assert (T = 86400 * (4294967296 * k) + R) by (rewrite <- Ek; subst R; clear; lia). subst T. clear - H Hs R0 HR Vs Vmi. lia.
      + intros [C|[k Ek]].
        * assert (T0 : 0 <= T < 86400) by (subst T; lia).
          assert (ER : R = T) by (subst R; apply Z.mod_small, T0). rewrite ER. replace (0 <=? T) with true by lia. split; [reflexivity|].
          split; [exists 0; clear - T0; lia|]. assert (ES : T / 3600 = hour m + n) by (subst T; clear - Hs C Hn Vs Vmi; lia). rewrite ES.
          replace (hour m + n - n) with (hour m) by ring. rewrite low32_id by lia. subst T. lia.
        * assert (ET : T = (minute m * 60 + second m) + (4294967296 * k) * 86400) by (subst T; rewrite Hs; lia).
          assert (ER : R = minute m * 60 + second m) by (subst R; rewrite ET, Z.mod_add by discriminate; apply Z.mod_small; lia).
          fold R. rewrite ER. replace ((minute m * 60 + second m) / 3600) with 0 by (clear - Vs Vmi; lia).
          cbn [Z.eqb]. rewrite !orb_true_r. split; [reflexivity|]. split; [exists k; rewrite ET, Z.div_add by discriminate; clear - Vs Vmi; lia|].
          assert (Ex : low32 (0 - n) = hour m).
          { unfold low32. replace (0 - n) with (hour m + (- k * 24) * 4294967296) by lia. rewrite Z.mod_add by discriminate. apply Z.mod_small. lia. }
          rewrite Ex. lia. }
  rewrite <- Key. clear Key. set (f1 := field u (at_time (year m) (month m) D R)) in *.
  assert (HX : forall x, 0 <= x < modulus u -> 0 <= R + (x - f1) * unit_secs u < 86400).
  { intros x Hx. subst f1. clear - Hx Hu Hd HR. destruct u; try discriminate Hu; try (elim Hd; reflexivity); cbn [field at_time hour minute second unit_secs modulus] in *; lia. }
  assert (F1 : 0 <= f1 < 86400) by (subst f1; clear - Hu Hd HR; destruct u; try discriminate Hu; try (elim Hd; reflexivity); cbn [field at_time hour minute second]; lia).
  assert (X0 : 0 <= low32 (f1 - n)) by (unfold low32; apply Z.mod_pos_bound; lia).
  assert (W : representable (year m) (month m) D = true -> let r := calculate md (Subtraction (Moment (at_time (year m) (month m) D R)) (mk u n)) in
    (low32 (f1 - n) < modulus u -> r = built (year m) (month m) D (R + (low32 (f1 - n) - f1) * unit_secs u)) /\ (modulus u <= low32 (f1 - n) -> oob r)).
  { intros Rp r. pose proof (sub_negative_wide md _ u n (at_valid _ _ _ _ HR Rp) Hyr ltac:(unfold i64_min; lia)) as W. fold f1 in W. specialize (W ltac:(unfold i64_max; lia)). cbv zeta in W.
    rewrite sod_at in W by exact HR. fold r in W. destruct u; try discriminate Hu; try (elim Hd; reflexivity); exact W. }
  cbv zeta in W. cbv zeta. split.
  - intros (m1 & E1 & E2). destruct (no_borrow u m T); [|destruct (B eq_refl) as (? & ? & ? & ? & ? & ? & K); rewrite E1 in K; discriminate K].
    split; [reflexivity|]. rewrite A in E1 by reflexivity. apply built_ok in E1 as [Rp [= ->]]. destruct (W Rp) as [W1 W2].
    destruct (Z_lt_le_dec (low32 (f1 - n)) (modulus u)) as [Lx|Gx]; [|destruct (W2 Gx) as (? & ? & ? & ? & ? & ? & K); rewrite E2 in K; discriminate K].
    rewrite (W1 Lx) in E2. apply built_whole in E2 as [E2 E3]; [|exact Hm|apply HX; lia]. apply triple_eq in E2. tauto.
  - intros (NB & ED & Lx & Er). rewrite A by exact NB. assert (Rp : representable (year m) (month m) D = true) by (rewrite ED; apply representable_iff; split; [exact Vy|]; apply date_exists_iff; lia).
    exists (at_time (year m) (month m) D R). split; [unfold built; rewrite Rp; reflexivity|]. destruct (W Rp) as [W1 _]. rewrite (W1 Lx). apply built_whole; [exact Hm|apply HX; lia|]. rewrite ED. auto.
Qed.

Lemma undo_back : forall m u n, dt_valid m = true -> -4611686018427387904 <= n < 0 ->
  (calculate md (Subtraction (Addition (Moment m) (mk u n)) (mk u n)) = Ok (Moment (whole_second m)) <-> undone_back u n m).
Proof.
  intros m u n Hm Hn. destruct u.
  - apply undo_back_clock; (assumption || reflexivity || discriminate).
  - apply undo_back_clock; (assumption || reflexivity || discriminate).
  - apply undo_back_clock; (assumption || reflexivity || discriminate).
  - apply undo_back_days; assumption.
  - apply undo_back_months; assumption.
  - apply undo_years_every; [assumption|lia].
Qed.

Lemma rollback_every : forall m u n v it', dt_valid m = true -> in_i64 n = true ->
  iter_next md (at_moment u n m true) = (Some (Ok v), it') ->
  (rollback md it' = (Ok tt, at_moment u n (whole_second m) true) <->
   calculate md (Subtraction (Addition (Moment m) (mk u n)) (mk u n)) = Ok (Moment (whole_second m))).
Proof.
  intros m u n v it' Hm Hi H.
  rewrite next_later in H by reflexivity. unfold step, at_moment in H. cbn [base increment] in H.
  destruct (calculate md (Addition (Moment m) (mk u n))) as [w| | |] eqn:E; try discriminate H.
  injection H as -> <-.
  assert (Hv : exists m1, v = Moment m1).
  { pose proof (calculate_shape md (Addition (Moment m) (mk u n))) as K. rewrite E in K. cbn [shape_of] in K. rewrite shape_mk in K. cbn in K.
    destruct v; try discriminate K; try (exfalso; exact K); eexists; reflexivity. }
  destruct Hv as [m1 ->].
  rewrite (round_comp md m u n m1 Hm Hi E).
  unfold rollback, recalculate, op_sub_assign, at_moment. cbn [base increment had_first].
  destruct (calculate md (Subtraction (Moment m1) (mk u n))) as [w| | |]; split; intro C; try discriminate C; [injection C as ->|injection C as ->]; reflexivity.
Qed.
End Far.
