(** The end of the month some months away. *)
Require Import ZArith Bool List Lia ZifyBool.
From Verif Require Import Prelude Spec Chrono Util TimeType Iter SpecTree SpecMoment SpecIter SpecExact SpecEndMonth PreludeProofs EvalProofs AmountProofs ShapeProofs CompProofs CalendarProofs
  AddProofs AddProofs2 SubProofs SubProofs2 EndProofs IterProofs IterProofs2 ExactProofs2 ExactProofs4 ExactProofs5.
Local Open Scope Z_scope.
Local Ltac Zify.zify_post_hook ::= Z.to_euclidean_division_equations.

Section Months.
Variable md : mode.

Lemma last_day_of : forall m, 1 <= month m <= 12 -> end_at PMonth m = last_day (month_index m).
Proof.
  intros m H. unfold end_at, last_day, month_end, month_index.
  replace ((12 * year m + month m - 1) / 12) with (year m) by lia. replace ((12 * year m + month m - 1) mod 12 + 1) with (month m) by lia. reflexivity.
Qed.
Lemma end_of_some : forall t v, tt_ok t = true -> calculate md (EndOfMonth t) = Ok v <-> exists m, calculate md t = Ok (Moment m) /\ v = Moment (end_at PMonth m).
Proof.
  intros t v Ht. pose proof (end_complete md PMonth t Ht) as E. cbn [end_of] in E. rewrite E. split.
  - destruct (calculate md t) as [[]| | |]; intro H; try discriminate H. injection H as <-. eauto.
  - intros (m & -> & ->). reflexivity.
Qed.

Lemma end_month_add : forall m n v, dt_valid m = true -> 0 <= n -> n * unit_secs UMonth <= span32 ->
  calculate md (EndOfMonth (Addition (Moment m) (Months n))) = Ok v ->
  v = Moment (last_day (month_index m + n + if spill UMonth n m =? 0 then 0 else 1)).
Proof.
  intros m n v Hm Hn Hs E. destruct (span_field m UMonth n Hm Hn Hs) as [_ Hi].
  assert (Ht : tt_ok (Addition (Moment m) (Months n)) = true) by (cbn [tt_ok]; rewrite Hm, Hi; reflexivity).
  apply end_of_some in E as (a & E & ->); [|exact Ht].
  pose proof (ok_moment md m UMonth n a Hm Hn Hs E) as Va. destruct (valid_facts a Va) as (Ay & Amo & _).
  destruct (moved md m UMonth n a Hm eq_refl Hn Hs E) as (_ & Sp & M0 & M1). rewrite last_day_of by exact Amo.
  cbn [in_months] in *. destruct (Z.eqb_spec (spill UMonth n m) 0) as [S|S].
  - destruct (M0 S) as [-> _]. rewrite Z.add_0_r. reflexivity.
  - destruct (M1 ltac:(lia)) as [-> _]. reflexivity.
Qed.

Lemma end_month_sub : forall m n v, dt_valid m = true -> 0 <= n < 2147483648 ->
  calculate md (EndOfMonth (Subtraction (Moment m) (Months n))) = Ok v <->
  v = Moment (last_day (month_index m - n)) /\ n < month m + 12 /\ day m <= index_length (month_index m - n) /\ 12 * min_year <= month_index m - n.
Proof.
  intros m n v Hm Hn. destruct (valid_facts m Hm) as (Vy & Vmo & Vd & Vml & Vh & Vmi & Vs).
  assert (Ht : tt_ok (Subtraction (Moment m) (Months n)) = true).
  { cbn [tt_ok]. rewrite Hm. apply in_i64_iff. unfold i64_min, i64_max. lia. }
  rewrite (end_of_some _ _ Ht). destruct (sub_months md m n Hm Hn) as (S1 & S2 & S3). unfold index_length, month_index.
  assert (Q : forall y mo, 1 <= mo <= 12 -> y <= max_year -> 12 * y + mo - 1 = 12 * year m + month m - 1 - n -> n < month m + 12 ->
    calculate md (Subtraction (Moment m) (Months n)) = built y mo (day m) (sod m) ->
    (exists a, calculate md (Subtraction (Moment m) (Months n)) = Ok (Moment a) /\ v = Moment (end_at PMonth a)) <->
    v = Moment (last_day (12 * year m + month m - 1 - n)) /\ n < month m + 12 /\
    day m <= month_length ((12 * year m + month m - 1 - n) / 12) ((12 * year m + month m - 1 - n) mod 12 + 1) /\ 12 * min_year <= 12 * year m + month m - 1 - n).
  { intros y mo Hmo Hy I Hnm ->. rewrite <- I. replace ((12 * y + mo - 1) / 12) with y by lia. replace ((12 * y + mo - 1) mod 12 + 1) with mo by lia.
    assert (L : last_day (12 * y + mo - 1) = end_at PMonth (at_time y mo (day m) (sod m))).
    { rewrite last_day_of by exact Hmo. reflexivity. }
    rewrite L. split.
    - intros (a & B & ->). apply built_ok in B as [R B]. injection B as ->. apply representable_iff in R as [Ry R]. apply date_exists_iff in R.
      repeat split; unfold min_year, max_year in *; lia.
    - intros (-> & _ & Dd & Ym). exists (at_time y mo (day m) (sod m)). split; [|reflexivity].
      unfold built. replace (representable y mo (day m)) with true; [reflexivity|]. symmetry. apply representable_iff.
      split; [unfold min_year, max_year in *; lia|]. apply date_exists_iff. lia. }
  assert (C : 1 <= month m - n \/ -11 <= month m - n <= 0 \/ month m - n < -11) by lia. destruct C as [C|[C|C]].
  - apply (Q (year m) (month m - n)); try lia. exact (S1 C).
  - apply (Q (year m - 1) (month m - n + 12)); try lia. exact (S2 C).
  - split; [|lia]. intros (a & E & _). exfalso. exact (oob_err _ (S3 C) _ E).
Qed.

(** Exactly when the end exists. *)
Lemma end_month_exact : forall m n v, dt_valid m = true -> 0 <= n -> month_index m + n + 1 <= 12 * max_year + 11 ->
  calculate md (EndOfMonth (Addition (Moment m) (Months n))) = Ok v <->
  v = Moment (last_day (month_index m + n + if spill UMonth n m =? 0 then 0 else 1)) /\ (spill UMonth n m = 0 -> day m <= index_length (month_index m + n)).
Proof.
  intros m n v Hm Hn Hr. destruct (valid_facts m Hm) as (Vy & Vmo & _).
  assert (Ht : tt_ok (Addition (Moment m) (Months n)) = true).
  { cbn [tt_ok]. rewrite Hm. apply in_i64_iff. unfold month_index, min_year, max_year, i64_min, i64_max in *. lia. }
  rewrite (end_of_some _ _ Ht), (months_step md m n Hm Hn Hr). unfold months_result.
  assert (L : forall i d r, Moment (end_at PMonth (at_index i d r)) = Moment (last_day i)).
  { intros i d r. rewrite last_day_of by (cbn [at_index at_time month]; lia). f_equal. f_equal. unfold at_index, at_time, month_index. cbn [year month]. lia. }
  destruct (Z.eqb_spec (spill UMonth n m) 0) as [S|S].
  - rewrite Z.add_0_r. destruct (Z.leb_spec (day m) (index_length (month_index m + n))) as [D|D].
    + split; [intros (a & E & ->); injection E as <-|intros [-> _]; eexists; split; [reflexivity|]]; [split; [apply L|auto]|symmetry; apply L].
    + split; [intros (a & E & _); discriminate E|intros [_ H]; specialize (H S); lia].
  - split; [intros (a & E & ->); injection E as <-|intros [-> _]; eexists; split; [reflexivity|]]; [split; [apply L|lia]|symmetry; apply L].
Qed.

Lemma end_year_some : forall t v, tt_ok t = true -> calculate md (EndOfYear t) = Ok v <-> exists m, calculate md t = Ok (Moment m) /\ v = Moment (end_at PYear m).
Proof.
  intros t v Ht. pose proof (end_complete md PYear t Ht) as E. cbn [end_of] in E. rewrite E. split.
  - destruct (calculate md t) as [[]| | |]; intro H; try discriminate H. injection H as <-. eauto.
  - intros (m & -> & ->). reflexivity.
Qed.
Lemma end_year_plus : forall m n, dt_valid m = true -> min_year <= year m + n <= max_year ->
  calculate md (EndOfYear (Addition (Moment m) (Years n))) = Ok (Moment (month_end (year m + n) 12)).
Proof.
  intros m n Hm Hr. destruct (valid_facts m Hm) as (Vy & _).
  assert (Ht : tt_ok (Addition (Moment m) (Years n)) = true).
  { cbn [tt_ok]. rewrite Hm. apply in_i64_iff. unfold min_year, max_year, i64_min, i64_max in *. lia. }
  apply (end_year_some _ _ Ht). rewrite add_years_in_range by assumption. eexists. split; [reflexivity|].
  destruct (_ && _ && _); reflexivity.
Qed.
Lemma end_year_minus : forall m n v, dt_valid m = true -> min_year <= year m - n <= max_year ->
  calculate md (EndOfYear (Subtraction (Moment m) (Years n))) = Ok v <->
  v = Moment (month_end (year m - n) 12) /\ ~ (month m = 2 /\ day m = 29 /\ leap (year m - n) = false).
Proof.
  intros m n v Hm Hr. destruct (valid_facts m Hm) as (Vy & Vmo & Vd & Vml & _).
  assert (Hi : in_i64 n = true) by (apply in_i64_iff; unfold min_year, max_year, i64_min, i64_max in *; lia).
  assert (Ht : tt_ok (Subtraction (Moment m) (Years n)) = true) by (cbn [tt_ok]; rewrite Hm, Hi; reflexivity).
  rewrite (end_year_some _ _ Ht), sub_years by (try assumption; unfold min_year, max_year, i64_min, i64_max in *; lia).
  rewrite wrap32_id by (unfold min_year, max_year in *; lia).
  assert (R : representable (year m - n) (month m) (day m) = true <-> ~ (month m = 2 /\ day m = 29 /\ leap (year m - n) = false)).
  { rewrite representable_iff, date_exists_iff. rewrite !month_length_val in * by lia.
    destruct (Z.eqb_spec (month m) 2) as [M|M].
    - destruct (leap (year m - n)), (leap (year m)); split; try (intros; lia); intro N; repeat split; try lia.
      all: destruct (Z.eq_dec (day m) 29) as [D|D]; [exfalso; apply N; auto|lia].
    - split; [intros _ (N & _); lia|intros _; lia]. }
  unfold built. destruct (representable (year m - n) (month m) (day m)).
  - split; [intros (a & E & ->); injection E as <-; split; [reflexivity|tauto]|intros [-> _]; eexists; split; reflexivity].
  - split; [intros (a & E & _); discriminate E|intros [_ H]; apply R in H; discriminate H].
Qed.
End Months.
