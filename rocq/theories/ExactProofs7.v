(** Exactly when a sum beyond the last year is a moment nevertheless. *)
Require Import ZArith Bool List Lia ZifyBool.
From Verif Require Import Prelude Spec Chrono Util TimeType Iter SpecTree SpecMoment SpecIter SpecExact PreludeProofs EvalProofs AmountProofs ShapeProofs CompProofs CalendarProofs
  AddProofs AddProofs2 SubProofs SubProofs2 EndProofs.
Local Open Scope Z_scope.
Local Ltac Zify.zify_post_hook ::= Z.to_euclidean_division_equations.

Section Round.
Variable md : mode.

Lemma built_round : forall Y Mo D r, max_year < Y -> 1 <= Mo <= 12 -> 1 <= D ->
  ((exists v, built (wrap32 Y) Mo D r = Ok v) <-> exists k, 0 < k /\ min_year <= Y - k * 4294967296 <= max_year /\ D <= month_length (Y - k * 4294967296) Mo).
Proof.
  intros Y Mo D r HY HMo HD. unfold built. split.
  - intros [v E]. destruct (representable (wrap32 Y) Mo D) eqn:R; [|discriminate]. apply representable_iff in R as [R1 R2]. apply date_exists_iff in R2 as [_ R2].
    exists ((Y - wrap32 Y) / 4294967296). assert (W : Y - (Y - wrap32 Y) / 4294967296 * 4294967296 = wrap32 Y) by (unfold wrap32; lia). rewrite W.
    split; [unfold wrap32, min_year, max_year in *; lia|]. split; [exact R1|]. lia.
  - intros (k & Hk & Hr & Hd). assert (W : wrap32 Y = Y - k * 4294967296) by (unfold wrap32, min_year, max_year in *; lia).
    rewrite W. replace (representable (Y - k * 4294967296) Mo D) with true; [eexists; reflexivity|]. symmetry. apply representable_iff. split; [exact Hr|]. apply date_exists_iff. lia.
Qed.
Lemma beyond_exact : forall m u n, dt_valid m = true -> in_i64 n = true -> 0 <= n -> field u m + n < i64_max -> beyond u n m ->
  ((exists v, calculate md (Addition (Moment m) (mk u n)) = Ok v) <-> comes_round u n m).
Proof.
  intros m u n Hm Hi Hn Hf B. destruct (valid_facts m Hm) as (Vy & Vmo & Vd & Vml & Vh & Vmi & Vs). pose proof (sod_range m Hm) as Sr.
  unfold comes_round. destruct (clock_unit u) eqn:Cu.
  - assert (B' : instant (max_year + 1) 1 1 0 0 0 <= inst m + n * unit_secs u) by (destruct u; try discriminate Cu; exact B).
    assert (A : aim u n m = (let e := days_past u n m in (year m + 1 + e / 360, e mod 360 / 30 + 1, e mod 30 + 1))) by (destruct u; try discriminate Cu; reflexivity).
    rewrite A. cbv zeta. destruct (add_clock md m u n Hm Cu Hn ltac:(lia)) as [_ C]. cbv zeta in C.
    pose proof (clock_unit_secs u Cu) as Us. assert (Ns : 0 <= n * unit_secs u) by nia.
    set (N := n * unit_secs u) in *. set (T := sod m + N) in *.
    set (K := days_before (year m) (month m) + day m + T / 86400) in *.
    assert (E : days_past u n m = K - year_length (year m) - 1).
    { unfold days_past. fold N. rewrite inst_sod, day_number_jan, leap_year_step. unfold day_number.
      replace ((days_before_year (year m) + days_before (year m) (month m) + day m) * 86400 + sod m + N)
        with ((days_before_year (year m) + days_before (year m) (month m) + day m) * 86400 + T) by (subst T; lia).
      rewrite Z.div_add_l by lia. subst K. lia. }
    rewrite inst_sod in B'. unfold instant in B'. rewrite day_number_jan in B'. unfold day_number in B'.
    assert (HK : days_before_year (max_year + 1) + 1 <= days_before_year (year m) + K) by (subst K T; clear - B'; lia).
    assert (Hmono : days_before_year (year m) + year_length (year m) + 365 * (max_year - year m) <= days_before_year (max_year + 1)).
    { pose proof (days_before_year_upper (year m + 1) (max_year - year m) ltac:(lia)) as U.
      rewrite leap_year_step in U. replace (year m + 1 + (max_year - year m)) with (max_year + 1) in U by lia. exact U. }
    assert (HKgt : year_length (year m) < K) by (clear - HK Hmono Vy; lia).
    rewrite (C HKgt). rewrite E. set (e := K - year_length (year m) - 1) in *.
    assert (He : 365 * (max_year - year m) <= e) by (subst e; clear - HK Hmono; lia).
    rewrite built_round.
    + split; intros (k & Hk & Hr & Hd); exists k; repeat split; try assumption; try lia; destruct u; try discriminate Cu; exact Hd.
    + clear - He Vy. clearbody e. lia.
    + clearbody e. clear. lia.
    + clearbody e. clear. lia.
  - destruct u; try discriminate Cu; cbn [beyond aim mk field] in *.
    + rewrite add_months by assumption. unfold plus_months. replace (month m + n <=? 12) with false by lia.
      destruct (day m <=? 30) eqn:D; apply built_round; clear - B D Vmo Vd; lia.
    +
      rewrite add_years by (try assumption; unfold min_year, max_year, i64_min, i64_max in *; lia).
      assert (Q : forall Mo D, 1 <= Mo <= 12 -> 1 <= D -> D <= month_length (wrap32 (year m + n)) Mo ->
        ((exists v, built (wrap32 (year m + n)) Mo D (sod m) = Ok v) <->
         exists k, 0 < k /\ min_year <= year m + n - k * 4294967296 <= max_year /\ True)).
      { intros Mo D HMo HD HL. rewrite built_round by lia. split; intros (k & Hk & Hr & Hd); exists k; repeat split; try lia.
        assert (W : wrap32 (year m + n) = year m + n - k * 4294967296) by (unfold wrap32, min_year, max_year in *; lia). rewrite <- W. exact HL. }
      assert (ML : day m <= month_length (wrap32 (year m + n)) (month m) \/ month m = 2 /\ day m = 29 /\ leap (wrap32 (year m + n)) = false).
      { rewrite month_length_val in Vml |- * by exact Vmo. destruct (Z.eqb_spec (month m) 2); destruct (leap (year m)), (leap (wrap32 (year m + n))); lia. }
      unfold in_year. destruct ((month m =? 2) && (day m =? 29) && negb (leap (wrap32 (year m + n)))) eqn:F.
      * apply Q; try lia. rewrite month_length_val by lia. change (1 <= 31). lia.
      * apply Q; try lia. destruct ML as [ML|(M2 & D29 & L)]; [exact ML|]. rewrite M2, D29, L in F. discriminate F.
Qed.
End Round.
