(** Subtracting an amount and adding its opposite: exactly when both give the same moment. *)
Require Import ZArith Bool List Lia ZifyBool.
From Verif Require Import Prelude Spec Chrono Util TimeType SpecTree SpecMoment SpecIter SpecSeq SpecExact SpecExact2 PreludeProofs EvalProofs AmountProofs ShapeProofs CompProofs CalendarProofs
  AddProofs AddProofs2 SubProofs SubProofs2 NegProofs ExactProofs2 ExactProofs3 SpecWide WideProofs WideProofs2.
Local Open Scope Z_scope.
Local Ltac Zify.zify_post_hook ::= Z.div_mod_to_equations.

Section Mirror.
Variable md : mode.

Lemma no_borrow_within : forall m u n, dt_valid m = true -> clock_unit u = true -> u <> UDay -> 0 < n ->
  - modulus u < field u m - n -> no_borrow u m (sod m + - n * unit_secs u) = true -> n <= field u m.
Proof.
  intros m u n Hm Hu Hd Hn Hx Hb. destruct (valid_facts m Hm) as (Vy & Vmo & Vd & Vml & Vh & Vmi & Vs).
  unfold sod in Hb. destruct u; try discriminate Hu; try (elim Hd; reflexivity); cbn [no_borrow modulus field unit_secs] in *; unfold sod in *.
  - lia.
  - lia.
  - lia.
Qed.

Lemma mirror_near : forall m u n, dt_valid m = true -> u <> UYear -> 0 < n < 2147483648 ->
  ((exists m', calculate md (Subtraction (Moment m) (mk u n)) = Ok (Moment m') /\ calculate md (Addition (Moment m) (mk u (- n))) = Ok (Moment m')) <->
   mirrors u n m).
Proof.
  intros m u n Hm Hy Hn. destruct (valid_facts m Hm) as (Vy & Vmo & Vd & Vml & Vh & Vmi & Vs).
  destruct (clock_unit u) eqn:Cu.
  - split.
    + intros (m' & E1 & E2). destruct (add_negative_complete md m u (- n) Hm Cu ltac:(lia)) as [_ C2].
      assert (Nb : no_borrow u m (sod m + - n * unit_secs u) = true /\ 1 <= day m + (sod m + - n * unit_secs u) / 86400).
      { destruct (no_borrow u m (sod m + - n * unit_secs u)) eqn:B; [|elim (oob_err _ (C2 (or_introl eq_refl)) _ E2)].
        split; [reflexivity|]. destruct (Z_lt_le_dec (day m + (sod m + - n * unit_secs u) / 86400) 1) as [L|L]; [elim (oob_err _ (C2 (or_intror L)) _ E2)|exact L]. }
      clear C2. destruct Nb as [Nb D1].
      assert (Hx : u = UDay \/ u <> UDay) by (destruct u; (left; reflexivity) || (right; discriminate)).
      destruct Hx as [->|Hu].
      * cbn [mirrors unit_secs] in *. pose proof (sod_range m Hm). lia.
      * assert (G : - modulus u < field u m - n).
        { destruct (sub_clock md m u n Hm Cu Hu ltac:(lia)) as (_ & _ & A3). cbv zeta in A3.
          destruct (Z_lt_le_dec (field u m - n) (- modulus u)) as [L|L]; [elim (oob_err _ (A3 L) _ E1)|].
          destruct (Z.eq_dec (field u m - n) (- modulus u)) as [Q|Q]; [exfalso|lia]. clear A3 L.
          pose proof (proj1 (sub_exact_iff md m u n m' Hm Cu ltac:(lia) E1)) as X.
          destruct (add_negative md m u (- n) Hm Cu ltac:(lia)) as [O|(m2 & E' & _ & _ & I2)]; [elim (oob_err _ O _ E2)|].
          rewrite E2 in E'. injection E' as <-. specialize (X ltac:(lia)). clear I2 E2.
          unfold sub_exact in X. replace (sub_skips u n m) with true in X.
          2:{ symmetry. unfold sub_skips. destruct u; try discriminate Cu; try (elim Hu; reflexivity); apply Z.eqb_eq; exact Q. }
          destruct X as (-> & D2 & L30). destruct (sub_clock md m UHour n Hm Cu Hu ltac:(lia)) as (_ & A2 & _). cbv zeta in A2. rewrite (A2 Q) in E1. clear A2.
          cbn [modulus unit_secs] in *.
          replace (day m + (sod m - n * 3600 - 24 * 3600) / 86400) with 0 in E1.
          2:{ replace (sod m - n * 3600 - 24 * 3600) with (sod m - n * 3600 + (-1) * 86400) by ring. rewrite Z.div_add by discriminate.
              replace (sod m + - n * 3600) with (sod m - n * 3600) in D1 by ring. lia. }
          apply built3_ok in E1. destruct E1 as (y' & mo' & d' & E1 & R & _). unfold back_day in E1. change (1 <=? 0) with false in E1. cbv iota in E1.
          destruct (prev_month (year m) (month m)) as [py pm]. injection E1 as <- <- <-.
          apply representable_iff in R. destruct R as [_ R]. apply date_exists_iff in R. lia. }
        pose proof (no_borrow_within m u n Hm Cu Hu ltac:(lia) G Nb). destruct u; try discriminate Cu; try (elim Hu; reflexivity); assumption.
    + intro M. destruct (sub_is_add_opposite md m u n Hm Cu ltac:(lia)) as (m' & E1 & E2 & _); [destruct u; try discriminate Cu; cbn [mirrors] in M; lia|].
      exists m'. split; assumption.
  - destruct u; try discriminate Cu.
    + change (mk UMonth (- n)) with (Months (- n)). change (mk UMonth n) with (Months n). cbn [mirrors]. split.
      * intros (m' & E1 & E2). destruct (add_months_negative md m (- n) Hm ltac:(lia)) as (_ & _ & A3 & A4).
        change (month m + - n) with (month m - n) in *.
        destruct (Z_lt_le_dec n (month m)) as [L|L].
        { split; [exact L|]. apply (sub_is_add_months md m n Hm ltac:(lia)). rewrite E1, E2. reflexivity. }
        exfalso. destruct (Z.eq_dec (month m - n) 0) as [Q|Q]; [|elim (oob_err _ (A4 ltac:(lia) ltac:(lia)) _ E2)].
        destruct (Z_le_gt_dec (day m) 30) as [L30|G30]; [elim (oob_err _ (A4 ltac:(lia) ltac:(lia)) _ E2)|].
        rewrite (A3 Q ltac:(lia)) in E2. injection E2 as <-.
        destruct (sub_months md m n Hm ltac:(lia)) as (_ & B2 & _). cbv zeta in B2. rewrite (B2 ltac:(lia)) in E1.
        apply built_ok in E1. destruct E1 as [_ E1]. injection E1. lia.
      * intros [L F]. exists (mkdt (year m) (month m - n) (day m) (hour m) (minute m) (second m) 0).
        destruct (add_months_negative md m (- n) Hm ltac:(lia)) as (A1 & _). change (month m + - n) with (month m - n) in *.
        assert (E2 := A1 ltac:(lia) F). split; [|exact E2]. rewrite <- E2. apply (sub_is_add_months md m n Hm ltac:(lia)). exact F.
    + elim Hy. reflexivity.
Qed.

Lemma mirror_years : forall m n, dt_valid m = true -> 0 < n <= i64_max -> i64_min <= year m - n ->
  ((exists m', calculate md (Subtraction (Moment m) (Years n)) = Ok (Moment m') /\ calculate md (Addition (Moment m) (Years (- n))) = Ok (Moment m')) <->
   mirrors UYear n m).
Proof.
  intros m n Hm Hn Hb. destruct (valid_facts m Hm) as (Vy & Vmo & Vd & Vml & Vh & Vmi & Vs). cbn [mirrors]. cbv zeta.
  assert (I : in_i64 n = true) by (apply in_i64_iff; unfold i64_min, i64_max in *; lia).
  assert (I' : in_i64 (- n) = true) by (apply in_i64_iff; unfold i64_min, i64_max in *; lia).
  assert (B : i64_min <= year m - n <= i64_max) by (unfold min_year, max_year, i64_min, i64_max in *; lia).
  rewrite (sub_years md m n Hm I B). rewrite (add_years md m (- n) Hm B I').
  change (year m + - n) with (year m - n). generalize (wrap32 (year m - n)). intro Y. split.
  - intros (m' & E & _). apply built_ok in E. destruct E as [R _]. apply representable_iff in R. destruct R as [R1 R2]. split; [exact R1|].
    apply date_exists_iff in R2. intros M D. rewrite M, D in R2. rewrite month_length_val in R2 by lia. cbv [Z.eqb Pos.eqb] in R2. destruct (leap Y); [reflexivity|lia].
  - intros [R1 F]. exists (at_time Y (month m) (day m) (sod m)).
    assert (Q : in_year Y (month m) (day m) = (Y, month m, day m)).
    { unfold in_year. destruct ((month m =? 2) && (day m =? 29) && negb (leap Y)) eqn:C; [|reflexivity].
      exfalso. rewrite F in C by lia. destruct (month m =? 2), (day m =? 29); discriminate C. }
    rewrite Q. assert (R : representable Y (month m) (day m) = true).
    { apply representable_iff. split; [exact R1|]. apply date_exists_iff. split; [exact Vmo|].
      rewrite month_length_val in Vml |- * by exact Vmo. destruct (Z.eqb_spec (month m) 2) as [M|M]; [|lia].
      destruct (leap Y); [destruct (leap (year m)); lia|]. destruct (Z.eq_dec (day m) 29) as [D|D]; [discriminate (F M D)|destruct (leap (year m)); lia]. }
    unfold built. rewrite R. auto.
Qed.

(** The year of a moment less a large amount is the year before; adding an amount below zero keeps the year. *)
Lemma mirror_far : forall m u n m', dt_valid m = true -> u <> UYear -> 2147483648 <= n <= i64_max ->
  calculate md (Subtraction (Moment m) (mk u n)) = Ok (Moment m') -> calculate md (Addition (Moment m) (mk u (- n))) = Ok (Moment m') -> False.
Proof.
  intros m u n m' Hm Hy Hn E1 E2. destruct (valid_facts m Hm) as (Vy & Vmo & Vd & Vml & Vh & Vmi & Vs).
  apply (sub_round md m u n m' Hm Hy Hn) in E1. destruct E1 as [_ E1].
  assert (Hn' : i64_min <= - n < 0) by (unfold i64_min, i64_max in *; lia).
  assert (Y : exists a b c, calculate md (Addition (Moment m) (mk u (- n))) = built (year m) a b c).
  { destruct (clock_unit u) eqn:Cu.
    - destruct (add_negative_wide md m u (- n) Hm Cu Hn') as [A1 A2]. cbv zeta in A1, A2.
      destruct (no_borrow u m (sod m + - n * unit_secs u)); [rewrite (A1 eq_refl); repeat eexists|elim (oob_err _ (A2 eq_refl) _ E2)].
    - destruct u; try discriminate Cu; [|elim Hy; reflexivity]. change (mk UMonth (- n)) with (Months (- n)).
      pose proof (add_months_wide md m (- n) Hm ltac:(lia) ltac:(lia)) as A. cbv zeta in A. rewrite A. destruct (day m <=? 30); repeat eexists. }
  destruct Y as (a & b & c & Y). rewrite Y in E2. apply built_ok in E2. destruct E2 as [_ E2].
  assert (Q : m' = at_time (year m) a b c) by (injection E2 as Q; exact Q). rewrite Q in E1. unfold at_time in E1. cbn [year] in E1. lia.
Qed.

Lemma mirror_exact : forall m u n, dt_valid m = true -> 0 < n <= i64_max -> (u = UYear -> i64_min <= year m - n) ->
  ((exists m', calculate md (Subtraction (Moment m) (mk u n)) = Ok (Moment m') /\ calculate md (Addition (Moment m) (mk u (- n))) = Ok (Moment m')) <->
   mirrors u n m).
Proof.
  intros m u n Hm Hn Hb. assert (Hy : u = UYear \/ u <> UYear) by (destruct u; (left; reflexivity) || (right; discriminate)).
  destruct Hy as [->|Hy]; [exact (mirror_years m n Hm Hn (Hb eq_refl))|].
  destruct (Z_lt_le_dec n 2147483648) as [L|L]; [apply mirror_near; try assumption; lia|].
  split.
  - intros (m' & E1 & E2). elim (mirror_far m u n m' Hm Hy ltac:(lia) E1 E2).
  - intro M. exfalso. destruct (valid_facts m Hm) as (Vy & Vmo & Vd & Vml & Vh & Vmi & Vs).
    assert (day m <= 31) by (rewrite month_length_val in Vml by exact Vmo; destruct (month m =? 2); [destruct (leap (year m))|]; try lia; match type of Vml with context [if ?b then _ else _] => destruct b end; lia).
    destruct u; cbn [mirrors field] in M; try lia. elim Hy; reflexivity.
Qed.
End Mirror.
