(** The two dates of the README: the end of the month some days ago. *)
Require Import ZArith Bool List Lia ZifyBool.
From Verif Require Import Prelude Spec Chrono Util TimeType Iter SpecTree SpecMoment SpecIter SpecExact SpecWide PreludeProofs EvalProofs AmountProofs ShapeProofs CompProofs CalendarProofs
  AddProofs AddProofs2 SubProofs SubProofs2 EndProofs IterProofs IterProofs2 WideProofs WideProofs2 Props_Shape.
Local Open Scope Z_scope.
Local Ltac Zify.zify_post_hook ::= Z.to_euclidean_division_equations.

Section Readme.
Variable md : mode.

Lemma sod_parts : forall m, dt_valid m = true -> sod m / 3600 = hour m /\ sod m mod 3600 / 60 = minute m /\ sod m mod 60 = second m.
Proof. intros m Hm. destruct (valid_facts m Hm) as (_ & _ & _ & _ & Vh & Vmi & Vs). unfold sod. lia. Qed.

(** The end of the month [n] days ago. *)
Lemma month_ago : forall m n, dt_valid m = true -> 0 <= n <= day m + 30 ->
  calculate md (EndOfMonth (op_sub (today m) (days n))) =
  (let '(py, pm) := prev_month (year m) (month m) in
   if 1 <=? day m - n then Ok (Moment (month_end (year m) (month m)))
   else if (min_year <=? py) && (day m - n + 31 <=? month_length py pm) then Ok (Moment (month_end py pm))
   else Err (OutOfBounds py pm (hour m) (hour m) (minute m) (second m))).
Proof.
  intros m n Hm Hn. destruct (valid_facts m Hm) as (Vy & Vmo & Vd & Vml & Vh & Vmi & Vs). destruct (sod_parts m Hm) as (P1 & P2 & P3).
  change (EndOfMonth (op_sub (today m) (days n))) with (end_of SpecMoment.PMonth (Subtraction (Moment m) (Days n))).
  rewrite end_complete by (cbn [tt_ok]; rewrite Hm; cbn [andb]; apply in_i64_iff; unfold i64_min, i64_max; lia).
  destruct (sub_days md m n Hm ltac:(lia)) as [C _]. cbv zeta in C. rewrite C by lia. unfold back_day.
  assert (Q : forall y mo, prev_month (year m) (month m) = (y, mo) -> y <= max_year /\ 1 <= mo <= 12).
  { intros y mo Q. unfold prev_month in Q. destruct (month m =? 1) eqn:M1; injection Q as <- <-; unfold min_year, max_year in *; lia. }
  destruct (prev_month (year m) (month m)) as [py pm]. specialize (Q py pm eq_refl).
  pose proof (month_length_bounds py pm ltac:(lia)) as B.
  destruct (1 <=? day m - n) eqn:D; cbn [built3]; unfold built.
  - replace (representable (year m) (month m) (day m - n)) with true; [reflexivity|].
    symmetry. apply representable_iff. split; [assumption|]. apply date_exists_iff. lia.
  - rewrite P1, P2, P3. replace (representable py pm (31 + (day m - n))) with ((min_year <=? py) && (day m - n + 31 <=? month_length py pm)).
    + destruct ((min_year <=? py) && (day m - n + 31 <=? month_length py pm)); reflexivity.
    + apply eq_true_iff_eq. rewrite representable_iff, date_exists_iff. lia.
Qed.

(** When it is the end of the month in which the day [n] days ago lies. *)
Lemma month_ago_exactly : forall m n e, dt_valid m = true -> 0 <= n <= day m + 30 ->
  calculate md (EndOfMonth (op_sub (today m) (days n))) = Ok (Moment e) ->
  (instant (year e) (month e) 1 0 0 0 <= inst m - n * 86400 < inst e + 86400 <->
   n < day m + (let '(py, pm) := prev_month (year m) (month m) in month_length py pm)).
Proof.
  intros m n e Hm Hn E. rewrite month_ago in E by assumption. destruct (valid_facts m Hm) as (Vy & Vmo & Vd & Vml & Vh & Vmi & Vs).
  assert (L : forall y, month_length y 12 = 31) by reflexivity.
  unfold prev_month in *. destruct (1 <=? day m - n) eqn:D.
  - assert (e = month_end (year m) (month m)) as -> by (destruct (month m =? 1); congruence).
    assert (0 <= (let '(py, pm) := if month m =? 1 then (year m - 1, 12) else (year m, month m - 1) in month_length py pm)).
    { destruct (Z.eqb_spec (month m) 1); [rewrite L; lia|]. pose proof (month_length_bounds (year m) (month m - 1) ltac:(lia)). lia. }
    unfold inst, instant, month_end, day_number. cbn [year month day hour minute second]. lia.
  - destruct (Z.eqb_spec (month m) 1) as [M1|M1].
    + destruct (_ && _); [|discriminate]. injection E as <-. unfold inst, instant, month_end. cbn [year month day hour minute second].
      pose proof (day_number_next_year (year m - 1)) as N. replace (year m - 1 + 1) with (year m) in N by lia. rewrite M1.
      change (month_length (year m - 1) 12) with 31 in *. unfold day_number in *.
      pose proof (days_before_succ (year m - 1) 12 ltac:(lia)) as X. change (month_length (year m - 1) 12) with 31 in X.
      lia.
    + pose proof (days_before_succ (year m) (month m - 1) ltac:(lia)) as X. replace (month m - 1 + 1) with (month m) in X by lia.
      pose proof (month_length_bounds (year m) (month m - 1) ltac:(lia)) as B.
      destruct (_ && _); [|discriminate]. injection E as <-. unfold inst, instant, month_end, day_number. cbn [year month day hour minute second]. lia.
Qed.

Lemma month_ago_right : forall m n e, dt_valid m = true -> 0 <= n <= 28 ->
  calculate md (EndOfMonth (op_sub (today m) (days n))) = Ok (Moment e) ->
  instant (year e) (month e) 1 0 0 0 <= inst m - n * 86400 < inst e + 86400.
Proof.
  intros m n e Hm Hn E. destruct (valid_facts m Hm) as (Vy & Vmo & Vd & _). apply (month_ago_exactly m n e Hm); [lia|exact E|].
  unfold prev_month. destruct (Z.eqb_spec (month m) 1); [change (month_length (year m - 1) 12) with 31; lia|].
  pose proof (month_length_bounds (year m) (month m - 1) ltac:(lia)). lia.
Qed.

(** More days back than that are never a date. *)
Lemma month_ago_far : forall m n, dt_valid m = true -> day m + 30 < n < period UDay ->
  oob (calculate md (EndOfMonth (op_sub (today m) (days n)))).
Proof.
  intros m n Hm Hn. destruct (valid_facts m Hm) as (_ & _ & Vd & _).
  change (EndOfMonth (op_sub (today m) (days n))) with (end_of SpecMoment.PMonth (Subtraction (Moment m) (Days n))).
  change (period UDay) with 1786706395136 in Hn.
  rewrite end_complete by (cbn [tt_ok]; rewrite Hm; cbn [andb]; apply in_i64_iff; unfold i64_min, i64_max; lia).
  destruct (sub_far_days md m n Hm ltac:(change (period UDay) with 1786706395136; lia)) as [_ C]. cbv zeta in C.
  destruct (C ltac:(lia)) as (y & mo & d & h & mi & s & E). rewrite E. cbn. unfold oob. repeat eexists.
Qed.

(** Days ago and then days on never is a date, hence has no end of the month. *)
Lemma ago_and_on : forall m a b, dt_valid m = true -> in_i64 a = true -> day m - a <= i64_max -> in_i64 b = true ->
  exists e, calculate md (EndOfMonth (op_add (op_sub (today m) (days a)) (days b))) = Err e /\
    match calculate md (op_sub (today m) (days a)) with Ok v => e = CannotAdd (Days b) v | r => r = Err e end.
Proof.
  intros m a b Hm Ia Ha Hb.
  change (EndOfMonth (op_add (op_sub (today m) (days a)) (days b))) with (end_of SpecMoment.PMonth (Addition (Subtraction (Moment m) (Days a)) (mk UDay b))).
  rewrite end_complete by (cbn [tt_ok mk]; rewrite Hm, Ia, Hb; reflexivity).
  pose proof (C08_sub_then_add_partial md m (Days a) UDay b Hm Ia Hb) as C. unfold op_sub, today, days.
  assert (R : oob (calculate md (Subtraction (Moment m) (Days a))) \/ exists t, calculate md (Subtraction (Moment m) (Days a)) = Ok (Moment t)).
  { pose proof (proj1 (in_i64_iff a) Ia) as B. destruct (Z_lt_ge_dec a 0) as [L|L].
    - pose proof (sub_negative_wide md m UDay a Hm ltac:(discriminate) ltac:(lia) Ha) as S. cbv zeta in S. cbn [mk] in S. rewrite S.
      unfold built. destruct (representable _ _ _); [right; eexists; reflexivity|left; unfold oob; repeat eexists].
    - exact (sub_round_oob md m UDay a Hm ltac:(discriminate) ltac:(lia)). }
  destruct R as [(y & mo & d & h & mi & s & E)|(t & E)]; rewrite E in *; rewrite C; eexists; split; reflexivity.
Qed.
End Readme.
