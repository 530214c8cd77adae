(** Amounts written in different units (C111). *)
Require Import ZArith Bool List Lia ZifyBool.
From Verif Require Import Prelude Spec Chrono Util TimeType Iter SpecTree SpecMoment SpecIter SpecExact SpecSeq SpecWide PreludeProofs EvalProofs AmountProofs
  ShapeProofs CompProofs CalendarProofs AddProofs AddProofs2 SubProofs SubProofs2 EndProofs IterProofs NegProofs ExactProofs ExactProofs2 WideProofs WideProofs2 FarProofs.
Local Open Scope Z_scope.
Local Ltac Zify.zify_post_hook ::= Z.to_euclidean_division_equations.

Section Same.
Variable md : mode.

(** ** Adding *)
Lemma doy_unique : forall y mo d mo' d', date_exists y mo d = true -> date_exists y mo' d' = true -> days_before y mo + d = days_before y mo' + d' -> mo = mo' /\ d = d'.
Proof.
  intros y mo d mo' d' H H' E. pose proof (day_number_inj y mo d y mo' d' H H') as I. unfold day_number in I. destruct I as (_ & I); [lia|exact I].
Qed.

Lemma same_add : forall m u v a b, dt_valid m = true -> clock_unit u = true -> clock_unit v = true -> 0 <= a -> 0 <= b -> a * unit_secs u = b * unit_secs v ->
  field u m + a <= i64_max -> field v m + b <= i64_max ->
  calculate md (Addition (Moment m) (mk u a)) = calculate md (Addition (Moment m) (mk v b)).
Proof.
  intros m u v a b Hm Hu Hv Ha Hb E Fa Fb.
  destruct (add_clock md m u a Hm Hu Ha Fa) as [A1 A2]. destruct (add_clock md m v b Hm Hv Hb Fb) as [B1 B2].
  cbv zeta in A1, A2, B1, B2. rewrite E in A1, A2.
  destruct (Z_le_gt_dec (days_before (year m) (month m) + day m + (sod m + b * unit_secs v) / 86400) (year_length (year m))) as [L|L].
  - destruct (A1 L) as (mo1 & d1 & D1 & K1 & R1). destruct (B1 L) as (mo2 & d2 & D2 & K2 & R2). rewrite R1, R2.
    destruct (doy_unique (year m) mo1 d1 mo2 d2 D1 D2 ltac:(lia)) as [-> ->]. reflexivity.
  - rewrite (A2 ltac:(lia)), (B2 ltac:(lia)). reflexivity.
Qed.

Lemma add_clock_result : forall m u n, dt_valid m = true -> clock_unit u = true -> 0 <= n -> field u m + n <= i64_max ->
  (exists m', dt_valid m' = true /\ calculate md (Addition (Moment m) (mk u n)) = Ok (Moment m')) \/ exists e, calculate md (Addition (Moment m) (mk u n)) = Err e.
Proof.
  intros m u n Hm Hu Hn Fn. destruct (add_clock md m u n Hm Hu Hn Fn) as [A1 A2]. cbv zeta in A1, A2.
  assert (O : tt_ok (Addition (Moment m) (mk u n)) = true).
  { apply plus_ok; [exact Hm|]. apply in_i64_iff. destruct (valid_facts m Hm) as (Vy & Vmo & Vd & Vml & Vh & Vmi & Vs).
    unfold i64_min, i64_max in *. destruct u; try discriminate Hu; cbn [field] in Fn; lia. }
  destruct (calculate md (Addition (Moment m) (mk u n))) as [w|e|p|] eqn:E.
  - left. assert (W : exists m', w = Moment m').
    { destruct (Z_le_gt_dec (days_before (year m) (month m) + day m + (sod m + n * unit_secs u) / 86400) (year_length (year m))) as [L|L].
      - destruct (A1 L) as (mo1 & d1 & _ & _ & R). injection R as ->. eexists. reflexivity.
      - specialize (A2 ltac:(lia)). symmetry in A2. apply built_ok in A2 as [_ ->]. eexists. reflexivity. }
    destruct W as [m' ->]. exists m'. split; [|reflexivity]. exact (moment_valid md _ m' O E).
  - right. exists e. reflexivity.
  - exfalso. destruct (Z_le_gt_dec (days_before (year m) (month m) + day m + (sod m + n * unit_secs u) / 86400) (year_length (year m))) as [L|L].
    + destruct (A1 L) as (mo1 & d1 & _ & _ & R). discriminate R.
    + specialize (A2 ltac:(lia)). unfold built in A2. destruct (representable _ _ _) in A2; discriminate A2.
  - exfalso. destruct (Z_le_gt_dec (days_before (year m) (month m) + day m + (sod m + n * unit_secs u) / 86400) (year_length (year m))) as [L|L].
    + destruct (A1 L) as (mo1 & d1 & _ & _ & R). discriminate R.
    + specialize (A2 ltac:(lia)). unfold built in A2. destruct (representable _ _ _) in A2; discriminate A2.
Qed.

(** ** Iterating *)
Lemma items_same : forall u a v b, in_i64 a = true -> in_i64 b = true ->
  (forall m, dt_valid m = true -> calculate md (Addition (Moment m) (mk u a)) = calculate md (Addition (Moment m) (mk v b)) /\
    ((exists m', dt_valid m' = true /\ calculate md (Addition (Moment m) (mk u a)) = Ok (Moment m')) \/ exists e, calculate md (Addition (Moment m) (mk u a)) = Err e)) ->
  forall k m, dt_valid m = true -> nth_item (iter_next md) k (at_moment u a m true) = nth_item (iter_next md) k (at_moment v b m true).
Proof.
  intros u a v b Ha Hb H. induction k as [|k IH]; intros m Hm; destruct (H m Hm) as [E [(m' & V & R)|(e & R)]].
  - unfold nth_item. cbn [after]. rewrite (next_moment md u a m m' R). rewrite E in R. rewrite (next_moment md v b m m' R). reflexivity.
  - unfold nth_item. cbn [after]. destruct (next_moment_err md u a m e R) as (i1 & ->). rewrite E in R. destruct (next_moment_err md v b m e R) as (i2 & ->). reflexivity.
  - unfold nth_item in *. cbn [after]. rewrite (next_moment md u a m m' R). rewrite E in R. rewrite (next_moment md v b m m' R). cbn [snd]. apply IH. exact V.
  - destruct (next_moment_err md u a m e R) as (i1 & N1). rewrite E in R. destruct (next_moment_err md v b m e R) as (i2 & N2).
    assert (O1 : iter_ok (at_moment u a m true)) by (repeat split; cbn; [exact Hm|rewrite ok_mk; exact Ha|destruct u; reflexivity]).
    assert (O2 : iter_ok (at_moment v b m true)) by (repeat split; cbn; [exact Hm|rewrite ok_mk; exact Hb|destruct v; reflexivity]).
    pose proof (sticky md _ e i1 O1 N1 k) as K1. pose proof (sticky md _ e i2 O2 N2 k) as K2. unfold nth_item in *. cbn [after]. rewrite N1, N2. cbn [snd]. congruence.
Qed.

Lemma same_items : forall m u v a b it it' k, dt_valid m = true -> clock_unit u = true -> clock_unit v = true -> 0 <= a -> 0 <= b -> a * unit_secs u = b * unit_secs v ->
  a + 60 <= i64_max -> b + 60 <= i64_max -> build m (mk u a) = Ok it -> build m (mk v b) = Ok it' ->
  nth_item (iter_next md) k it = nth_item (iter_next md) k it'.
Proof.
  intros m u v a b it it' k Hm Hu Hv Ha Hb E La Lb B1 B2. apply build_iff in B1 as [_ ->]. apply build_iff in B2 as [_ ->].
  assert (F : forall w m0, dt_valid m0 = true -> clock_unit w = true -> field w m0 <= 60).
  { intros w m0 V W. destruct (valid_facts m0 V) as (Vy & Vmo & Vd & Vml & Vh & Vmi & Vs). destruct w; try discriminate W; cbn [field]; lia. }
  destruct k as [|k]; [reflexivity|]. change (nth_item (iter_next md) (Datatypes.S k) (at_moment u a m false) = nth_item (iter_next md) (Datatypes.S k) (at_moment v b m false)).
  rewrite !fresh_item. apply items_same; [apply in_i64_iff; unfold i64_min, i64_max in *; lia..| |exact Hm].
  intros m0 V. pose proof (F u m0 V Hu). pose proof (F v m0 V Hv).
  split; [apply same_add; assumption || lia|apply add_clock_result; assumption || lia].
Qed.

(** ** Adding negative amounts *)
Lemma built_oob : forall y mo d r v, built y mo d r = Ok v -> ~ oob (built y mo d r).
Proof. intros y mo d r v E (y' & mo' & d' & h & mi & s & E'). rewrite E in E'. discriminate E'. Qed.

Lemma finer_borrow : forall m u v b, dt_valid m = true -> clock_unit u = true -> clock_unit v = true -> unit_secs u < unit_secs v -> b < 0 ->
  let T := sod m + b * unit_secs v in no_borrow v m T = true -> (no_borrow u m T = true <-> sod m mod unit_secs v < unit_secs u).
Proof.
  intros m u v b Hm Hu Hv L Hb T. subst T. pose proof (sod_range m Hm) as R.
  destruct u, v; try discriminate Hu; try discriminate Hv; cbn [unit_secs] in *; try lia; unfold no_borrow; cbv zeta; generalize dependent (sod m); intros s R; clear Hm.
  - replace ((s + b * 60) / 60) with (s / 60 + b) by lia. replace ((s + b * 60) mod 60) with (s mod 60) by lia. lia.
  - replace ((s + b * 3600) / 3600) with (s / 3600 + b) by lia. replace ((s + b * 3600) mod 60) with (s mod 60) by lia. replace ((s + b * 3600) mod 3600) with (s mod 3600) by lia.
    replace ((s + b * 3600) / 60) with (s / 60 + b * 60) by lia. lia.
  - replace ((s + b * 86400) / 3600) with (s / 3600 + b * 24) by lia. replace ((s + b * 86400) mod 60) with (s mod 60) by lia. replace ((s + b * 86400) mod 3600) with (s mod 3600) by lia.
    replace ((s + b * 86400) / 60) with (s / 60 + b * 1440) by lia. replace ((s + b * 86400) mod 86400) with s by lia. replace (s mod 86400) with s by lia. lia.
  - replace ((s + b * 3600) / 3600) with (s / 3600 + b) by lia. replace ((s + b * 3600) mod 3600) with (s mod 3600) by lia. lia.
  - replace ((s + b * 86400) / 3600) with (s / 3600 + b * 24) by lia. replace ((s + b * 86400) mod 3600) with (s mod 3600) by lia.
    replace ((s + b * 86400) mod 86400) with s by lia. replace (s mod 86400) with s by lia. lia.
  - replace ((s + b * 86400) mod 86400) with s by lia. replace (s mod 86400) with s by lia. lia.
Qed.

Lemma same_add_negative : forall m u v a b m', dt_valid m = true -> clock_unit u = true -> clock_unit v = true -> unit_secs u < unit_secs v ->
  i64_min <= a < 0 -> a * unit_secs u = b * unit_secs v ->
  calculate md (Addition (Moment m) (mk v b)) = Ok (Moment m') ->
  (calculate md (Addition (Moment m) (mk u a)) = Ok (Moment m') <-> sod m mod unit_secs v < unit_secs u).
Proof.
  intros m u v a b m' Hm Hu Hv L Ha E R.
  assert (Hb : i64_min <= b < 0) by (unfold i64_min in *; destruct u, v; try discriminate Hu; try discriminate Hv; cbn [unit_secs] in *; lia).
  destruct (add_negative_wide md m u a Hm Hu Ha) as [A1 A2]. destruct (add_negative_wide md m v b Hm Hv Hb) as [B1 B2]. cbv zeta in A1, A2, B1, B2. rewrite E in A1, A2.
  pose proof (finer_borrow m u v b Hm Hu Hv L ltac:(lia)) as F. cbv zeta in F.
  destruct (no_borrow v m (sod m + b * unit_secs v)) eqn:N.
  - rewrite (B1 eq_refl) in R. destruct (no_borrow u m (sod m + b * unit_secs v)).
    + rewrite (A1 eq_refl). tauto.
    + destruct (A2 eq_refl) as (y & mo & d & h & mi & s & ->). specialize (F eq_refl). split; [discriminate|]. intro X. apply F in X. discriminate X.
  - destruct (B2 eq_refl) as (y & mo & d & h & mi & s & X). rewrite X in R. discriminate R.
Qed.

(** ** Subtracting *)
Lemma oob_not_ok : forall r v, oob r -> r <> Ok v.
Proof. intros r v (y & mo & d & h & mi & s & ->). discriminate. Qed.
Lemma sub_plain : forall m v b, dt_valid m = true -> clock_unit v = true -> 0 <= b <= 1 ->
  let T := sod m - b * unit_secs v in
  calculate md (Subtraction (Moment m) (mk v b)) = built3 (back_day (year m) (month m) (day m + T / 86400)) (T mod 86400).
Proof.
  intros m v b Hm Hv Hb T. destruct (valid_facts m Hm) as (Vy & Vmo & Vd & Vml & Vh & Vmi & Vs). pose proof (sod_range m Hm) as R.
  destruct v; try discriminate Hv.
  - destruct (sub_far md m USec b Hm eq_refl ltac:(discriminate) ltac:(cbn [period]; lia)) as [X _]. apply X. cbn [field modulus]. lia.
  - destruct (sub_far md m UMin b Hm eq_refl ltac:(discriminate) ltac:(cbn [period]; lia)) as [X _]. apply X. cbn [field modulus]. lia.
  - destruct (sub_far md m UHour b Hm eq_refl ltac:(discriminate) ltac:(cbn [period]; lia)) as [X _]. apply X. cbn [field modulus]. lia.
  - destruct (sub_far_days md m b Hm ltac:(cbn [period]; lia)) as [X _]. cbv zeta in X. cbn [mk]. rewrite X by lia. subst T. cbn [unit_secs].
  replace ((sod m - b * 86400) / 86400) with (- b) by lia. replace ((sod m - b * 86400) mod 86400) with (sod m) by lia. f_equal.
Qed.

Lemma back_day_apart : forall y mo D, back_day y mo D <> back_day y mo (D - 1).
Proof.
  intros y mo D H. unfold back_day in H. destruct (prev_month y mo) as [py pm]. destruct (1 <=? D) eqn:A, (1 <=? D - 1) eqn:B; apply triple_eq in H; lia.
Qed.
Lemma built3_same : forall q q' r r' m', 0 <= r < 86400 -> 0 <= r' < 86400 -> built3 q r = Ok (Moment m') -> built3 q' r' = Ok (Moment m') -> q = q' /\ r = r'.
Proof.
  intros [[y mo] d] [[y' mo'] d'] r r' m' Hr Hr' E E'. cbn [built3] in E, E'. apply built_ok in E as [_ E]. apply built_ok in E' as [_ E'].
  injection E as E. injection E' as E'. rewrite E in E'. unfold at_time in E'. injection E'. intros. split; [f_equal; [f_equal|]; congruence|lia].
Qed.

Lemma same_sub : forall m u v a b m', dt_valid m = true -> clock_unit u = true -> clock_unit v = true -> unit_secs u < unit_secs v ->
  0 <= a < period u -> a * unit_secs u = b * unit_secs v ->
  calculate md (Subtraction (Moment m) (mk v b)) = Ok (Moment m') ->
  (calculate md (Subtraction (Moment m) (mk u a)) = Ok (Moment m') <-> a = 0 \/ a = modulus u /\ 0 < field u m).
Proof.
  intros m u v a b m' Hm Hu Hv L Ha E R.
  assert (Du : u <> UDay) by (intros ->; destruct v; try discriminate Hv; cbn [unit_secs] in L; lia).
  assert (Fu : 0 <= field u m < modulus u).
  { destruct (valid_facts m Hm) as (Vy & Vmo & Vd & Vml & Vh & Vmi & Vs). destruct u; try discriminate Hu; try (exfalso; apply Du; reflexivity); cbn [field modulus]; lia. }
  assert (Q : exists q, a = q * modulus u).
  { destruct u, v; try discriminate Hu; try discriminate Hv; try (exfalso; apply Du; reflexivity); cbn [unit_secs modulus] in *; try lia;
      [exists b|exists (60 * b)|exists (1440 * b)|exists b|exists (24 * b)|exists b]; lia. }
  destruct Q as [q Q].
  assert (B1 : a = modulus u -> b = 1 /\ unit_secs v = modulus u * unit_secs u) by
    (intro X; destruct u, v; try discriminate Hu; try discriminate Hv; try (exfalso; apply Du; reflexivity); cbn [unit_secs modulus] in *; lia).
  assert (B0 : a = 0 -> b = 0) by (intro X; destruct u, v; try discriminate Hu; try discriminate Hv; cbn [unit_secs] in *; lia).
  destruct (sub_far md m u a Hm Hu Du Ha) as (S1 & S2 & S3). cbv zeta in S1, S2, S3.
  destruct (Z_lt_le_dec (field u m - a) (- modulus u)) as [C|C].
  { split; [intro X; exfalso; exact (oob_not_ok _ _ (S3 C) X)|nia]. }
  assert (q = 0 \/ q = 1) as [-> | ->] by nia.
  - assert (a = 0) as -> by lia. rewrite (B0 eq_refl) in *. split; [auto|]. intros _. rewrite S1 by lia.
    pose proof (sub_plain m v 0 Hm Hv ltac:(lia)) as P. cbv zeta in P. rewrite P in R. rewrite <- R, E. reflexivity.
  - assert (a = modulus u) by lia. destruct (B1 ltac:(assumption)) as [-> M1].
    pose proof (sub_plain m v 1 Hm Hv ltac:(lia)) as P. cbv zeta in P. rewrite P in R. rewrite E in *.
    destruct (Z_lt_le_dec 0 (field u m)) as [F|F].
    + split; [auto|]. intros _. rewrite S1 by lia. exact R.
    + split; [|lia]. intro X. exfalso. rewrite S2 in X by lia. 
      pose proof (built3_same _ _ _ _ m' (Z.mod_pos_bound _ 86400 eq_refl) (Z.mod_pos_bound _ 86400 eq_refl) R X) as [K1 K2].
      destruct u; try discriminate Hu; try (exfalso; apply Du; reflexivity); cbn [modulus unit_secs] in *; [lia|lia|].
      apply (back_day_apart (year m) (month m) (day m + (sod m - 1 * unit_secs v) / 86400)). rewrite K1. f_equal. lia.
Qed.

(** ** Months and years *)
Lemma same_months_years : forall m n, dt_valid m = true -> 0 <= n -> month m + 12 * n < i64_max ->
  (calculate md (Addition (Moment m) (Months (12 * n))) = calculate md (Addition (Moment m) (Years n)) <->
   n = 0 \/ day m <= 30 /\ ~ (month m = 2 /\ day m = 29 /\ leap (wrap32 (year m + n)) = false)).
Proof.
  intros m n Hm Hn Hb. destruct (valid_facts m Hm) as (Vy & Vmo & Vd & Vml & Vh & Vmi & Vs). unfold min_year, max_year in Vy.
  rewrite add_months by (assumption || lia).
  rewrite add_years by (assumption || (unfold i64_min, i64_max in *; lia) || (apply in_i64_iff; unfold i64_min, i64_max in *; lia)).
  assert (ML : month_length (wrap32 (year m + n)) 2 = if leap (wrap32 (year m + n)) then 29 else 28) by reflexivity.
  unfold plus_months, in_year. cbv zeta. destruct (Z.eq_dec n 0) as [->|N].
  { split; [auto|]. intros _. replace (month m + 12 * 0) with (month m) by lia. replace (year m + 0) with (year m) by lia.
    replace (month m <=? 12) with true by lia. replace (day m <=? month_length (year m) (month m)) with true by lia.
    assert (W : wrap32 (year m) = year m) by (unfold wrap32; lia). rewrite W.
    destruct ((month m =? 2) && (day m =? 29) && negb (leap (year m))) eqn:F; [|reflexivity]. exfalso.
    replace (month m) with 2 in Vml by lia. assert (X : month_length (year m) 2 = if leap (year m) then 29 else 28) by reflexivity.
    rewrite X in Vml. destruct (leap (year m)); lia. }
  replace (month m + 12 * n <=? 12) with false by lia. destruct (day m <=? 30) eqn:D.
  - replace ((month m + 12 * n - 1) / 12) with n by lia. replace ((month m + 12 * n - 1) mod 12 + 1) with (month m) by lia.
    destruct ((month m =? 2) && (day m =? 29) && negb (leap (wrap32 (year m + n)))) eqn:F.
    + apply andb_true_iff in F as [F FL]. apply negb_true_iff in FL. split; [|intros [X|[_ X]]; [contradiction|exfalso; apply X; repeat split; lia || exact FL]].
      intro X. exfalso. replace (month m) with 2 in X by lia. replace (day m) with 29 in X by lia. unfold built in X.
      replace (representable (wrap32 (year m + n)) 2 29) with false in X.
      * destruct (representable _ 3 1) in X; discriminate X.
      * symmetry. apply not_true_iff_false. intro K. apply representable_iff in K as [_ K]. apply date_exists_iff in K. rewrite ML, FL in K. lia.
    + split; [|reflexivity]. intros _. right. split; [lia|]. intros (X1 & X2 & X3). rewrite X1, X2, X3 in F. discriminate F.
  - split; [|lia]. intro X. exfalso. replace (day m =? 29) with false in X by lia. rewrite andb_false_r in X. cbn [andb] in X.
    replace (day m) with 31 in X by lia. unfold built in X.
    apply (f_equal (fun r => match r with Ok (Moment q) => (0, day q) | Err (OutOfBounds _ q _ _ _ _) => (1, q) | _ => (2, 0) end)) in X.
    destruct (representable _ _ 1) in X; destruct (representable _ _ 31) in X; cbn [day at_time] in X; apply pair_equal_spec in X as [X1 X2]; clear - X1 X2 Vmo; lia.
Qed.

Lemma same_months_years_sub : forall m n m', dt_valid m = true -> 0 <= n -> 12 * n < period UMonth ->
  calculate md (Subtraction (Moment m) (Years n)) = Ok (Moment m') ->
  (calculate md (Subtraction (Moment m) (Months (12 * n))) = Ok (Moment m') <-> n <= 1).
Proof.
  intros m n m' Hm Hn Hb R. destruct (valid_facts m Hm) as (Vy & Vmo & Vd & Vml & Vh & Vmi & Vs). unfold min_year, max_year in Vy. cbn [period] in Hb.
  rewrite sub_years in R by (assumption || (unfold i64_min, i64_max in *; lia) || (apply in_i64_iff; unfold i64_min, i64_max in *; lia)).
  destruct (sub_far_months md m (12 * n) Hm ltac:(cbn [period]; lia)) as (S1 & S2 & S3). cbv zeta in S1, S2, S3.
  destruct (Z_lt_le_dec 1 n) as [L|L].
  - split; [|lia]. intro X. exfalso. exact (oob_not_ok _ _ (S3 ltac:(lia)) X).
  - split; [intros _; exact L|intros _]. rewrite <- R. assert (n = 0 \/ n = 1) as [-> | ->] by lia.
    + rewrite S1 by lia. f_equal; [unfold wrap32|]; lia.
    + rewrite S2 by lia. f_equal; [unfold wrap32|]; lia.
Qed.
End Same.
