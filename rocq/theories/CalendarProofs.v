(** Facts about the specification calendar, and the model's calendar helpers against it. *)
Require Import ZArith Bool List Lia ZifyBool.
From Verif Require Import Prelude Spec Chrono Util PreludeProofs.
Local Open Scope Z_scope.
Ltac Zify.zify_post_hook ::= Z.div_mod_to_equations.

Lemma month_cases : forall m, 1 <= m <= 12 ->
  m = 1 \/ m = 2 \/ m = 3 \/ m = 4 \/ m = 5 \/ m = 6 \/ m = 7 \/ m = 8 \/ m = 9 \/ m = 10 \/
  m = 11 \/ m = 12.
Proof. lia. Qed.

Ltac month_split m H :=
  destruct (month_cases m H) as [?|[?|[?|[?|[?|[?|[?|[?|[?|[?|[?|?]]]]]]]]]]]; subst m.

Lemma month_length_val : forall y m, 1 <= m <= 12 ->
  month_length y m =
  (if m =? 2 then if leap y then 29 else 28
   else if (m =? 4) || (m =? 6) || (m =? 9) || (m =? 11) then 30 else 31).
Proof. intros y m H. month_split m H; reflexivity. Qed.

Lemma month_length_bounds : forall y m, 1 <= m <= 12 -> 28 <= month_length y m <= 31.
Proof.
  intros y m H. rewrite month_length_val by assumption.
  destruct (m =? 2); [destruct (leap y); lia|]. destruct (_ || _); lia.
Qed.

Lemma date_exists_iff : forall y m d,
  date_exists y m d = true <-> 1 <= m <= 12 /\ 1 <= d <= month_length y m.
Proof. intros. unfold date_exists. lia. Qed.

(** The same functions with the leap flag as an argument, so that they compute. *)
Definition ml (b : bool) (m : Z) : Z :=
  nth (Z.to_nat (m - 1))
      (31 :: (if b then 29 else 28) :: 31 :: 30 :: 31 :: 30 :: 31 :: 31 :: 30 :: 31 :: 30 :: 31 :: nil) 0.
Fixpoint dbn (b : bool) (k : nat) : Z :=
  match k with O => 0 | S k' => dbn b k' + ml b (Z.of_nat k' + 1) end.
Lemma dbn_days : forall y k, days_before_nat y k = dbn (leap y) k.
Proof. intros y k. induction k; cbn [days_before_nat dbn]; [reflexivity|]. rewrite IHk. reflexivity. Qed.

Lemma days_before_val : forall y m, 1 <= m <= 13 ->
  days_before y m =
  nth (Z.to_nat (m - 1))
    (let l := if leap y then 1 else 0 in
     0 :: 31 :: 59 + l :: 90 + l :: 120 + l :: 151 + l :: 181 + l :: 212 + l :: 243 + l ::
     273 + l :: 304 + l :: 334 + l :: 365 + l :: nil) 0.
Proof.
  intros y m H. unfold days_before. rewrite dbn_days.
  assert (m = 13 \/ 1 <= m <= 12) as [->|H'] by lia.
  - destruct (leap y); reflexivity.
  - destruct (leap y); month_split m H'; reflexivity.
Qed.

Lemma days_before_succ : forall y m, 1 <= m <= 12 ->
  days_before y (m + 1) = days_before y m + month_length y m.
Proof.
  intros y m H. unfold days_before.
  replace (Z.to_nat (m + 1 - 1)) with (S (Z.to_nat (m - 1))) by lia.
  cbn [days_before_nat]. f_equal. f_equal. lia.
Qed.

Lemma days_before_1 : forall y, days_before y 1 = 0.
Proof. reflexivity. Qed.

Lemma days_before_13 : forall y, days_before y 13 = year_length y.
Proof. intro y. rewrite days_before_val by lia. unfold year_length. cbn. destruct (leap y); reflexivity. Qed.

Lemma year_length_bounds : forall y, 365 <= year_length y <= 366.
Proof. intro y. unfold year_length. destruct (leap y); lia. Qed.

Lemma days_before_mono : forall y m m', 1 <= m -> m <= m' -> m' <= 13 ->
  days_before y m + 28 * (m' - m) <= days_before y m' <= days_before y m + 31 * (m' - m).
Proof.
  intros y m m' H1 H2 H3.
  assert (Hk : forall k : nat, m + Z.of_nat k <= 13 ->
     days_before y m + 28 * Z.of_nat k <= days_before y (m + Z.of_nat k)
     <= days_before y m + 31 * Z.of_nat k).
  { induction k; intros Hk.
    - replace (m + Z.of_nat 0) with m by lia. lia.
    - rewrite Nat2Z.inj_succ in *.
      replace (m + Z.succ (Z.of_nat k)) with ((m + Z.of_nat k) + 1) by lia.
      rewrite days_before_succ by lia.
      pose proof (month_length_bounds y (m + Z.of_nat k)). lia. }
  specialize (Hk (Z.to_nat (m' - m))). rewrite Z2Nat.id in Hk by lia.
  replace (m + (m' - m)) with m' in Hk by lia. lia.
Qed.

(** A date lies inside its year. *)
Lemma doy_bounds : forall y m d, date_exists y m d = true ->
  1 <= days_before y m + d <= year_length y.
Proof.
  intros y m d H. apply date_exists_iff in H. destruct H as [Hm Hd].
  pose proof (days_before_mono y 1 m). rewrite days_before_1 in *.
  pose proof (days_before_mono y (m + 1) 13). rewrite days_before_succ in * by lia.
  rewrite days_before_13 in *. lia.
Qed.

Lemma leap_year_step : forall y, days_before_year (y + 1) = days_before_year y + year_length y.
Proof.
  intro y. unfold days_before_year, year_length, leap.
  replace (y + 1 - 1) with y by lia.
  destruct (y mod 4 =? 0) eqn:E4; destruct (y mod 100 =? 0) eqn:E100;
    destruct (y mod 400 =? 0) eqn:E400; cbn [andb orb negb]; lia.
Qed.

Lemma days_before_year_mono : forall y y', y <= y' ->
  days_before_year y + 365 * (y' - y) <= days_before_year y' <= days_before_year y + 366 * (y' - y).
Proof.
  intros y y' H.
  assert (Hk : forall k : nat,
     days_before_year y + 365 * Z.of_nat k <= days_before_year (y + Z.of_nat k)
     <= days_before_year y + 366 * Z.of_nat k).
  { induction k.
    - replace (y + Z.of_nat 0) with y by lia. lia.
    - rewrite Nat2Z.inj_succ.
      replace (y + Z.succ (Z.of_nat k)) with ((y + Z.of_nat k) + 1) by lia.
      rewrite leap_year_step. pose proof (year_length_bounds (y + Z.of_nat k)). lia. }
  specialize (Hk (Z.to_nat (y' - y))). rewrite Z2Nat.id in Hk by lia.
  replace (y + (y' - y)) with y' in Hk by lia. lia.
Qed.

(** ** Sanity of the specification calendar *)
(** The day after [d] in the same month, after a month end, and after a year end. *)
Lemma day_number_next_day : forall y m d, day_number y m (d + 1) = day_number y m d + 1.
Proof. intros. unfold day_number. lia. Qed.
Lemma day_number_next_month : forall y m, 1 <= m <= 12 ->
  day_number y (m + 1) 1 = day_number y m (month_length y m) + 1.
Proof. intros. unfold day_number. rewrite days_before_succ by assumption. lia. Qed.
Lemma day_number_next_year : forall y, day_number (y + 1) 1 1 = day_number y 12 31 + 1.
Proof.
  intro y. unfold day_number. rewrite leap_year_step, days_before_1.
  rewrite <- days_before_13. replace 13 with (12 + 1) by lia. rewrite days_before_succ by lia.
  change (month_length y 12) with 31. lia.
Qed.
Lemma day_number_month13 : forall y d, day_number y 13 d = day_number (y + 1) 1 d.
Proof. intros. unfold day_number. rewrite days_before_13, leap_year_step, days_before_1. lia. Qed.

Lemma day_number_lt_year : forall y m d y' m' d',
  date_exists y m d = true -> date_exists y' m' d' = true -> y < y' ->
  day_number y m d < day_number y' m' d'.
Proof.
  intros y m d y' m' d' H H' Hy.
  pose proof (doy_bounds _ _ _ H). pose proof (doy_bounds _ _ _ H').
  pose proof (days_before_year_mono (y + 1) y'). rewrite leap_year_step in *.
  unfold day_number. lia.
Qed.

Lemma day_number_lt_month : forall y m d m' d',
  date_exists y m d = true -> date_exists y m' d' = true -> m < m' ->
  day_number y m d < day_number y m' d'.
Proof.
  intros y m d m' d' H H' Hm. apply date_exists_iff in H. apply date_exists_iff in H'.
  pose proof (days_before_mono y (m + 1) m'). rewrite days_before_succ in * by lia.
  unfold day_number. lia.
Qed.

(** The day number orders existing dates like (year, month, day). *)
Lemma day_number_lt_iff : forall y m d y' m' d',
  date_exists y m d = true -> date_exists y' m' d' = true ->
  (day_number y m d < day_number y' m' d' <->
   y < y' \/ (y = y' /\ (m < m' \/ (m = m' /\ d < d')))).
Proof.
  intros y m d y' m' d' H H'. split.
  - intro Hlt. destruct (Z.lt_trichotomy y y') as [L|[->|G]].
    + left; assumption.
    + destruct (Z.lt_trichotomy m m') as [L|[->|G]].
      * right; split; auto.
      * right; split; auto. right; split; auto. unfold day_number in Hlt. lia.
      * pose proof (day_number_lt_month y' m' d' m d H' H G). lia.
    + pose proof (day_number_lt_year _ _ _ _ _ _ H' H G). lia.
  - intros [L|[-> [L|[-> L]]]].
    + apply day_number_lt_year; assumption.
    + apply day_number_lt_month; assumption.
    + unfold day_number. lia.
Qed.

Lemma day_number_inj : forall y m d y' m' d',
  date_exists y m d = true -> date_exists y' m' d' = true ->
  day_number y m d = day_number y' m' d' -> y = y' /\ m = m' /\ d = d'.
Proof.
  intros y m d y' m' d' H H' E.
  pose proof (day_number_lt_iff _ _ _ _ _ _ H H').
  pose proof (day_number_lt_iff _ _ _ _ _ _ H' H). lia.
Qed.

(** Every ordinal day of a year is a date of that year. *)
Lemma ordinal_exists : forall y k, 1 <= k <= year_length y ->
  exists m d, date_exists y m d = true /\ days_before y m + d = k.
Proof.
  intros y k Hk.
  assert (Hm : forall n : nat, (n <= 12)%nat -> k <= days_before y (Z.of_nat n + 1) ->
     exists m d, date_exists y m d = true /\ days_before y m + d = k).
  { induction n; intros Hn Hle.
    - cbn in Hle. lia.
    - destruct (Z_le_gt_dec k (days_before y (Z.of_nat n + 1))) as [L|G].
      + apply IHn; [lia|assumption].
      + exists (Z.of_nat n + 1), (k - days_before y (Z.of_nat n + 1)). split; [|lia].
        rewrite Nat2Z.inj_succ in Hle.
        replace (Z.succ (Z.of_nat n) + 1) with ((Z.of_nat n + 1) + 1) in Hle by lia.
        rewrite days_before_succ in Hle by lia.
        apply date_exists_iff. lia. }
  apply (Hm 12%nat); [lia|]. change (Z.of_nat 12 + 1) with 13. rewrite days_before_13. lia.
Qed.

(** ** The library's own helpers *)
Lemma is_leap_year_leap : forall y, is_leap_year y = leap y.
Proof.
  intro y. unfold is_leap_year, leap.
  assert (H : forall k, 0 < k -> (Z.rem y k =? 0) = (y mod k =? 0)).
  { intros k Hk. apply eq_true_iff_eq. rewrite !Z.eqb_eq.
    rewrite Z.rem_divide, Z.mod_divide by lia. reflexivity. }
  rewrite !H by lia. reflexivity.
Qed.

Lemma gndm_val : forall y m, -2147483648 <= y < 2147483648 -> 1 <= m <= 12 ->
  get_num_of_days_in_month y m = month_length y m.
Proof.
  intros y m Hy Hm. unfold get_num_of_days_in_month.
  rewrite as_i32_id by assumption. rewrite is_leap_year_leap.
  month_split m Hm; reflexivity.
Qed.

Lemma gndm_else : forall y m, (m < 1 \/ 12 < m) -> get_num_of_days_in_month y m = 30.
Proof.
  intros y m H. unfold get_num_of_days_in_month.
  repeat match goal with |- context [m =? ?k] => replace (m =? k) with false by lia end.
  reflexivity.
Qed.

Lemma gndm_bounds : forall y m, 28 <= get_num_of_days_in_month y m <= 31.
Proof.
  intros y m. unfold get_num_of_days_in_month.
  destruct (_ || _); [lia|]. destruct (m =? 2); [|lia]. destruct (is_leap_year _); lia.
Qed.
