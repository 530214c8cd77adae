(** The calendar repeats every 400 years. *)
Require Import ZArith Bool List Lia ZifyBool.
From Verif Require Import Prelude Spec Chrono TimeType Iter SpecTree SpecMoment SpecIter SpecOver SpecWide SpecValue SpecAnswer SpecShift
  CalendarProofs AddProofs EvalProofs AnswerProofs2 AnswerProofs3 ShiftProofs.
Local Open Scope Z_scope.

Lemma leap_later : forall y k, leap (y + 400 * k) = leap y.
Proof.
  intros y k. unfold leap. replace ((y + 400 * k) mod 4) with (y mod 4) by (replace (y + 400 * k) with (y + (100 * k) * 4) by lia; symmetry; apply Z.mod_add; lia).
  replace ((y + 400 * k) mod 100) with (y mod 100) by (replace (y + 400 * k) with (y + (4 * k) * 100) by lia; symmetry; apply Z.mod_add; lia).
  replace ((y + 400 * k) mod 400) with (y mod 400) by (replace (y + 400 * k) with (y + k * 400) by lia; symmetry; apply Z.mod_add; lia). reflexivity.
Qed.
Lemma length_later : forall y k mo, month_length (y + 400 * k) mo = month_length y mo.
Proof. intros. unfold month_length. rewrite leap_later. reflexivity. Qed.
Lemma exists_later : forall y k mo d, date_exists (y + 400 * k) mo d = date_exists y mo d.
Proof. intros. unfold date_exists. rewrite length_later. reflexivity. Qed.
Lemma month_day_later : forall n y k mo d, month_day n (y + 400 * k) mo d = month_day n y mo d.
Proof. induction n as [|n IH]; intros; cbn [month_day]; [reflexivity|]. rewrite length_later, IH. reflexivity. Qed.
Lemma carry_later : forall y k mo d, carry_days (y + 400 * k) mo d = carry_days y mo d.
Proof. intros. unfold carry_days. rewrite month_day_later. reflexivity. Qed.

(** A moment moved by 400 [k] years, or the error that reports it. *)
Definition moved (k : Z) (x : datetime) : result :=
  if (min_year <=? year x + 400 * k) && (year x + 400 * k <=? max_year) then Ok (Moment (later k x))
  else Err (OutOfBounds (year x + 400 * k) (month x) (hour x) (hour x) (minute x) (second x)).

Definition near (k : Z) : Prop := -524287 <= 400 * k <= 524287.
(** Years that differ by 400 [k], up to what is cut off. *)
Definition apart (k y y' : Z) : Prop := exists j, y' = y + 400 * k + 4294967296 * j.
Lemma apart_wrap : forall k y y', near k -> apart k y y' -> -300000 <= wrap32 y <= 300000 -> wrap32 y' = wrap32 y + 400 * k.
Proof.
  intros k y y' N [j ->] R. unfold near in N. unfold wrap32 in *.
  replace (y + 400 * k + 4294967296 * j + 2147483648) with (y + 2147483648 + 400 * k + j * 4294967296) by lia. rewrite Z.mod_add by lia.
  pose proof (Z.div_mod (y + 2147483648) 4294967296 ltac:(lia)) as D. revert D R. generalize ((y + 2147483648) mod 4294967296), ((y + 2147483648) / 4294967296).
  intros r q D R. rewrite D. replace (4294967296 * q + r + 400 * k) with (r + 400 * k + q * 4294967296) by lia. rewrite Z.mod_add by lia. rewrite Z.mod_small by lia. lia.
Qed.
Lemma dated_later : forall k y y' mo d h mi s x, near k -> apart k y y' -> dated (y, mo, d, h, mi, s) = Ok (Moment x) ->
  dated (y', mo, d, h, mi, s) = moved k x /\ year x = wrap32 y.
Proof.
  intros k y y' mo d h mi s x N A H. unfold dated in *. unfold representable in *.
  destruct ((min_year <=? wrap32 y) && (wrap32 y <=? max_year)) eqn:R; cbn [andb] in H; [|discriminate H].
  unfold min_year, max_year in R. rewrite (apart_wrap k y y' N A) by lia. rewrite exists_later.
  destruct (date_exists (wrap32 y) (low32 mo) (low32 d)); cbn [andb] in *; [|discriminate H].
  destruct (low32 h <? 24), (low32 mi <? 60), (low32 s <? 60); cbn [andb] in *; try discriminate H.
  injection H as <-. unfold moved, later. cbn [year month day hour minute second nano]. rewrite !andb_true_r. split; reflexivity.
Qed.

Section Later.
Variables (md : mode) (k : Z).
Notation L := (later k).
Lemma valid_near : forall m, dt_valid m = true -> dt_valid (L m) = true -> near k.
Proof. intros m H H'. unfold dt_valid in *. unfold near. cbn [later year month day hour minute second nano] in H'. unfold min_year, max_year in *. lia. Qed.
(** One operation on a moment and on the moved moment. *)
Definition follows (r r' : result) : Prop := forall x, r = Ok (Moment x) -> r' = moved k x \/ (md = Checked /\ r' = Panic PArith).
Lemma carried_same : forall y y' mo d h mi s x, near k -> apart k y y' -> carry_days (wrap32 y') mo (d + Z.quot (h + Z.quot (mi + Z.quot s 60) 60) 24) = carry_days (wrap32 y) mo (d + Z.quot (h + Z.quot (mi + Z.quot s 60) 60) 24) ->
  carried md (y, mo, d, h, mi, s) = Ok (Moment x) -> carried md (y', mo, d, h, mi, s) = moved k x.
Proof.
  intros y y' mo d h mi s x N A E H. unfold carried in *. rewrite E. destruct (carry_days (wrap32 y) _ _) as [mo' d'].
  assert (G : forall M, (let '(yy, mm) := if 12 <? M then (y + (M - 1) / 12, (M - 1) mod 12 + 1) else (y, M) in
      dated (yy, mm, d', Z.rem (h + Z.quot (mi + Z.quot s 60) 60) 24, Z.rem (mi + Z.quot s 60) 60, Z.rem s 60)) = Ok (Moment x) ->
    (let '(yy, mm) := if 12 <? M then (y' + (M - 1) / 12, (M - 1) mod 12 + 1) else (y', M) in
      dated (yy, mm, d', Z.rem (h + Z.quot (mi + Z.quot s 60) 60) 24, Z.rem (mi + Z.quot s 60) 60, Z.rem s 60)) = moved k x).
  { intros M. destruct (12 <? M); intro K; eapply dated_later in K; try exact N; try (apply K); [|exact A].
    destruct A as [j ->]. exists j. lia. }
  unfold within in *. destruct (in_i64 mo'); [apply G; exact H|]. destruct md; [discriminate H|]. apply G. exact H.
Qed.
Lemma carry_small : forall y mo d, 1 <= mo <= 12 -> 1 <= d <= 31 -> 1 <= fst (carry_days y mo d) <= 12.
Proof.
  intros y mo d Hm Hd. unfold carry_days. replace ((1 <=? mo) && (mo <=? 12)) with true by lia.
  assert (X : let '(M, D) := month_day (Z.to_nat (13 - mo)) y mo d in 1 <= M <= 12).
  { replace (Z.to_nat (13 - mo)) with (S (Z.to_nat (12 - mo))) by lia. cbn [month_day]. destruct (d <=? month_length y mo) eqn:E; [lia|].
    pose proof (month_length_bounds y mo Hm) as B. destruct (Z.eq_dec mo 12) as [->|N].
    - exfalso. change (month_length y 12) with 31 in E. lia.
    - replace (Z.to_nat (12 - mo)) with (S (Z.to_nat (11 - mo))) by lia. cbn [month_day]. pose proof (month_length_bounds y (mo + 1) ltac:(lia)).
      replace (d - month_length y mo <=? month_length y (mo + 1)) with true by lia. lia. }
  destruct (month_day _ y mo d) as [M D]. replace ((1 <=? M) && (M <=? 12)) with true by lia. exact X.
Qed.
Lemma apart_plus : forall y, apart k y (y + 400 * k).
Proof. intro y. exists 0. lia. Qed.
Lemma wrap64_apart : forall z, exists j, wrap64 z = z + 4294967296 * j.
Proof. intro z. unfold wrap64. pose proof (Z.div_mod (z + 9223372036854775808) 18446744073709551616 ltac:(lia)) as D. exists (- (4294967296 * ((z + 9223372036854775808) / 18446744073709551616))). lia. Qed.
Lemma year_small : forall x mo d h mi s v, 1 <= mo <= 12 -> 1 <= d <= 31 -> 0 <= h < 24 -> 0 <= mi < 60 -> 0 <= s < 60 ->
  carried md (x, mo, d, h, mi, s) = Ok (Moment v) -> -300000 <= wrap32 x <= 300000.
Proof.
  intros x mo d h mi s v Hmo Hd Hh Hmi Hs H. unfold carried in H. rewrite (Z.quot_small s) in H by lia. rewrite Z.add_0_r in H.
  rewrite (Z.quot_small mi) in H by lia. rewrite Z.add_0_r in H. rewrite (Z.quot_small h), Z.add_0_r in H by lia.
  pose proof (carry_small (wrap32 x) mo d Hmo Hd) as C. destruct (carry_days _ mo d) as [M D]. cbn [fst] in C.
  assert (I : in_i64 M = true) by (unfold in_i64, i64_min, i64_max; lia). unfold within in H. rewrite I in H.
  replace (12 <? M) with false in H by lia. unfold dated, representable in H.
  destruct ((min_year <=? wrap32 x) && (wrap32 x <=? max_year)) eqn:R; [|discriminate H]. unfold min_year, max_year in R. lia.
Qed.
Lemma valid_parts : forall m, dt_valid m = true -> min_year <= year m <= max_year /\ 1 <= month m <= 12 /\ 1 <= day m <= 31 /\ 0 <= hour m < 24 /\ 0 <= minute m < 60 /\ 0 <= second m < 60.
Proof.
  intros m H. unfold dt_valid, date_exists in H. assert (1 <= month m <= 12) by lia. pose proof (month_length_bounds (year m) (month m) ltac:(lia)). lia.
Qed.
Lemma forward_later : forall m u n, dt_valid m = true -> dt_valid (L m) = true -> follows (forward md m u n) (forward md (L m) u n).
Proof.
  intros m u n V V' x H. pose proof (valid_near m V V') as N. destruct (valid_parts m V) as (Y & Mo & Da & Ho & Mi & Se).
  assert (Same : u <> UYear -> forward md (L m) u n = moved k x).
  { intro U. unfold forward in *. replace (field u (L m)) with (field u m) by (destruct u; try reflexivity; elim U; reflexivity).
    assert (G : forall z, carried md (numbers_of m u z) = Ok (Moment x) -> carried md (numbers_of (L m) u z) = moved k x).
    { intros z. assert (E : wrap32 (year m + 400 * k) = wrap32 (year m) + 400 * k).
      { apply apart_wrap; [exact N|apply apart_plus|]. rewrite wrap32_id; unfold min_year, max_year in Y; lia. }
      destruct u; try (elim U; reflexivity); cbn [numbers_of later year month day hour minute second]; apply carried_same; try exact N; try apply apart_plus; rewrite E; apply carry_later. }
    unfold within in *. destruct (in_i64 (field u m + n)); [apply G; exact H|]. destruct md eqn:Em; [discriminate H|]. rewrite <- Em in *. apply G. exact H. }
  destruct u; try (left; apply Same; discriminate). clear Same. unfold forward in *. cbn [field] in *.
  assert (G : forall z z', apart k z z' -> carried md (numbers_of m UYear z) = Ok (Moment x) -> carried md (numbers_of (L m) UYear z') = moved k x).
  { intros z z' A K. cbn [numbers_of later year month day hour minute second] in *. apply (carried_same z); try assumption.
    pose proof (year_small _ _ _ _ _ _ _ Mo Da Ho Mi Se K) as R. rewrite (apart_wrap k z z' N A R). apply carry_later. }
  unfold within in *. cbn [later year]. 
  assert (A : forall a b, (exists j, a = year m + n + 4294967296 * j) -> (exists j, b = year m + 400 * k + n + 4294967296 * j) -> apart k a b).
  { intros a b [j ->] [j' ->]. exists (j' - j). lia. }
  assert (I : forall z, exists j, z = z + 4294967296 * j) by (intro z; exists 0; lia).
  destruct (in_i64 (year m + n)).
  - destruct (in_i64 (year m + 400 * k + n)).
    + left. refine (G _ _ _ H). apply A; apply I.
    + destruct md eqn:Em; [right; split; reflexivity|]. rewrite <- Em in *. left. refine (G _ _ _ H). apply A; [apply I|apply wrap64_apart].
  - destruct md eqn:Em; [discriminate H|]. rewrite <- Em in *. left. destruct (in_i64 (year m + 400 * k + n)).
    + refine (G _ _ _ H). apply A; [apply wrap64_apart|apply I].
    + refine (G _ _ _ H). apply A; apply wrap64_apart.
Qed.
Lemma lent_later : forall y y' mo d h mi s x, near k -> apart k y y' -> dated (lent (y, mo, d, h, mi, s)) = Ok (Moment x) ->
  dated (lent (y', mo, d, h, mi, s)) = moved k x.
Proof.
  intros y y' mo d h mi s x N A. unfold lent. destruct (lend 0 60 60 mi s) as [mi' s']. destruct (lend 0 60 60 h mi') as [h' mi''].
  destruct (lend 0 24 24 d h') as [d' h'']. destruct (lend 1 32 31 mo d') as [mo' d'']. unfold lend. destruct (mo' <? 1); intro H.
  - eapply dated_later in H; [apply H|exact N|]. destruct A as [j ->]. exists j. lia.
  - eapply dated_later in H; [apply H|exact N|exact A].
Qed.
Lemma backward_later : forall m u n, dt_valid m = true -> dt_valid (L m) = true -> follows (backward md m u n) (backward md (L m) u n).
Proof.
  intros m u n V V' x H. pose proof (valid_near m V V') as N.
  assert (Same : u <> UYear -> backward md (L m) u n = moved k x).
  { intro U. unfold backward in *. replace (field u (L m)) with (field u m) by (destruct u; try reflexivity; elim U; reflexivity).
    assert (G : forall z, dated (lent (numbers_of m u z)) = Ok (Moment x) -> dated (lent (numbers_of (L m) u z)) = moved k x).
    { intros z. destruct u; try (elim U; reflexivity); cbn [numbers_of later year month day hour minute second]; apply lent_later; try exact N; apply apart_plus. }
    unfold within in *. destruct (in_i64 (field u m - n)); [apply G; exact H|]. destruct md; [discriminate H|]. apply G. exact H. }
  destruct u; try (left; apply Same; discriminate). clear Same. unfold backward in *. cbn [field] in *.
  assert (G : forall z z', apart k z z' -> dated (lent (numbers_of m UYear z)) = Ok (Moment x) -> dated (lent (numbers_of (L m) UYear z')) = moved k x).
  { intros z z' A K. cbn [numbers_of later year month day hour minute second] in *. apply (lent_later z); assumption. }
  unfold within in *. cbn [later year].
  assert (A : forall a b, (exists j, a = year m - n + 4294967296 * j) -> (exists j, b = year m + 400 * k - n + 4294967296 * j) -> apart k a b).
  { intros a b [j ->] [j' ->]. exists (j' - j). lia. }
  assert (I : forall z, exists j, z = z + 4294967296 * j) by (intro z; exists 0; lia).
  destruct (in_i64 (year m - n)).
  - destruct (in_i64 (year m + 400 * k - n)).
    + left. refine (G _ _ _ H). apply A; apply I.
    + destruct md eqn:Em; [right; split; reflexivity|]. left. refine (G _ _ _ H). apply A; [apply I|apply wrap64_apart].
  - destruct md eqn:Em; [discriminate H|]. left. destruct (in_i64 (year m + 400 * k - n)).
    + refine (G _ _ _ H). apply A; [apply wrap64_apart|apply I].
    + refine (G _ _ _ H). apply A; apply wrap64_apart.
Qed.

(** Whole expressions. *)
Definition leaves (x : datetime) : Prop := ~ (min_year <= year x + 400 * k <= max_year).
Definition shifted (t : timetype) (v : timetype) (r' : result) : Prop :=
  (r' = Ok (over L v) /\ tt_ok (over L v) = true) \/ (md = Checked /\ r' = Panic PArith) \/ (oob r' /\ exists s x, part s t /\ answer md s = Ok (Moment x) /\ leaves x).
Lemma moved_shifted : forall t x, dt_valid x = true -> answer md t = Ok (Moment x) -> shifted t (Moment x) (moved k x).
Proof.
  intros t x V A. unfold moved. destruct ((min_year <=? year x + 400 * k) && (year x + 400 * k <=? max_year)) eqn:E.
  - left. split; [reflexivity|]. cbn [over tt_ok]. unfold dt_valid in *. cbn [later year month day hour minute second nano]. rewrite exists_later.
    rewrite !andb_true_iff in *. tauto.
  - right. right. split; [repeat eexists|]. exists t, x. split; [constructor|]. split; [exact A|]. unfold leaves. lia.
Qed.
Lemma amount_ok_same : forall t r, amount_of md t = r -> amount_of md (over L t) = r.
Proof. intros t r <-. unfold amount_of. rewrite over_secs, over_finest, over_fits. reflexivity. Qed.
Lemma amount_over_id : forall t v, amount_of md t = Ok v -> over L v = v.
Proof. intros t v. unfold amount_of. destruct (fits t); [|destruct md; [discriminate|]]; intros [= <-]; apply over_mk. Qed.
Lemma values_shifted : forall t v w z, answer md t = Ok z -> tt_ok t = true -> tt_ok v = true -> tt_ok (over L v) = true ->
  plus_values md v w = Ok z \/ minus_values md v w = Ok z ->
  (plus_values md v w = Ok z -> shifted t z (plus_values md (over L v) (over L w))) /\
  (minus_values md v w = Ok z -> shifted t z (minus_values md (over L v) (over L w))).
Proof.
  intros t v w z A T V V' _. pose proof (answer_good md t T) as G. rewrite A in G. destruct G as [_ Z].
  split; [rewrite !plus_cases|rewrite !minus_cases]; rewrite over_leaf, over_finest, over_secs; (destruct (is_moment_leaf w); [discriminate|]);
    (assert (Am : forall x, amount_of md x = Ok z -> shifted t z (amount_of md (over L x))) by
      (intros x E; rewrite (amount_ok_same x _ E); left; rewrite (amount_over_id x z E); split; [reflexivity|exact Z]));
    destruct v as [q|q|q|q|q|q|m|a b|a b|e|e|e|e|e]; cbn [over];
    try (match goal with |- amount_of md ?x = Ok z -> _ => exact (Am x) end); intro H.
  - destruct (forward_moment md _ _ _ _ H) as [x ->]. destruct (forward_later m _ _ V V' x H) as [->|P]; [|right; left; exact P]. apply moved_shifted; assumption.
  - assert (X : exists x, z = Moment x).
    { unfold backward, within in H. assert (D : forall f, dated f = Ok z -> exists x, z = Moment x).
      { intros [[[[[y mo] d] h] mi] s]. unfold dated. destruct (_ && _ && _ && _); [|discriminate]. intros [= <-]. eexists. reflexivity. }
      destruct (in_i64 _); [exact (D _ H)|]. destruct md; [discriminate H|exact (D _ H)]. }
    destruct X as [x ->]. destruct (backward_later m _ _ V V' x H) as [->|P]; [|right; left; exact P]. apply moved_shifted; assumption.
Qed.
Lemma bind_shifted : forall a t v z r' (g' : timetype -> result), (forall s, part s a -> part s t) -> shifted a v r' ->
  (tt_ok (over L v) = true -> shifted t z (g' (over L v))) -> shifted t z (bind r' g').
Proof.
  intros a t v z r' g' P [[-> V]|[[M ->]|[O (s & x & Ps & A & Lv)]]] G.
  - exact (G V).
  - right. left. split; [exact M|reflexivity].
  - right. right. destruct O as (y & mo & d & h & mi & se & ->). split; [repeat eexists|]. exists s, x. split; [apply P; exact Ps|]. split; assumption.
Qed.
Lemma bind_ok : forall (r : result) (g : timetype -> result) z, bind r g = Ok z -> exists v, r = Ok v /\ g v = Ok z.
Proof. intros [v|e|p|] g z H; try discriminate H. exists v. split; [reflexivity|exact H]. Qed.
Lemma good_value : forall t v, tt_ok t = true -> answer md t = Ok v -> tt_ok v = true.
Proof. intros t v T A. pose proof (answer_good md t T) as G. rewrite A in G. apply G. Qed.
Lemma or_moment : forall v (e : kek) (y : result) z, moment_or_else v (Err e) y = Ok z -> is_moment_leaf v = false /\ y = Ok z.
Proof. intros v e y z H. destruct v; try discriminate H; split; (reflexivity || exact H). Qed.
Lemma or_not : forall v (x y : result), is_moment_leaf v = false -> moment_or_else v x y = y.
Proof. intros v x y H. destruct v; try discriminate H; reflexivity. Qed.
Lemma ended_shifted : forall p e t, (forall s, part s e -> part s t) -> answer md t = ended p (answer md e) -> tt_ok e = true -> tt_ok t = true -> tt_ok (over L e) = true ->
  (forall v, answer md e = Ok v -> shifted e v (answer md (over L e))) -> forall z, answer md t = Ok z -> shifted t z (ended p (answer md (over L e))).
Proof.
  intros p e t P E Te Tt Te' IH z H. assert (H' := H). rewrite E in H'. unfold ended in *. destruct (bind_ok _ _ _ H') as (v & Av & Hv).
  refine (bind_shifted e t v z _ _ P (IH v Av) _). intro V'. destruct v as [q|q|q|q|q|q|m|a b|a b|w|w|w|w|w]; try discriminate Hv.
  injection Hv as <-. cbn [over]. replace (Ok (Moment (end_at p (L m)))) with (moved k (end_at p m)).
  - apply moved_shifted; [|exact H]. exact (good_value _ _ Tt H).
  - unfold moved. cbn [over tt_ok] in V'. unfold dt_valid in V'. cbn [later year] in V'. rewrite !andb_true_iff in V'.
    replace (year (end_at p m)) with (year m) by (destruct p; reflexivity).
    replace ((min_year <=? year m + 400 * k) && (year m + 400 * k <=? max_year)) with true by (symmetry; rewrite andb_true_iff; tauto).
    do 2 f_equal. destruct p; unfold later; cbn [end_at year month day hour minute second nano]; rewrite ?length_later; reflexivity.
Qed.
Lemma shift : forall t, tt_ok t = true -> tt_ok (over L t) = true -> forall z, answer md t = Ok z -> shifted t z (answer md (over L t)).
Proof.
  induction t as [q|q|q|q|q|q|m|a IHa b IHb|a IHa b IHb|e IHe|e IHe|e IHe|e IHe|e IHe]; intros T T' z H;
    try (injection H as <-; left; split; [reflexivity|exact T']).
  - assert (T0 := T). assert (H0 := H). cbn [over tt_ok] in T, T'. apply andb_prop in T. apply andb_prop in T'. destruct T as [Ta Tb]. destruct T' as [Ta' Tb'].
    specialize (IHa Ta Ta'). specialize (IHb Tb Tb'). set (t := Addition a b) in *.
    assert (Pa : forall s, part s a -> part s t) by (intros; apply P_add_l; assumption).
    assert (Pb : forall s, part s b -> part s t) by (intros; apply P_add_r; assumption).
    unfold t in H. cbn [answer] in H. unfold t at 2. cbn [over answer]. rewrite !over_leaf, !over_diff, !over_sum, !over_end.
    destruct (is_moment_leaf b); [discriminate H|].
    destruct (is_diff a).
    + destruct (is_sum b).
      * destruct (bind_ok _ _ _ H) as (w & Aw & Hw). destruct (or_moment _ _ _ _ Hw) as [Nw Hw']. destruct (bind_ok _ _ _ Hw') as (v & Av & Hv).
        refine (bind_shifted b t w z _ _ Pb (IHb w Aw) _). intro W'. rewrite or_not by (rewrite over_leaf; exact Nw).
        refine (bind_shifted a t v z _ _ Pa (IHa v Av) _). intro V'.
        apply (values_shifted t w v z H0 T0 (good_value _ _ Tb Aw) W' (or_introl Hv)). exact Hv.
      * destruct (bind_ok _ _ _ H) as (v & Av & Hv). destruct (or_moment _ _ _ _ Hv) as [Nv Hv'].
        refine (bind_shifted a t v z _ _ Pa (IHa v Av) _). intro V'. rewrite or_not by (rewrite over_leaf; exact Nv).
        destruct (is_end b); [discriminate Hv'|]. destruct (bind_ok _ _ _ Hv') as (w & Aw & Hw).
        refine (bind_shifted b t w z _ _ Pb (IHb w Aw) _). intro W'.
        apply (values_shifted t v w z H0 T0 (good_value _ _ Ta Av) V' (or_introl Hw)). exact Hw.
    + destruct (is_end a).
      * exfalso. destruct b; try discriminate H; destruct (bind_ok _ _ _ H) as (w & _ & Hw); discriminate Hw.
      * destruct (bind_ok _ _ _ H) as (v & Av & Hv). refine (bind_shifted a t v z _ _ Pa (IHa v Av) _). intro V'.
        destruct (is_end b); [discriminate Hv|]. destruct (bind_ok _ _ _ Hv) as (w & Aw & Hw).
        refine (bind_shifted b t w z _ _ Pb (IHb w Aw) _). intro W'.
        apply (values_shifted t v w z H0 T0 (good_value _ _ Ta Av) V' (or_introl Hw)). exact Hw.
  - assert (T0 := T). assert (H0 := H). cbn [over tt_ok] in T, T'. apply andb_prop in T. apply andb_prop in T'. destruct T as [Ta Tb]. destruct T' as [Ta' Tb'].
    specialize (IHa Ta Ta'). specialize (IHb Tb Tb'). set (t := Subtraction a b) in *.
    assert (Pa : forall s, part s a -> part s t) by (intros; apply P_sub_l; assumption).
    assert (Pb : forall s, part s b -> part s t) by (intros; apply P_sub_r; assumption).
    unfold t in H. cbn [answer] in H. unfold t at 2. cbn [over answer]. rewrite !over_diff, !over_sum, !over_end.
    destruct (is_sum a && is_diff b).
    + destruct (bind_ok _ _ _ H) as (w & Aw & Hw). destruct (bind_ok _ _ _ Hw) as (v & Av & Hv).
      refine (bind_shifted b t w z _ _ Pb (IHb w Aw) _). intro W'. refine (bind_shifted a t v z _ _ Pa (IHa v Av) _). intro V'.
      apply (values_shifted t v w z H0 T0 (good_value _ _ Ta Av) V' (or_intror Hv)). exact Hv.
    + destruct (is_end a).
      * exfalso. destruct b; try discriminate H; destruct (bind_ok _ _ _ H) as (w & _ & Hw); discriminate Hw.
      * destruct (bind_ok _ _ _ H) as (v & Av & Hv). refine (bind_shifted a t v z _ _ Pa (IHa v Av) _). intro V'.
        destruct (is_end b); [discriminate Hv|]. destruct (bind_ok _ _ _ Hv) as (w & Aw & Hw).
        refine (bind_shifted b t w z _ _ Pb (IHb w Aw) _). intro W'.
        apply (values_shifted t v w z H0 T0 (good_value _ _ Ta Av) V' (or_intror Hw)). exact Hw.
  - exact (ended_shifted PYear e (EndOfYear e) (fun s => P_end SpecMoment.PYear s e) eq_refl T T T' (IHe T T') z H).
  - exact (ended_shifted PMonth e (EndOfMonth e) (fun s => P_end SpecMoment.PMonth s e) eq_refl T T T' (IHe T T') z H).
  - exact (ended_shifted PDay e (EndOfDay e) (fun s => P_end SpecMoment.PDay s e) eq_refl T T T' (IHe T T') z H).
  - exact (ended_shifted PHour e (EndOfHour e) (fun s => P_end SpecMoment.PHour s e) eq_refl T T T' (IHe T T') z H).
  - exact (ended_shifted PMinute e (EndOfMinute e) (fun s => P_end SpecMoment.PMinute s e) eq_refl T T T' (IHe T T') z H).
Qed.
End Later.
