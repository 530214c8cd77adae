(** One amount subtracted from different moments (C119). *)
Require Import ZArith Bool List Lia ZifyBool.
From Verif Require Import Prelude Spec Chrono Util TimeType SpecTree SpecMoment SpecExact SpecWide SpecOrder SpecSwap SpecReach SpecMeet SpecApart PreludeProofs EvalProofs AmountProofs
  ShapeProofs CompProofs CalendarProofs OrdProofs AddProofs AddProofs2 SubProofs SubProofs2 ExactProofs4 FarProofs WideProofs SeqProofs OrderProofs OrderProofs2 FurtherProofs SwapProofs ReachProofs BackProofs IterProofs VisitProofs MeetProofs.
Local Open Scope Z_scope.
Local Ltac Zify.zify_post_hook ::= Z.to_euclidean_division_equations.

Section Apart.
Variable md : mode.

Lemma at_same : forall y mo d r y' mo' d' r', 0 <= r < 86400 -> 0 <= r' < 86400 -> at_time y mo d r = at_time y' mo' d' r' -> y = y' /\ mo = mo' /\ d = d' /\ r = r'.
Proof.
  intros y mo d r y' mo' d' r' R R' E.
  pose proof (f_equal year E) as A. pose proof (f_equal month E) as B. pose proof (f_equal day E) as C. pose proof (f_equal sod E) as D.
  rewrite !at_day_sod in D by assumption. auto.
Qed.
Lemma ok_at : forall y mo d r x, built y mo d r = Ok (Moment x) -> x = at_time y mo d r /\ representable y mo d = true.
Proof. intros y mo d r x E. apply built_ok in E as [P Q]. injection Q as ->. auto. Qed.

(** The field that decides on one too many is that of the result. *)
Lemma skip_same : forall u n a b, clock_unit u = true -> dt_valid a = true -> dt_valid b = true ->
  (sod a - taken u n a) mod 86400 = (sod b - taken u n b) mod 86400 -> sod a = sod b /\ taken u n a = taken u n b.
Proof.
  intros u n a b Hu Ha Hb E. pose proof (sod_range a Ha) as Ra. pose proof (sod_range b Hb) as Rb.
  destruct (valid_facts a Ha) as (_ & _ & _ & _ & A1 & A2 & A3). destruct (valid_facts b Hb) as (_ & _ & _ & _ & B1 & B2 & B3).
  assert (T : taken u n a = taken u n b).
  { unfold taken, skip_count, sub_skips in *. destruct u; try discriminate Hu; cbn [clock_unit field modulus unit_secs andb] in *; try reflexivity.
    - assert (H : second a = second b); [|rewrite H; reflexivity]. unfold sod in *. clear Ra Rb.
      destruct (second a - n =? -(60)), (second b - n =? -(60)); lia.
    - assert (H : minute a = minute b); [|rewrite H; reflexivity]. unfold sod in *. clear Ra Rb.
      destruct (minute a - n =? -(60)), (minute b - n =? -(60)); lia.
    - assert (H : hour a = hour b); [|rewrite H; reflexivity]. unfold sod in *. clear Ra Rb.
      destruct (hour a - n =? -(24)), (hour b - n =? -(24)); lia. }
  split; [|exact T]. rewrite T in E. lia.
Qed.
Lemma apart_clock : forall u n a b x, clock_unit u = true -> 0 <= n < period u -> dt_valid a = true -> dt_valid b = true ->
  calculate md (Subtraction (Moment a) (mk u n)) = Ok (Moment x) -> calculate md (Subtraction (Moment b) (mk u n)) = Ok (Moment x) -> inst a = inst b.
Proof.
  intros u n a b x Hu Hn Ha Hb Ea Eb.
  apply clock_back in Ea; try assumption. apply clock_back in Eb; try assumption.
  destruct (valid_facts a Ha) as (_ & Ma & Da & La & _). destruct (valid_facts b Hb) as (_ & Mb & Db & Lb & _).
  unfold back_day, prev_month in *.
  assert (F : forall m, dt_valid m = true -> forall D r, 0 <= r < 86400 ->
    built3 (if 1 <=? D then (year m, month m, D) else let '(y', mo') := if month m =? 1 then (year m - 1, 12) else (year m, month m - 1) in (y', mo', 31 + D)) r = Ok (Moment x) ->
    sod x = r /\ ((1 <= D /\ month_index x = month_index m /\ day x = D) \/ (D < 1 /\ month_index x = month_index m - 1 /\ day x = 31 + D))).
  { intros m Hm D r R E. unfold month_index. destruct (1 <=? D) eqn:C.
    - cbn [built3] in E. apply ok_at in E as [-> _]. cbn [at_time year month day]. split; [apply at_day_sod, R|]. left. lia.
    - destruct (month m =? 1) eqn:C1; cbn [built3] in E; apply ok_at in E as [-> _]; cbn [at_time year month day]; (split; [apply at_day_sod, R|]); right; lia. }
  apply F in Ea; [|exact Ha|apply Z.mod_pos_bound; lia]. apply F in Eb; [|exact Hb|apply Z.mod_pos_bound; lia]. clear F.
  destruct Ea as [Sa Xa]. destruct Eb as [Sb Xb].
  destruct (skip_same u n a b Hu Ha Hb ltac:(congruence)) as [S T]. rewrite <- S, <- T in Xb.
  apply same_at; try assumption; lia.
Qed.
Lemma apart : forall u n a b x, takable u n -> dt_valid a = true -> dt_valid b = true ->
  calculate md (Subtraction (Moment a) (mk u n)) = Ok (Moment x) -> calculate md (Subtraction (Moment b) (mk u n)) = Ok (Moment x) -> whole_second a = whole_second b.
Proof.
  intros u n a b x [L H] Ha Hb Ea Eb. apply inst_inj; try assumption. destruct (clock_unit u) eqn:Hu.
  - destruct (Z_lt_le_dec n 0) as [C|C]; [|apply (apart_clock u n a b x); try assumption; lia].
    destruct (sub_negative md a u n Ha Hu ltac:(lia)) as [O|(w & W & _ & _ & I)]; [exfalso; exact (not_oob _ _ O Ea)|].
    destruct (sub_negative md b u n Hb Hu ltac:(lia)) as [O|(w' & W' & _ & _ & I')]; [exfalso; exact (not_oob _ _ O Eb)|].
    rewrite W in Ea. injection Ea as ->. rewrite W' in Eb. injection Eb as ->. lia.
  - assert (M : move_ok (mkmove true u n)) by (split; cbn [backward munit mcount]; [|rewrite Hu]; lia).
    destruct (date_step md a (mkmove true u n) x Ha Hu M Ea) as (y & mo & d & X & P & I & D).
    destruct (date_step md b (mkmove true u n) x Hb Hu M Eb) as (y' & mo' & d' & X' & P' & I' & D'). cbn [backward] in *. change (0 <? 0) with false in *. cbv iota in *.
    rewrite X in X'. apply at_same in X'; [|apply sod_range; assumption|apply sod_range; assumption]. apply same_at; try assumption; lia.
Qed.

(** What is left over. *)
Lemma in_index : forall x i d r, dt_valid x = true -> 0 <= r < 86400 -> 12 * min_year <= i <= 12 * max_year + 11 -> 1 <= d <= index_length i ->
  let m := at_time (i / 12) (i mod 12 + 1) d r in dt_valid m = true /\ month_index m = i /\ day m = d /\ sod m = r.
Proof.
  intros x i d r Hx R I D m. split; [|split; [unfold month_index; subst m; cbn [at_time year month]; lia|split; [reflexivity|apply at_day_sod, R]]].
  apply at_valid; [exact R|]. apply representable_iff. split; [lia|]. apply date_exists_iff. fold (index_length i). lia.
Qed.
Lemma index_own : forall m, dt_valid m = true -> index_length (month_index m) = month_length (year m) (month m).
Proof.
  intros m Hm. destruct (valid_facts m Hm) as (_ & Mm & _). unfold index_length, month_index.
  replace ((12 * year m + month m - 1) / 12) with (year m) by lia. replace ((12 * year m + month m - 1) mod 12 + 1) with (month m) by lia. reflexivity.
Qed.
Lemma index_parts : forall m, dt_valid m = true -> month_index m / 12 = year m /\ month_index m mod 12 + 1 = month m.
Proof. intros m Hm. destruct (valid_facts m Hm) as (_ & Mm & _). unfold month_index. lia. Qed.
Lemma built_x : forall x, dt_valid x = true -> nano x = 0 -> built (year x) (month x) (day x) (sod x) = Ok (Moment x).
Proof. intros x Vx Nx. rewrite (at_self x Vx Nx) at 5. unfold built. rewrite self_repr by exact Vx. reflexivity. Qed.

Lemma left_years : forall n x, 0 <= n < 2147483648 -> dt_valid x = true -> nano x = 0 ->
  ((exists m, dt_valid m = true /\ calculate md (Subtraction (Moment m) (Years n)) = Ok (Moment x)) <->
   year x + n <= max_year /\ day x <= month_length (year x + n) (month x)).
Proof.
  intros n x Hn Vx Nx. destruct (valid_facts x Vx) as (Yx & Mx & Dx & Lx & _).
  assert (B : forall m, dt_valid m = true -> calculate md (Subtraction (Moment m) (Years n)) = built (wrap32 (year m - n)) (month m) (day m) (sod m)).
  { intros m Hm. destruct (valid_facts m Hm) as (Ym & _). unfold min_year, max_year in *.
    apply sub_years; first [assumption | apply in_i64_iff; unfold i64_min, i64_max; lia | unfold i64_min, i64_max; lia]. }
  split.
  - intros (m & Vm & E). rewrite B in E by exact Vm. apply ok_at in E as [X P]. destruct (valid_facts m Vm) as (Ym & Mm & Dm & Lm & _).
    assert (W : wrap32 (year m - n) = year m - n).
    { apply representable_iff in P as [P _]. clear - P Ym Hn. unfold wrap32, min_year, max_year in *. lia. }
    rewrite W in X. rewrite X. cbn [at_time year month day]. replace (year m - n + n) with (year m) by lia. lia.
  - intros [L D]. set (m := mkdt (year x + n) (month x) (day x) (hour x) (minute x) (second x) 0).
    assert (Vm : dt_valid m = true).
    { apply dt_valid_iff. cbn. apply dt_valid_iff in Vx. split; [lia|]. split; [|intuition lia]. apply date_exists_iff. lia. }
    exists m. split; [exact Vm|]. rewrite B by exact Vm. cbn [m year month day]. unfold m. cbn [year month day]. replace (year x + n - n) with (year x) by lia. rewrite wrap32_id by (clear - Yx; unfold min_year, max_year in *; lia).
    change (sod _) with (sod x). apply built_x; assumption.
Qed.
Lemma left_months : forall n x, 0 <= n < 2147483648 -> dt_valid x = true -> nano x = 0 ->
  ((exists m, dt_valid m = true /\ calculate md (Subtraction (Moment m) (Months n)) = Ok (Moment x)) <->
   let i := month_index x + n in i <= 12 * max_year + 11 /\ n <= i mod 12 + 12 /\ day x <= index_length i).
Proof.
  intros n x Hn Vx Nx. destruct (valid_facts x Vx) as (Yx & Mx & Dx & Lx & _). cbv zeta.
  split.
  - intros (m & Vm & E). destruct (valid_facts m Vm) as (Ym & Mm & Dm & Lm & _).
    destruct (sub_months md m n Vm Hn) as (A & B & C). cbv zeta in A, B, C.
    assert (X : -11 <= month m - n /\ month_index x = month_index m - n /\ day x = day m).
    { destruct (Z_le_gt_dec 1 (month m - n)) as [c|c]; [|destruct (Z_le_gt_dec (-11) (month m - n)) as [c'|c']].
      - rewrite A in E by exact c. apply ok_at in E as [-> _]. unfold month_index. cbn [at_time year month day]. lia.
      - rewrite B in E by lia. apply ok_at in E as [-> _]. unfold month_index. cbn [at_time year month day]. lia.
      - exfalso. exact (not_oob _ _ (C ltac:(lia)) E). }
    destruct X as (X1 & X2 & X3). replace (month_index x + n) with (month_index m) by lia.
    pose proof (index_parts m Vm) as [_ P]. rewrite index_own by exact Vm. split; [unfold month_index; lia|]. lia.
  - intros (I1 & I2 & I3). set (i := month_index x + n) in *.
    destruct (in_index x i (day x) (sod x) Vx (sod_range x Vx)) as (Vm & Im & Dm & Sm); [unfold month_index in *; lia|lia|].
    set (m := at_time (i / 12) (i mod 12 + 1) (day x) (sod x)) in *. exists m. split; [exact Vm|].
    destruct (sub_months md m n Vm Hn) as (A & B & _). cbv zeta in A, B.
    destruct (valid_facts m Vm) as (Ym & Mm & _). pose proof (index_parts m Vm) as [_ P]. rewrite Im in P.
    rewrite Dm, Sm in A, B. unfold month_index in *.
    destruct (Z_le_gt_dec 1 (month m - n)) as [c|c].
    + rewrite A by exact c. replace (year m) with (year x) by lia. replace (month m - n) with (month x) by lia. apply built_x; assumption.
    + rewrite B by lia. replace (year m - 1) with (year x) by lia. replace (month m - n + 12) with (month x) by lia. apply built_x; assumption.
Qed.

(** A day and a time of day that drop by [q] days and then pass the first of the month at most once. *)
Lemma dropped : forall x q, dt_valid x = true -> nano x = 0 -> 0 <= q ->
  ((exists y mo d, representable y mo d = true /\ built3 (back_day y mo (d - q)) (sod x) = Ok (Moment x)) <->
   day x + q <= month_length (year x) (month x) \/ (month_index x < 12 * max_year + 11 /\ 32 <= day x + q <= 31 + index_length (month_index x + 1))).
Proof.
  intros x q Vx Nx Hq. destruct (valid_facts x Vx) as (Yx & Mx & Dx & Lx & _). split.
  - intros (y & mo & d & P & E). apply representable_iff in P as [Py Pd]. apply date_exists_iff in Pd as (Pm & Pd).
    unfold back_day, prev_month in E. destruct (1 <=? d - q) eqn:C.
    + left. cbn [built3] in E. apply ok_at in E as [-> _]. cbn [at_time year month day]. lia.
    + right. assert (X : month_index x = 12 * y + mo - 2 /\ day x = 31 + (d - q)).
      { unfold month_index. destruct (mo =? 1) eqn:C1; cbn [built3] in E; apply ok_at in E as [-> _]; cbn [at_time year month day]; lia. }
      destruct X as [X1 X2]. split; [lia|]. unfold index_length. rewrite X1.
      replace ((12 * y + mo - 2 + 1) / 12) with y by lia. replace ((12 * y + mo - 2 + 1) mod 12 + 1) with mo by lia. lia.
  - intros [L|(I & L)].
    + exists (year x), (month x), (day x + q). split; [apply representable_iff; split; [exact Yx|]; apply date_exists_iff; lia|].
      unfold back_day. replace (1 <=? day x + q - q) with true by lia. cbn [built3]. replace (day x + q - q) with (day x) by lia. apply built_x; assumption.
    + set (i := month_index x + 1) in *. exists (i / 12), (i mod 12 + 1), (day x + q - 31).
      split; [apply representable_iff; split; [unfold month_index in *; lia|]; apply date_exists_iff; fold (index_length i); lia|].
      unfold back_day, prev_month. replace (1 <=? day x + q - 31 - q) with false by lia.
      assert (Q : (if i mod 12 + 1 =? 1 then (i / 12 - 1, 12) else (i / 12, i mod 12 + 1 - 1)) = (year x, month x)).
      { unfold month_index in *. destruct (i mod 12 + 1 =? 1) eqn:C; apply (f_equal2 pair); lia. }
      rewrite Q. cbn [built3]. replace (31 + (day x + q - 31 - q)) with (day x) by lia. apply built_x; assumption.
Qed.
Lemma left_days : forall n x, 0 <= n < 2147483648 -> dt_valid x = true -> nano x = 0 ->
  ((exists m, dt_valid m = true /\ calculate md (Subtraction (Moment m) (Days n)) = Ok (Moment x)) <->
   day x + n <= month_length (year x) (month x) \/ (month_index x < 12 * max_year + 11 /\ 32 <= day x + n <= 31 + index_length (month_index x + 1))).
Proof.
  intros n x Hn Vx Nx. rewrite <- (dropped x n Vx Nx) by lia. destruct (valid_facts x Vx) as (Yx & Mx & Dx & Lx & _). split.
  - intros (m & Vm & E). exists (year m), (month m), (day m). split; [apply self_repr, Vm|].
    destruct (sub_days md m n Vm Hn) as [A B]. cbv zeta in A, B.
    destruct (Z_le_gt_dec (-30) (day m - n)) as [c|c]; [|exfalso; exact (not_oob _ _ (B ltac:(lia)) E)].
    rewrite A in E by exact c. assert (S : sod x = sod m); [|rewrite S; exact E].
    destruct (back_day (year m) (month m) (day m - n)) as [[y mo] d]. cbn [built3] in E. apply ok_at in E as [-> _]. apply at_day_sod, sod_range, Vm.
  - intros (y & mo & d & P & E). pose proof (sod_range x Vx) as R. exists (at_time y mo d (sod x)).
    pose proof (at_valid y mo d (sod x) R P) as V. split; [exact V|].
    destruct (sub_days md _ n V Hn) as [A _]. cbv zeta in A. rewrite at_day_sod in A by exact R. cbn [at_time year month day] in A.
    rewrite A; [exact E|]. unfold back_day in E. destruct (1 <=? d - n) eqn:C; [lia|]. destruct (prev_month y mo) as [y' mo']. cbn [built3] in E. apply ok_at in E as [X _].
    rewrite X in Dx. cbn [at_time day] in Dx. lia.
Qed.
Lemma left_clock : forall u n x, clock_unit u = true -> u <> UDay -> 0 <= n < 2147483648 -> dt_valid x = true -> nano x = 0 ->
  ((exists m, dt_valid m = true /\ calculate md (Subtraction (Moment m) (mk u n)) = Ok (Moment x)) <->
   n <= field_before u n x + modulus u /\
   (day x + days_over u n x <= month_length (year x) (month x) \/
    (month_index x < 12 * max_year + 11 /\ 32 <= day x + days_over u n x <= 31 + index_length (month_index x + 1)))).
Proof.
  intros u n x Hu Hd Hn Vx Nx. pose proof (sod_range x Vx) as R.
  assert (Hu' : u = UHour \/ u = UMin \/ u = USec) by (destruct u; try discriminate Hu; auto; contradiction).
  assert (Mu : modulus u * unit_secs u = 60 \/ modulus u * unit_secs u = 3600 \/ modulus u * unit_secs u = 86400) by (destruct Hu' as [->|[->| ->]]; cbn; lia).
  assert (Us : 1 <= unit_secs u <= 3600 /\ 24 <= modulus u <= 60) by (destruct Hu' as [->|[->| ->]]; cbn; lia).
  set (K := (if n =? field_before u n x + modulus u then n + modulus u else n) * unit_secs u).
  assert (Q : days_over u n x = (sod x + K) / 86400) by (destruct Hu' as [->|[->| ->]]; reflexivity).
  assert (K0 : 0 <= K) by (subst K; destruct (n =? _); apply Z.mul_nonneg_nonneg; lia).
  assert (Fx : forall m, dt_valid m = true -> field u m = sod m / unit_secs u mod modulus u).
  { intros m Hm. destruct (valid_facts m Hm) as (_ & _ & _ & _ & A1 & A2 & A3). unfold sod. destruct Hu' as [->|[->| ->]]; cbn [field unit_secs modulus]; lia. }
  assert (Fb : forall m, dt_valid m = true -> (sod m - K - sod x) mod 86400 = 0 -> field u m = field_before u n x).
  { intros m Hm E. unfold field_before. rewrite (Fx m Hm), (Fx x Vx). subst K. pose proof (sod_range m Hm) as Rm.
    destruct (n =? _); destruct Hu' as [->|[->| ->]]; cbn [unit_secs modulus] in *; clear - E R Rm; lia. }
  rewrite Q. rewrite <- (dropped x ((sod x + K) / 86400) Vx Nx) by (apply Z.div_pos; lia). split.
  - intros (m & Vm & E). pose proof (sod_range m Vm) as Rm. destruct (sub_clock md m u n Vm Hu Hd Hn) as (A & B & C). cbv zeta in A, B, C.
    pose proof (field_range m u Vm Hu') as Fr.
    (* the seconds taken *)
    assert (X : exists k, (k = n * unit_secs u /\ - modulus u < field u m - n \/ k = (n + modulus u) * unit_secs u /\ field u m - n = - modulus u) /\
      built3 (back_day (year m) (month m) (day m + (sod m - k) / 86400)) ((sod m - k) mod 86400) = Ok (Moment x)).
    { destruct (Z.lt_trichotomy (- modulus u) (field u m - n)) as [c|[c|c]].
      - exists (n * unit_secs u). rewrite A in E by exact c. auto.
      - exists ((n + modulus u) * unit_secs u). rewrite B in E by lia. split; [right; split; [reflexivity|lia]|].
        replace (sod m - (n + modulus u) * unit_secs u) with (sod m - n * unit_secs u - modulus u * unit_secs u) by lia. exact E.
      - exfalso. exact (not_oob _ _ (C ltac:(lia)) E). }
    destruct X as (k & Kk & E').
    assert (Sx : sod x = (sod m - k) mod 86400).
    { destruct (back_day (year m) (month m) (day m + (sod m - k) / 86400)) as [[y mo] d]. cbn [built3] in E'. apply ok_at in E' as [-> _]. apply at_day_sod. apply Z.mod_pos_bound. lia. }
    assert (Fm : field u m = field_before u n x).
    { unfold field_before. rewrite (Fx m Vm), (Fx x Vx), Sx.
      destruct Kk as [[-> _]|[-> _]]; destruct Hu' as [->|[->| ->]]; cbn [unit_secs modulus] in *; clear - Rm; lia. }
    assert (KK : k = K) by (subst K; rewrite <- Fm; destruct Kk as [[-> c]|[-> c]]; [replace (n =? field u m + modulus u) with false by lia|replace (n =? field u m + modulus u) with true by lia]; reflexivity).
    split; [rewrite <- Fm; lia|]. exists (year m), (month m), (day m). split; [apply self_repr, Vm|]. rewrite <- KK.
    assert (D : (sod x + k) / 86400 = - ((sod m - k) / 86400)) by (rewrite Sx; clear - Rm; lia).
    rewrite D. replace (day m - - ((sod m - k) / 86400)) with (day m + (sod m - k) / 86400) by lia. rewrite Sx. exact E'.
  - intros (Hf & y & mo & d & P & E). set (r := (sod x + K) mod 86400). assert (Rr : 0 <= r < 86400) by (apply Z.mod_pos_bound; lia).
    pose proof (at_valid y mo d r Rr P) as V. exists (at_time y mo d r). split; [exact V|].
    assert (Sm : sod (at_time y mo d r) = r) by (apply at_day_sod; exact Rr).
    pose proof (Fb _ V ltac:(rewrite Sm; subst r; clear - R; lia)) as F.
    destruct (sub_clock md _ u n V Hu Hd Hn) as (A & B & _). cbv zeta in A, B. rewrite Sm, F in A, B. cbn [at_time year month day] in A, B.
    assert (G1 : (r - K) mod 86400 = sod x) by (subst r; clear - R; lia). assert (G2 : (r - K) / 86400 = - ((sod x + K) / 86400)) by (subst r; clear - R; lia).
    pose proof (Z.mod_pos_bound (field u x + n) (modulus u) ltac:(lia)) as Fr. fold (field_before u n x) in Fr.
    destruct (Z.eqb_spec n (field_before u n x + modulus u)) as [c|c].
    + rewrite B by lia. replace (r - n * unit_secs u - modulus u * unit_secs u) with (r - K) by (subst K; lia).
      rewrite G1, G2. replace (d + - ((sod x + K) / 86400)) with (d - (sod x + K) / 86400) by lia. exact E.
    + rewrite A by lia. fold K. rewrite G1, G2. replace (d + - ((sod x + K) / 86400)) with (d - (sod x + K) / 86400) by lia. exact E.
Qed.
Lemma left_small : forall u n x, 0 <= n < 2147483648 -> dt_valid x = true -> nano x = 0 ->
  ((exists m, dt_valid m = true /\ calculate md (Subtraction (Moment m) (mk u n)) = Ok (Moment x)) <-> left_over u n x).
Proof.
  intros u n x Hn Vx Nx. destruct u; cbn [left_over].
  - rewrite (left_clock USec n x) by first [reflexivity | discriminate | assumption]. intuition discriminate.
  - rewrite (left_clock UMin n x) by first [reflexivity | discriminate | assumption]. intuition discriminate.
  - rewrite (left_clock UHour n x) by first [reflexivity | discriminate | assumption]. intuition discriminate.
  - cbn [mk]. rewrite left_days by assumption. cbn [days_over]. intuition.
  - apply left_months; assumption.
  - apply left_years; assumption.
Qed.
Lemma left_iff : forall u n x, 0 <= n -> takable u n -> dt_valid x = true -> nano x = 0 ->
  ((exists m, dt_valid m = true /\ calculate md (Subtraction (Moment m) (mk u n)) = Ok (Moment x)) <-> left_over u n x).
Proof.
  intros u n x Hn [_ Ht] Vx Nx. destruct (Z_lt_le_dec n 2147483648) as [c|c]; [apply left_small; [lia|assumption|assumption]|].
  destruct (clock_unit u) eqn:Hu; [|lia]. destruct (valid_facts x Vx) as (Yx & Mx & Dx & Lx & _). split.
  - intros (m & Vm & E). exfalso. apply clock_back in E; try assumption; [|lia].
    pose proof (sod_range m Vm) as R. destruct (valid_facts m Vm) as (_ & _ & Dm & _).
    assert (T : 2147483648 <= taken u n m).
    { unfold taken, skip_count. assert (0 <= modulus u /\ 1 <= unit_secs u) by (destruct u; try discriminate Hu; cbn; lia).
      destruct (clock_unit u && sub_skips u n m); [replace (1 * modulus u) with (modulus u) by lia|]; nia. }
    assert (D : day m + (sod m - taken u n m) / 86400 < -1000) by lia.
    unfold back_day in E. replace (1 <=? day m + (sod m - taken u n m) / 86400) with false in E by lia.
    destruct (prev_month (year m) (month m)) as [y mo]. cbn [built3] in E. apply ok_at in E as [X _]. rewrite X in Dx. cbn [at_time day] in Dx. lia.
  - intro H. exfalso. assert (IL : index_length (month_index x + 1) <= 31) by (apply month_length_bounds; lia).
    pose proof (month_length_bounds (year x) (month x) Mx) as ML.
    destruct u; try discriminate Hu; cbn [left_over] in H; destruct H as [[Q|Q] H]; try discriminate Q;
      first [cbn [days_over] in H; lia | unfold field_before in Q; cbn [modulus] in Q; clear - Q c; lia].
Qed.

(** Negative amounts. *)
Lemma raised_date : forall u n m, u = UDay \/ u = UMonth -> -2147483648 <= n < 0 -> dt_valid m = true ->
  calculate md (Subtraction (Moment m) (mk u n)) =
  match u with UDay => built (year m) (month m) (day m - n) (sod m) | _ => built (year m) (month m - n) (day m) (sod m) end.
Proof.
  intros u n m Hu Hn Vm. destruct (valid_facts m Vm) as (Ym & Mm & Dm & Lm & _). pose proof (month_length_bounds (year m) (month m) Mm) as ML.
  assert (N : u <> UYear) by (destruct Hu as [->| ->]; discriminate).
  pose proof (sub_negative_wide md m u n Vm N) as W.
  destruct Hu as [->| ->]; cbn [field] in W; cbv zeta in W; rewrite low32_id in W by lia; apply W; unfold i64_min, i64_max; lia.
Qed.
Lemma raised_time : forall u n m, clock_unit u = true -> u <> UDay -> -2147483648 <= n < 0 -> dt_valid m = true ->
  (field u m - n < modulus u -> calculate md (Subtraction (Moment m) (mk u n)) = built (year m) (month m) (day m) (sod m - n * unit_secs u)) /\
  (modulus u <= field u m - n -> oob (calculate md (Subtraction (Moment m) (mk u n)))).
Proof.
  intros u n m Hu Hd Hn Vm. destruct (valid_facts m Vm) as (_ & _ & _ & _ & Vh & Vmi & Vs).
  pose proof (sub_negative_wide md m u n Vm) as W. unfold i64_min, i64_max in W.
  destruct u; try discriminate Hu; try (exfalso; apply Hd; reflexivity); cbn [field modulus unit_secs] in *; cbv zeta in W;
    (rewrite low32_id in W by lia; destruct (W ltac:(discriminate) ltac:(lia) ltac:(lia)) as [W1 W2]; split; [|exact W2]; intro L; rewrite W1 by exact L; f_equal; ring).
Qed.
Lemma left_negative : forall u n x, -2147483648 <= n < 0 -> dt_valid x = true -> nano x = 0 ->
  ((exists m, dt_valid m = true /\ calculate md (Subtraction (Moment m) (mk u n)) = Ok (Moment x)) <-> raised u n x).
Proof.
  intros u n x Hn Vx Nx. destruct (valid_facts x Vx) as (Yx & Mx & Dx & Lx & Hx & Ix & Sx). pose proof (proj1 (dt_valid_iff x) Vx) as FX.
  destruct u; cbn [raised field].
  - split.
    + intros (m & Vm & E). destruct (valid_facts m Vm) as (_ & _ & _ & _ & Vh & Vmi & Vs).
      destruct (raised_time USec n m eq_refl ltac:(discriminate) Hn Vm) as [W1 W2]. cbn [field modulus unit_secs] in *.
      destruct (Z_lt_le_dec (second m - n) 60) as [c|c]; [|exfalso; exact (not_oob _ _ (W2 c) E)].
      rewrite W1 in E by exact c. apply ok_at in E as [-> _]. unfold at_time, sod. cbn [second]. lia.
    + intro H. set (m := mkdt (year x) (month x) (day x) (hour x) (minute x) (second x + n) 0).
      assert (Vm : dt_valid m = true) by (apply dt_valid_iff; cbn; intuition lia).
      exists m. split; [exact Vm|]. destruct (raised_time USec n m eq_refl ltac:(discriminate) Hn Vm) as [W1 _]. cbn [field modulus unit_secs] in W1.
      rewrite W1 by (unfold m; cbn [second]; lia). rewrite <- (built_x x Vx Nx). unfold m, sod; cbn [year month day hour minute second]. f_equal. ring.
  - split.
    + intros (m & Vm & E). destruct (valid_facts m Vm) as (_ & _ & _ & _ & Vh & Vmi & Vs).
      destruct (raised_time UMin n m eq_refl ltac:(discriminate) Hn Vm) as [W1 W2]. cbn [field modulus unit_secs] in *.
      destruct (Z_lt_le_dec (minute m - n) 60) as [c|c]; [|exfalso; exact (not_oob _ _ (W2 c) E)].
      rewrite W1 in E by exact c. apply ok_at in E as [-> _]. unfold at_time, sod. cbn [minute]. lia.
    + intro H. set (m := mkdt (year x) (month x) (day x) (hour x) (minute x + n) (second x) 0).
      assert (Vm : dt_valid m = true) by (apply dt_valid_iff; cbn; intuition lia).
      exists m. split; [exact Vm|]. destruct (raised_time UMin n m eq_refl ltac:(discriminate) Hn Vm) as [W1 _]. cbn [field modulus unit_secs] in W1.
      rewrite W1 by (unfold m; cbn [minute]; lia). rewrite <- (built_x x Vx Nx). unfold m, sod; cbn [year month day hour minute second]. f_equal. ring.
  - split.
    + intros (m & Vm & E). destruct (valid_facts m Vm) as (_ & _ & _ & _ & Vh & Vmi & Vs).
      destruct (raised_time UHour n m eq_refl ltac:(discriminate) Hn Vm) as [W1 W2]. cbn [field modulus unit_secs] in *.
      destruct (Z_lt_le_dec (hour m - n) 24) as [c|c]; [|exfalso; exact (not_oob _ _ (W2 c) E)].
      rewrite W1 in E by exact c. apply ok_at in E as [-> _]. unfold at_time, sod. cbn [hour]. lia.
    + intro H. set (m := mkdt (year x) (month x) (day x) (hour x + n) (minute x) (second x) 0).
      assert (Vm : dt_valid m = true) by (apply dt_valid_iff; cbn; intuition lia).
      exists m. split; [exact Vm|]. destruct (raised_time UHour n m eq_refl ltac:(discriminate) Hn Vm) as [W1 _]. cbn [field modulus unit_secs] in W1.
      rewrite W1 by (unfold m; cbn [hour]; lia). rewrite <- (built_x x Vx Nx). unfold m, sod; cbn [year month day hour minute second]. f_equal. ring.
  - split.
    + intros (m & Vm & E). rewrite (raised_date UDay n m) in E by auto. destruct (valid_facts m Vm) as (_ & _ & Dm & _).
      apply ok_at in E as [-> _]. cbn [at_time day]. lia.
    + intro H. set (m := mkdt (year x) (month x) (day x + n) (hour x) (minute x) (second x) 0).
      assert (Vm : dt_valid m = true).
      { apply dt_valid_iff. cbn. split; [lia|]. split; [apply date_exists_iff; lia|]. intuition lia. }
      exists m. split; [exact Vm|]. rewrite (raised_date UDay n m) by auto. rewrite <- (built_x x Vx Nx). unfold m, sod; cbn [year month day hour minute second]. f_equal. ring.
  - split.
    + intros (m & Vm & E). rewrite (raised_date UMonth n m) in E by auto. destruct (valid_facts m Vm) as (_ & Mm & Dm & Lm & _).
      apply ok_at in E as [-> _]. cbn [at_time year month day]. replace (month m - n + n) with (month m) by ring. lia.
    + intros [H1 H2]. set (m := mkdt (year x) (month x + n) (day x) (hour x) (minute x) (second x) 0).
      assert (Vm : dt_valid m = true).
      { apply dt_valid_iff. cbn. split; [lia|]. split; [apply date_exists_iff; lia|]. intuition lia. }
      exists m. split; [exact Vm|]. rewrite (raised_date UMonth n m) by auto. rewrite <- (built_x x Vx Nx). unfold m, sod; cbn [year month day hour minute second]. f_equal. ring.
  - assert (B : forall m, dt_valid m = true -> calculate md (Subtraction (Moment m) (Years n)) = built (wrap32 (year m - n)) (month m) (day m) (sod m)).
    { intros m Hm. destruct (valid_facts m Hm) as (Ym & _). unfold min_year, max_year in *.
      apply sub_years; first [assumption | apply in_i64_iff; unfold i64_min, i64_max; lia | unfold i64_min, i64_max; lia]. }
    change (mk UYear n) with (Years n). split.
    + intros (m & Vm & E). rewrite B in E by exact Vm. apply ok_at in E as [X P]. destruct (valid_facts m Vm) as (Ym & Mm & Dm & Lm & _).
      assert (W : wrap32 (year m - n) = year m - n).
      { apply representable_iff in P as [P _]. clear - P Ym Hn. unfold wrap32, min_year, max_year in *. lia. }
      rewrite W in X. rewrite X. cbn [at_time year month day]. replace (year m - n + n) with (year m) by lia. lia.
    + intros [L D]. set (m := mkdt (year x + n) (month x) (day x) (hour x) (minute x) (second x) 0).
      assert (Vm : dt_valid m = true).
      { apply dt_valid_iff. cbn. split; [lia|]. split; [apply date_exists_iff; lia|]. intuition lia. }
      exists m. split; [exact Vm|]. rewrite B by exact Vm. unfold m. cbn [year month day]. replace (year x + n - n) with (year x) by lia. rewrite wrap32_id by (clear - Yx; unfold min_year, max_year in *; lia).
      change (sod _) with (sod x). apply built_x; assumption.
Qed.
End Apart.
