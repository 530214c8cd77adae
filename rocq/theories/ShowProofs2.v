(** Proofs that printed values and messages can be told apart. *)
Require Import ZArith Bool List String Ascii Lia ZifyBool.
From Verif Require Import Prelude Spec Chrono TimeType SpecTree SpecMoment Nom ParserTimetype ParserIterator ParserMod SpecText Show Cli SpecCli SpecDebug SpecFormat
  CalendarProofs ShapeProofs EvalProofs NomProofs ParserProofs CliProofs ShowProofs CliProofs3 CliProofs4.
Import ListNotations.
Local Open Scope string_scope.
Local Open Scope Z_scope.

(** ** Numbers *)
Lemma app_cancel : forall a b c : string, a ++ c = b ++ c -> a = b.
Proof.
  intros a b c E. assert (L : length a = length b) by (apply (f_equal length) in E; rewrite !app_len in E; lia).
  revert b E L. induction a as [|x a IH]; intros [|y b] E L; try discriminate L; [reflexivity|]. injection E as -> E. rewrite (IH b E); [reflexivity|]. injection L as L. exact L.
Qed.
Lemma show_nat_inj : forall a b s s', 0 <= a -> 0 <= b -> starts digit_char s = false -> starts digit_char s' = false ->
  show_nat a ++ s = show_nat b ++ s' -> a = b /\ s = s'.
Proof.
  intros a b s s' A B S S' E. destruct (show_nat_ok a A) as [[D _] V]. destruct (show_nat_ok b B) as [[D' _] V'].
  destruct (digits_split _ _ _ _ D D' S S' E) as [E1 E2]. split; [congruence|exact E2].
Qed.
Lemma show_int_inj : forall a b s s', starts digit_char s = false -> starts digit_char s' = false ->
  show_int a ++ s = show_int b ++ s' -> a = b /\ s = s'.
Proof.
  intros a b s s' S S' E. unfold show_int in E.
  assert (X : forall n r r', 0 <= n -> show_nat n ++ r <> "-" ++ r').
  { intros n r r' N K. destruct (show_nat_ok n N) as [[D Ne] _]. destruct (show_nat n) as [|c x]; [congruence|]. injection K as -> _. discriminate D. }
  destruct (a <? 0) eqn:A, (b <? 0) eqn:B; rewrite ?app_assoc in E.
  - injection E as E. destruct (show_nat_inj (- a) (- b) s s' ltac:(lia) ltac:(lia) S S' E). split; [lia|assumption].
  - symmetry in E. exfalso. exact (X b _ _ ltac:(lia) E).
  - exfalso. exact (X a _ _ ltac:(lia) E).
  - apply show_nat_inj; try assumption; lia.
Qed.
Lemma decimal_zeros : forall k, decimal (zeros k) = 0.
Proof. induction k as [|k IH]; [reflexivity|]. cbn [zeros append decimal]. rewrite IH. reflexivity. Qed.
Lemma pad_value : forall w n, 0 <= n -> decimal (pad w (show_nat n)) = n.
Proof. intros w n H. unfold pad. rewrite decimal_app, decimal_zeros. destruct (show_nat_ok n H) as [_ V]. lia. Qed.
Lemma pad_inj : forall w w' a b s s', 0 <= a -> 0 <= b -> starts digit_char s = false -> starts digit_char s' = false ->
  pad w (show_nat a) ++ s = pad w' (show_nat b) ++ s' -> a = b /\ s = s' /\ pad w (show_nat a) = pad w' (show_nat b).
Proof.
  intros w w' a b s s' A B S S' E. destruct (pad_ends w a A) as [D _]. destruct (pad_ends w' b B) as [D' _].
  destruct (digits_split _ _ _ _ D D' S S' E) as [E1 E2]. split; [|split; [exact E2|exact E1]].
  rewrite <- (pad_value w a A), <- (pad_value w' b B). congruence.
Qed.
Lemma digits_len : forall f w n, (0 < w)%nat -> n < 10 ^ Z.of_nat w -> 0 <= n -> (length (digits_of f n) <= w)%nat.
Proof.
  induction f as [|f IH]; intros w n W B N; [cbn; lia|]. cbn [digits_of]. destruct (n <? 10) eqn:E; [cbn; lia|].
  destruct w as [|w]; [lia|]. rewrite Nat2Z.inj_succ, Z.pow_succ_r in B by lia.
  destruct w as [|w]; [cbn in B; lia|]. rewrite app_len. cbn [length].
  specialize (IH (S w) (n / 10) ltac:(lia) ltac:(apply Z.div_lt_upper_bound; lia) ltac:(apply Z.div_pos; lia)). lia.
Qed.
Lemma pad_len : forall w n, (0 < w)%nat -> 0 <= n < 10 ^ Z.of_nat w -> length (pad w (show_nat n)) = w.
Proof.
  intros w n W B. pose proof (digits_len (S (Z.to_nat (Z.log2 n))) w n W ltac:(lia) ltac:(lia)) as L. fold (show_nat n) in L.
  unfold pad. rewrite app_len. assert (Z0 : forall k, length (zeros k) = k) by (induction k as [|k IHk]; [reflexivity|cbn; lia]). rewrite Z0. lia.
Qed.

(** ** Dates and times *)
Definition closed (s : string) : Prop := starts digit_char s = false /\ starts (fun c => Ascii.eqb c ".") s = false.
Lemma show_date_inj : forall y mo d y' mo' d' s s', 0 <= mo -> 0 <= d -> 0 <= mo' -> 0 <= d' ->
  starts digit_char s = false -> starts digit_char s' = false ->
  show_date y mo d ++ s = show_date y' mo' d' ++ s' -> y = y' /\ mo = mo' /\ d = d' /\ s = s'.
Proof.
  intros y mo d y' mo' d' s s' M D M' D' S S' E. unfold show_date in E. rewrite !app_assoc in E.
  assert (P : forall q q', "-" ++ pad 2 (show_nat mo) ++ "-" ++ pad 2 (show_nat d) ++ s = q -> q = q' -> q' = "-" ++ pad 2 (show_nat mo') ++ "-" ++ pad 2 (show_nat d') ++ s' -> mo = mo' /\ d = d' /\ s = s').
  { intros q q' <- <- K. injection K as K. apply pad_inj in K; try assumption; try reflexivity. destruct K as (-> & K & _). injection K as K.
    apply pad_inj in K; try assumption. destruct K as (-> & -> & _). auto. }
  assert (X : forall n r c r', 0 <= n -> digit_char c = false -> pad 4 (show_nat n) ++ r <> String c r').
  { intros n r c r' N C K. destruct (pad_ends 4 n N) as [Dg Ne]. destruct (pad 4 (show_nat n)) as [|c0 x]; [congruence|]. injection K as -> _. cbn in Dg. rewrite C in Dg. discriminate Dg. }
  destruct ((0 <=? y) && (y <=? 9999)) eqn:A, ((0 <=? y') && (y' <=? 9999)) eqn:B.
  - apply pad_inj in E; try reflexivity; try lia. destruct E as (-> & E & _). split; [reflexivity|]. exact (P _ _ eq_refl E eq_refl).
  - exfalso. rewrite app_assoc in E. destruct (y' <? 0); eapply X in E; try exact E; try reflexivity; lia.
  - exfalso. rewrite app_assoc in E. symmetry in E. destruct (y <? 0); eapply X in E; try exact E; try reflexivity; lia.
  - rewrite !app_assoc in E. destruct (y <? 0) eqn:C, (y' <? 0) eqn:F; try discriminate E; injection E as E;
      (apply pad_inj in E; try reflexivity; try lia; destruct E as (Ey & E & _); split; [lia|exact (P _ _ eq_refl E eq_refl)]).
Qed.
Lemma show_frac_inj : forall n n' s s', 0 <= n < 1000000000 -> 0 <= n' < 1000000000 -> closed s -> closed s' ->
  let frac n := if n =? 0 then "" else if n mod 1000000 =? 0 then "." ++ pad 3 (show_nat (n / 1000000))
                else if n mod 1000 =? 0 then "." ++ pad 6 (show_nat (n / 1000)) else "." ++ pad 9 (show_nat n) in
  frac n ++ s = frac n' ++ s' -> n = n' /\ s = s'.
Proof.
  intros n n' s s' N N' [S1 S2] [S1' S2']. cbv zeta.
  assert (F : forall n, 0 <= n < 1000000000 -> n <> 0 -> exists w k j, (0 < w)%nat /\ n = k * j /\ 0 <= k < 10 ^ Z.of_nat w /\ j * 10 ^ Z.of_nat w = 1000000000 /\
    (if n =? 0 then "" else if n mod 1000000 =? 0 then "." ++ pad 3 (show_nat (n / 1000000))
     else if n mod 1000 =? 0 then "." ++ pad 6 (show_nat (n / 1000)) else "." ++ pad 9 (show_nat n)) = "." ++ pad w (show_nat k)).
  { clear. intros n N Z. replace (n =? 0) with false by lia. pose proof (Z.div_mod n 1000000 ltac:(lia)). pose proof (Z.div_mod n 1000 ltac:(lia)).
    pose proof (Z.div_pos n 1000000 ltac:(lia) ltac:(lia)). pose proof (Z.div_pos n 1000 ltac:(lia) ltac:(lia)).
    pose proof (Z.div_lt_upper_bound n 1000000 1000 ltac:(lia) ltac:(lia)). pose proof (Z.div_lt_upper_bound n 1000 1000000 ltac:(lia) ltac:(lia)).
    destruct (n mod 1000000 =? 0) eqn:E1; [exists 3%nat, (n / 1000000), 1000000|destruct (n mod 1000 =? 0) eqn:E2; [exists 6%nat, (n / 1000), 1000|exists 9%nat, n, 1]];
      (split; [lia|]); (split; [lia|]); (split; [cbn; lia|]); (split; reflexivity). }
  destruct (Z.eq_dec n 0) as [->|Z0], (Z.eq_dec n' 0) as [->|Z0'].
  - cbn. auto.
  - destruct (F n' N' Z0') as (w & k & j & _ & _ & _ & _ & ->). cbn [Z.eqb append]. intros ->. cbn in S2. discriminate S2.
  - destruct (F n N Z0) as (w & k & j & _ & _ & _ & _ & ->). cbn [Z.eqb append]. intros <-. cbn in S2'. discriminate S2'.
  - destruct (F n N Z0) as (w & k & j & W & E & K & J & ->). destruct (F n' N' Z0') as (w' & k' & j' & W' & E' & K' & J' & ->).
    rewrite !app_assoc. intro H. injection H as H. apply pad_inj in H; try assumption; try lia. destruct H as (Ek & Es & Ep).
    split; [|exact Es]. apply (f_equal length) in Ep. rewrite !pad_len in Ep by assumption. subst w' k'. nia.
Qed.
Lemma show_time_inj : forall h mi se n h' mi' se' n' s s', 0 <= h -> 0 <= mi -> 0 <= se -> 0 <= n < 1000000000 ->
  0 <= h' -> 0 <= mi' -> 0 <= se' -> 0 <= n' < 1000000000 -> closed s -> closed s' ->
  show_time h mi se n ++ s = show_time h' mi' se' n' ++ s' -> h = h' /\ mi = mi' /\ se = se' /\ n = n' /\ s = s'.
Proof.
  intros h mi se n h' mi' se' n' s s' H1 H2 H3 H4 H5 H6 H7 H8 C C' E. unfold show_time in E.
  replace (1000000000 <=? n) with false in E by lia. replace (1000000000 <=? n') with false in E by lia. cbv beta iota in E. rewrite !app_assoc in E.
  apply pad_inj in E; try assumption; try reflexivity. destruct E as (-> & E & _). injection E as E.
  apply pad_inj in E; try assumption; try reflexivity. destruct E as (-> & E & _). injection E as E.
  assert (Q : forall n s, closed s -> starts digit_char ((if n =? 0 then "" else if n mod 1000000 =? 0 then "." ++ pad 3 (show_nat (n / 1000000))
     else if n mod 1000 =? 0 then "." ++ pad 6 (show_nat (n / 1000)) else "." ++ pad 9 (show_nat n)) ++ s) = false).
  { clear. intros n s [S _]. destruct (n =? 0); [exact S|]. destruct (n mod 1000000 =? 0); [reflexivity|]. destruct (n mod 1000 =? 0); reflexivity. }
  apply pad_inj in E; try assumption; try (apply Q; assumption). destruct E as (-> & E & _).
  apply show_frac_inj in E; try assumption. destruct E as (-> & ->). auto.
Qed.
Lemma dt_eq : forall m m', year m = year m' -> month m = month m' -> day m = day m' -> hour m = hour m' -> minute m = minute m' -> second m = second m' -> nano m = nano m' -> m = m'.
Proof. intros [] []. cbn. intros. subst. reflexivity. Qed.
Lemma moment_text_inj : forall sep m m' s s', digit_char sep = false -> no_leap m -> no_leap m' -> closed s -> closed s' ->
  (show_date (year m) (month m) (day m) ++ String sep "" ++ show_time (hour m) (minute m) (second m) (nano m)) ++ s =
  (show_date (year m') (month m') (day m') ++ String sep "" ++ show_time (hour m') (minute m') (second m') (nano m')) ++ s' -> m = m' /\ s = s'.
Proof.
  intros sep m m' s s' Sep [V N] [V' N'] C C' E. rewrite !app_assoc in E.
  destruct (proj1 (dt_valid_iff m) V) as (_ & D & H & Mi & Se & Na). destruct (proj1 (dt_valid_iff m') V') as (_ & D' & H' & Mi' & Se' & Na').
  apply date_exists_iff in D. apply date_exists_iff in D'.
  apply show_date_inj in E; try lia; try exact Sep. destruct E as (Ey & Emo & Ed & E). injection E as E.
  apply show_time_inj in E; try lia; try assumption. destruct E as (Eh & Emi & Ese & En & Es). split; [apply dt_eq; assumption|exact Es].
Qed.
Lemma show_moment_inj : forall m m' s s', no_leap m -> no_leap m' -> closed s -> closed s' -> show_moment m ++ s = show_moment m' ++ s' -> m = m' /\ s = s'.
Proof. intros m m' s s'. unfold show_moment. apply (moment_text_inj " "). reflexivity. Qed.
Lemma debug_moment_inj : forall m m' s s', no_leap m -> no_leap m' -> closed s -> closed s' -> debug_moment m ++ s = debug_moment m' ++ s' -> m = m' /\ s = s'.
Proof. intros m m' s s'. unfold debug_moment. apply (moment_text_inj "T"). reflexivity. Qed.

(** ** Trees *)
Lemma debug_inj : forall a b s s', no_leaps a -> no_leaps b -> debug_tt a ++ s = debug_tt b ++ s' -> a = b /\ s = s'.
Proof.
  assert (Cl : forall s, closed (")" ++ s)) by (intro; split; reflexivity).
  induction a as [n|n|n|n|n|n|m|a1 IH1 a2 IH2|a1 IH1 a2 IH2|a IH|a IH|a IH|a IH|a IH]; intros b s s' La Lb E;
    destruct b; cbn [debug_tt] in E; rewrite !app_assoc in E; try discriminate E; injection E as E;
    try (apply show_int_inj in E; [|reflexivity|reflexivity]; destruct E as [-> E]; injection E as ->; split; reflexivity);
    try (apply IH in E; try assumption; destruct E as [-> E]; injection E as ->; split; reflexivity).
  - apply debug_moment_inj in E; try assumption; try apply Cl. destruct E as [-> E]. injection E as ->. split; reflexivity.
  - destruct La as [La1 La2]. destruct Lb as [Lb1 Lb2]. apply IH1 in E; try assumption. destruct E as [-> E]. injection E as E. apply IH2 in E; try assumption. destruct E as [-> E]. injection E as ->. split; reflexivity.
  - destruct La as [La1 La2]. destruct Lb as [Lb1 Lb2]. apply IH1 in E; try assumption. destruct E as [-> E]. injection E as E. apply IH2 in E; try assumption. destruct E as [-> E]. injection E as ->. split; reflexivity.
Qed.
Lemma debug_inj' : forall a b, no_leaps a -> no_leaps b -> debug_tt a = debug_tt b -> a = b.
Proof. intros a b A B E. apply (debug_inj a b "" "" A B). rewrite E. reflexivity. Qed.
Lemma error_inj : forall a b, error_no_leaps a -> error_no_leaps b -> display_error a = display_error b -> a = b.
Proof.
  intros a b A B E. destruct a, b; cbn [display_error debug_str] in E; unfold debug_str in E; try discriminate E; try reflexivity; try injection E as E;
    try (destruct A; destruct B; apply debug_inj in E; try assumption; destruct E as [-> E]; injection E as E; apply debug_inj' in E; try assumption; subst; reflexivity);
    try (apply debug_inj' in E; try assumption; subst; reflexivity);
    try (apply app_cancel in E; subst; reflexivity);
    try (subst; reflexivity).
  do 5 (apply show_int_inj in E; [|reflexivity|reflexivity]; destruct E as [-> E]; injection E as E).
  rewrite <- (app_nil (show_int s)), <- (app_nil (show_int s0)) in E. apply show_int_inj in E; [|reflexivity|reflexivity]. destruct E as [-> _]. reflexivity.
Qed.
Lemma print_inj : forall v v', is_value v = true -> is_value v' = true -> no_leaps v -> no_leaps v' -> pretty_print v = pretty_print v' -> v = v'.
Proof.
  assert (X : forall n m (u : string), show_int n ++ String " " u <> show_moment m ++ " ").
  { intros n m u E. unfold show_moment, show_date, show_int in E. rewrite !app_assoc in E.
    assert (Y : forall k y r r', 0 <= k -> 0 <= y -> show_nat k ++ String " " r <> pad 4 (show_nat y) ++ "-" ++ r').
    { clear. intros k y r r' K Y E. destruct (show_nat_ok k K) as [[D _] _]. destruct (pad_ends 4 y Y) as [D' _].
      destruct (digits_split _ _ _ _ D D' (eq_refl : starts digit_char (String " " r) = false) (eq_refl : starts digit_char ("-" ++ r') = false) E) as [_ E']. discriminate E'. }
    assert (F : forall k r c r', 0 <= k -> digit_char c = false -> show_nat k ++ r <> String c r').
    { clear. intros k r c r' K C E. destruct (show_nat_ok k K) as [[D Ne] _]. destruct (show_nat k) as [|x q]; [congruence|]. injection E as -> _. cbn in D. rewrite C in D. discriminate D. }
    destruct (n <? 0) eqn:N, ((0 <=? year m) && (year m <=? 9999)) eqn:B; rewrite ?app_assoc in E.
    - destruct (pad_ends 4 (year m) ltac:(lia)) as [D Ne]. destruct (pad 4 (show_nat (year m))) as [|c q]; [congruence|]. injection E as <- _. discriminate D.
    - destruct (year m <? 0); [|discriminate E]. injection E as E. eapply Y in E; [exact E|lia|lia].
    - eapply Y in E; [exact E|lia|lia].
    - destruct (year m <? 0); eapply F in E; try exact E; try reflexivity; lia. }
  intros v v' V V' L L' E.
  destruct v, v'; try discriminate V; try discriminate V'; cbn [pretty_print] in E; injection E as E;
    try (apply show_int_inj in E; [|reflexivity|reflexivity]; destruct E as [-> E]; try discriminate E; reflexivity);
    try (exfalso; eapply X; exact E); try (exfalso; symmetry in E; eapply X; exact E).
  apply show_moment_inj in E; try assumption; try (split; reflexivity). destruct E as [-> _]. reflexivity.
Qed.
Lemma print_results : forall md md' t t' v v', calculate md t = Ok v -> calculate md' t' = Ok v' -> no_leaps v -> no_leaps v' ->
  pretty_print v = pretty_print v' -> v = v'.
Proof. intros md md' t t' v v' C C'. apply print_inj; eapply calc_result_value; eassumption. Qed.

(** The name used in error messages is the one that is printed. *)
Lemma format_filled : forall e, e <> NomError -> display_error e = fill (format_of e) (carried e).
Proof.
  assert (N : forall s, s ++ "" = s) by (induction s as [|c s IH]; [reflexivity|cbn [append]; rewrite IH; reflexivity]).
  intros e H. destruct e; try congruence; cbn -[show_int debug_tt]; rewrite ?N; reflexivity.
Qed.
Lemma name_printed : forall t, debug_tt t = name t ++ "(" ++ String.concat ", " (parts t) ++ ")".
Proof. intros []; cbn [debug_tt name parts String.concat]; rewrite ?app_assoc; reflexivity. Qed.
