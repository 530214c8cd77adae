(** Exact conditions: values of amount texts, weeks as months, printed moments, ends of bounded iterations. *)
Require Import ZArith Bool List String Lia ZifyBool.
From Verif Require Import Prelude Spec Chrono Util TimeType Iter SpecTree SpecMoment SpecIter SpecAdapt Nom ParserTimetype ParserIterator ParserMod SpecText Show Cli SpecCli SpecExact2
  PreludeProofs EvalProofs AmountProofs ShapeProofs CalendarProofs AddProofs AddProofs2 SubProofs IterProofs IterProofs2 AdapterProofs AdapterProofs2 LowerProofs ParserProofs6 DocProofs CliProofs3 CliProofs4 ShowProofs2 SpecExact HeldProofs.
Import ListNotations.
Local Open Scope string_scope.
Local Open Scope Z_scope.

(** ** Amount texts *)
Definition sg (o : operator) : Z := match o with Plus => 1 | Minus => -1 end.
Lemma op_sg : forall o a b, apply_op o a b = a + sg o * b.
Proof. intros [] a b; unfold apply_op, sg; lia. Qed.
Lemma misread_gap : forall e acc (odd : bool) op,
  left_value_from acc op e = acc + (if odd then -1 else 1) * sg op * right_value e + 2 * misread odd op e.
Proof.
  induction e as [a|a op' e IH]; intros acc odd op; cbn [left_value_from right_value misread].
  - rewrite !op_sg. destruct odd, op; cbn [sg]; lia.
  - rewrite (IH _ (xorb odd (match op with Plus => false | Minus => true end)) op'). rewrite !op_sg.
    destruct odd, op, op'; cbn [sg xorb]; lia.
Qed.
Lemma misread_none : forall e, left_value e = right_value e <-> misread false Plus e = 0.
Proof. intro e. unfold left_value. rewrite (misread_gap e 0 false Plus). cbn [sg]. lia. Qed.

Lemma amounts_exact : forall cfg pd pdt md now1 now2 e s rest, expr_text e s -> stop rest ->
  no_iso cfg pd pdt (s ++ rest) -> no_iso cfg pd pdt (drop_blanks (s ++ rest)) -> total e <= i64_max ->
  exists t v, parse md cfg pd pdt now1 now2 (s ++ rest) = Ok (PTimeType t) /\ calculate md t = Ok (mk (expr_unit e) v) /\
    left_value e - v * unit_secs (expr_unit e) = 2 * misread false Plus e.
Proof.
  intros cfg pd pdt md now1 now2 e s rest He Hr N1 N2 Ht.
  destruct (parse_amounts cfg pd pdt md now1 now2 e s rest He Hr N1 N2 Ht) as (t & v & P & C & V).
  exists t, v. split; [exact P|]. split; [exact C|]. rewrite V. unfold left_value. rewrite (misread_gap e 0 false Plus). cbn [sg]. lia.
Qed.

(** ** Weeks *)
Lemma weeks_exact : forall md n t, 0 <= n -> weeks md n = Ok t -> in_i64 (7 * n) = true ->
  (get_months md t = Ok (n / 4) <-> 2 * (n / 4) <= 7 * (n mod 4)).
Proof.
  intros md n t Hn W I. unfold weeks in W. replace (7 * n) with (n * 7) in I by ring. rewrite mul7 in W by exact I. cbn in W. injection W as <-.
  change (get_months md (Days (n * 7))) with (@Ok kek Z (Z.quot (n * 7) 30)). rewrite Z.quot_div_nonneg by lia.
  pose proof (Z.div_mod n 4 ltac:(lia)). pose proof (Z.mod_pos_bound n 4 ltac:(lia)).
  pose proof (Z.div_mod (n * 7) 30 ltac:(lia)). pose proof (Z.mod_pos_bound (n * 7) 30 ltac:(lia)).
  split; [intro E; injection E as E; lia|intro L; f_equal; lia].
Qed.

(** ** Printed moments *)
Lemma moment_again_exact : forall cfg pd pdt md now1 now2 n m time, no_leap m -> let s := show_moment m in
  pdt s = PError \/ pdt s = Incomplete -> pd s = Done time (YMD (year m) (month m) (day m)) ->
  starts op_char (drop_blanks time) = false -> starts letter_char (drop_blanks time) = false ->
  (main md cfg pd pdt now1 now2 n [show_moment m ++ " "] = ([Value (show_moment m ++ " ")], Exits 0) <->
   hour m = 0 /\ minute m = 0 /\ second m = 0 /\ nano m = 0).
Proof.
  intros cfg pd pdt md now1 now2 n m time [Hm Hn] s P1 P2 O L.
  rewrite (main_moment_again cfg pd pdt md now1 now2 n m time Hm P1 P2 O L). split.
  - intro E. injection E as E. apply show_moment_inj in E.
    + destruct E as [E _]. rewrite <- E. repeat split.
    + split; [|reflexivity]. unfold dt_valid in *. cbn [year month day hour minute second nano]. rewrite !andb_true_iff in *. repeat split; tauto || reflexivity.
    + split; assumption.
    + split; reflexivity.
    + split; reflexivity.
  - intros (H0 & M0 & S0 & N0). replace (mkdt (year m) (month m) (day m) 0 0 0 0) with m; [reflexivity|].
    destruct m; cbn in *. congruence.
Qed.

(** ** Bounded iterations *)
Section Bounded.
Variable md : mode.

Lemma until_none_exact : forall m u n it ending, build m (mk u n) = Ok it -> dt_valid m = true -> in_i64 n = true -> dt_valid ending = true ->
  forall k, (nth_item (until_next md (iter_next md) ending) k it = None <->
  exists m', nth_item (iter_next md) k it = Some (Ok (Moment m')) /\ ~ before m' ending).
Proof.
  intros m u n it ending B Hm Hi He k. split.
  - intro N. destruct (nth_item (iter_next md) k it) as [[v|e|p|]|] eqn:F.
    + destruct (items_held md m u n it k v B Hm Hi F) as (m' & -> & V & _). exists m'. split; [reflexivity|]. intro Bf.
      destruct (until_moment md (iter_next md) ending k it (Moment m') m' V He F eq_refl) as [U _]. rewrite (U Bf) in N. discriminate N.
    + rewrite until_rest in N by (intros t; rewrite F; discriminate). congruence.
    + rewrite until_rest in N by (intros t; rewrite F; discriminate). congruence.
    + rewrite until_rest in N by (intros t; rewrite F; discriminate). congruence.
    + elim (never_none md k it F).
  - intros (m' & F & Nb). destruct (items_held md m u n it k _ B Hm Hi F) as (m1 & E & V & _). injection E as <-.
    destruct (until_moment md (iter_next md) ending k it (Moment m') m' V He F eq_refl) as [_ U]. exact (U Nb).
Qed.

Lemma reaches_exact : forall m u n it ending, build m (mk u n) = Ok it -> dt_valid m = true -> clock_unit u = true -> 0 < n ->
  n * unit_secs u <= 30 * 86400 -> dt_valid ending = true ->
  ((exists K, nth_item (until_next md (iter_next md) ending) K it = None) <-> reaches u n m ending).
Proof.
  intros m u n it ending B Hm Hu Hn Hd He. pose proof (clock_unit_secs u Hu) as Hus.
  assert (Hi : in_i64 n = true) by (apply in_i64_iff; unfold i64_min, i64_max; nia).
  assert (Hen : 0 <= nano ending) by (unfold dt_valid in He; lia).
  split.
  - intros [K N]. apply (until_none_exact m u n it ending B Hm Hi He) in N. destruct N as (m' & F & Nb).
    destruct K as [|K].
    + left. rewrite (build_first md _ _ _ B) in F. injection F as <-. exact Nb.
    + right. exists (Z.of_nat (Datatypes.S K)). split; [lia|].
      destruct (Z_lt_le_dec (inst m + Z.of_nat (Datatypes.S K) * n * unit_secs u) (instant (max_year + 1) 1 1 0 0 0)) as [L|G].
      * destruct (b_clock md m u n it (Datatypes.S K) B Hm Hu ltac:(lia) Hd ltac:(lia) L) as (m1 & F1 & _ & N1 & I1).
        rewrite F1 in F. injection F as <-. unfold before in Nb. split; [|exact L]. destruct (Z.ltb_spec 0 (nano ending)); lia.
      * destruct (b_clock_beyond md m u n it (Datatypes.S K) B Hm Hu ltac:(lia) Hd G) as (y & mo & d & h & mi & s & O).
        rewrite O in F by lia. discriminate F.
  - intros [Nb|(k & Hk & L1 & L2)].
    + exists 0%nat. apply (until_none_exact m u n it ending B Hm Hi He). exists m. split; [exact (build_first md _ _ _ B)|exact Nb].
    + exists (Z.to_nat k). apply (until_none_exact m u n it ending B Hm Hi He).
      destruct (b_clock md m u n it (Z.to_nat k) B Hm Hu ltac:(lia) Hd ltac:(lia)) as (m1 & F1 & _ & N1 & I1); [rewrite Z2Nat.id by lia; exact L2|].
      rewrite Z2Nat.id in I1 by lia. exists m1. split; [exact F1|]. unfold before. destruct (Z.ltb_spec 0 (nano ending)); lia.
Qed.
End Bounded.
