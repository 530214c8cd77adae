(** Iterator expressions end to end. *)
Require Import ZArith Bool List String Ascii Lia ZifyBool.
From Verif Require Import Prelude Spec Chrono TimeType Nom ParserTimetype ParserIterator ParserMod Iter
  SpecTree SpecMoment SpecIter SpecAdapt SpecText NomProofs PreludeProofs EvalProofs AmountProofs ShapeProofs CompProofs CalendarProofs
  AddProofs AddProofs2 SubProofs EndProofs ErrProofs IterProofs IterProofs2 AdapterProofs AdapterProofs2 AdapterProofs3
  OrdProofs ParserProofs ParserProofs2 LowerProofs ParserProofs3 ParserProofs4.
From Verif Require Import SpecText.
Import ListNotations.
Local Open Scope string_scope.
Local Open Scope Z_scope.

Lemma clock_item : forall md m u n it k, build m (mk u n) = Ok it -> dt_valid m = true -> clock_unit u = true -> 0 <= n ->
  n * unit_secs u <= 30 * 86400 -> inst m + Z.of_nat k * n * unit_secs u < instant (max_year + 1) 1 1 0 0 0 ->
  exists m', nth_item (iter_next md) k it = Some (Ok (Moment m')) /\ dt_valid m' = true /\ inst m' = inst m + Z.of_nat k * n * unit_secs u /\
    (k = 0%nat -> m' = m) /\ (k <> 0%nat -> nano m' = 0).
Proof.
  intros md m u n it k B Hm Hu Hn Hd HR. destruct k as [|k].
  - exists m. rewrite (build_first md m _ it B). repeat split; [exact Hm|cbn; lia|congruence].
  - destruct (b_clock md m u n it (S k) B Hm Hu Hn Hd ltac:(lia) HR) as (m' & E & V & N & I).
    exists m'. repeat split; [exact E|exact V|exact I|discriminate|intros _; exact N].
Qed.

Lemma clock_item_nano : forall md m u n it k, build m (mk u n) = Ok it -> dt_valid m = true -> clock_unit u = true -> 0 <= n ->
  n * unit_secs u <= 30 * 86400 -> inst m + Z.of_nat k * n * unit_secs u < instant (max_year + 1) 1 1 0 0 0 ->
  exists m', nth_item (iter_next md) k it = Some (Ok (Moment m')) /\ dt_valid m' = true /\ inst m' = inst m + Z.of_nat k * n * unit_secs u /\
    nano m' = (if (k =? 0)%nat then nano m else 0).
Proof.
  intros md m u n it k B Hm Hu Hn Hd HR. destruct (clock_item md m u n it k B Hm Hu Hn Hd HR) as (m' & E & V & I & A & Z). exists m'.
  split; [exact E|]. split; [exact V|]. split; [exact I|]. destruct k; [rewrite A by reflexivity; reflexivity|apply Z; discriminate].
Qed.

Section Text.
Variable cfg : nom_cfg.
Variable pd : parser isodate.
Variable pdt : parser (isodate * isotime).
Hypothesis Hpd : forall s r d, pd s = Done r d -> isodate_ok d.
Hypothesis Hpdt : forall s r d t, pdt s = Done r (d, t) -> isodate_ok d /\ isotime_ok t.

Lemma date_reads_okv : forall d s r, date_reads pd pdt d s r -> date_ok d.
Proof.
  intros d s r [x s' r' H _|x s' b1 op b2 e es r' H _ _ He _]; split; try exact I.
  - eapply exact_reads_okv; [exact Hpd|exact Hpdt|exact H].
  - eapply exact_reads_okv; [exact Hpd|exact Hpdt|exact H].
  - eapply expr_text_ok. exact He.
Qed.
Lemma step_text_okv : forall sp t, step_text sp t -> step_spec_ok sp.
Proof.
  intros sp t [t' a _|b1 ds b2 t' u _ Hd Hv _ _]; [destruct a; exact I|]. cbn. split; [|exact Hv].
  destruct Hd as [Hd _]. apply (NomProofs.decimal_range ds Hd).
Qed.
Lemma bound_reads_okv : forall u s, bound_reads pd pdt u s -> bound_ok u.
Proof.
  intros u s [s' _ _|x b s' r _ _ H|ds b r Hd Hv _]; cbn; try exact I.
  - eapply exact_reads_okv; [exact Hpd|exact Hpdt|exact H].
  - split; [|exact Hv]. destruct Hd as [Hd _]. apply (NomProofs.decimal_range ds Hd).
Qed.

Section One.
Variable md : mode.
Variables now1 now2 : datetime.
Hypothesis Hn1 : dt_valid now1 = true.
Hypothesis Hn2 : dt_valid now2 = true.
Variables (d : pdate) (b0 s r1 : string) (sp : iterspec) (t r2 : string).
Hypothesis Hb0 : blanks b0.
Hypothesis Hd : date_reads pd pdt d s r1.
Hypothesis Hs : starts blank_char s = false.
Hypothesis E : drop_blanks r1 = t ++ r2.
Hypothesis Ht : step_text sp t.
Hypothesis Hl : starts letter_char r2 = false.
Hypothesis HI : in_i64 (step_count sp) = true.

Lemma text_means : forall u, bound_reads pd pdt u (drop_blanks r2) ->
  let res := parse md cfg pd pdt now1 now2 (b0 ++ s) in
  match (do x <- date_into md now1 d; calculate md x) with
  | Ok v => exists b it, v = Moment b /\ dt_valid b = true /\ build b (mk (step_unit sp) (step_count sp)) = Ok it /\
      match u with
      | Some (UExact x) =>
          match (do x <- exactdate_into md now2 x; calculate md x) with
          | Ok w => exists en, w = Moment en /\ dt_valid en = true /\ res = Ok (PIterator (Ok (UIUntil it en)))
          | Err e => res = Ok (PIterator (Err e)) /\ e <> NotADateInsideIterator
          | Panic p => res = Panic p /\ allowed md p
          | OutOfFuel => False
          end
      | Some (UTimes n) => res = Ok (PIterator (Ok (UITimes (times_new it n))))
      | None => res = Ok (PIterator (Ok (UIIterator it)))
      end
  | Err e => res = Ok (PIterator (Err e)) /\ e <> NotADateInsideIterator
  | Panic p => res = Panic p /\ allowed md p
  | OutOfFuel => False
  end.
Proof.
  intros u Hu res. subst res. rewrite (parse_iter cfg pd pdt md now1 now2 d b0 s r1 sp t r2 u) by assumption.
  assert (IO : iterator_ok (Iterator d sp u)).
  { split; [eapply date_reads_okv; exact Hd|]. split; [eapply step_text_okv; exact Ht|eapply bound_reads_okv; exact Hu]. }
  pose proof (iterator_means md now1 now2 d sp u Hn1 Hn2 IO HI) as M. cbv zeta in M. unfold date_value, exact_value in M. unfold lower_iterator.
  destruct (do x <- date_into md now1 d; calculate md x) as [v|e|p|]; [|destruct M as [-> M]; split; [reflexivity|exact M]..|contradiction].
  destruct M as (b & it & -> & V & B & M). exists b, it. split; [reflexivity|]. split; [exact V|]. split; [exact B|].
  destruct u as [[x|n]|]; [|rewrite M; reflexivity..].
  destruct (do y <- exactdate_into md now2 x; calculate md y) as [w|e|p|]; [|destruct M as [-> M]; split; [reflexivity|exact M]..|contradiction].
  destruct M as (en & -> & Ve & ->). exists en. repeat split. exact Ve.
Qed.

Variable b : datetime.
Hypothesis Hv : (do x <- date_into md now1 d; calculate md x) = Ok (Moment b).
Hypothesis Hu : clock_unit (step_unit sp) = true.
Hypothesis Hst : step_count sp * unit_secs (step_unit sp) <= 30 * 86400.

Lemma step_nonneg : 0 <= step_count sp.
Proof. pose proof (step_text_okv sp t Ht) as H. destruct sp as [| | | | | | |n [| | | | | |]]; cbn [step_count times_kept step_spec_ok] in *; lia. Qed.

Lemma text_plain : bound_reads pd pdt None (drop_blanks r2) ->
  exists ui, parse md cfg pd pdt now1 now2 (b0 ++ s) = Ok (PIterator (Ok ui)) /\
  forall k, inst b + Z.of_nat k * step_count sp * unit_secs (step_unit sp) < instant (max_year + 1) 1 1 0 0 0 ->
  exists m, nth_item (user_next md) k ui = Some (Ok (Moment m)) /\ dt_valid m = true /\
    inst m = inst b + Z.of_nat k * step_count sp * unit_secs (step_unit sp) /\ nano m = (if (k =? 0)%nat then nano b else 0).
Proof.
  intro Hb. pose proof (text_means None Hb) as M. cbv zeta in M. rewrite Hv in M. destruct M as (b' & it & [= <-] & V & B & M).
  exists (UIIterator it). split; [exact M|]. intros k Hk.
  destruct (clock_item_nano md b _ _ it k B V Hu step_nonneg Hst Hk) as (m & E1 & E2 & E3 & E4).
  exists m. rewrite user_plain. repeat split; assumption.
Qed.
Lemma text_times : forall n, bound_reads pd pdt (Some (UTimes n)) (drop_blanks r2) ->
  exists ui, parse md cfg pd pdt now1 now2 (b0 ++ s) = Ok (PIterator (Ok ui)) /\
  forall k, (Z.of_nat k < n -> inst b + Z.of_nat k * step_count sp * unit_secs (step_unit sp) < instant (max_year + 1) 1 1 0 0 0 ->
    exists m, nth_item (user_next md) k ui = Some (Ok (Moment m)) /\ dt_valid m = true /\
      inst m = inst b + Z.of_nat k * step_count sp * unit_secs (step_unit sp) /\ nano m = (if (k =? 0)%nat then nano b else 0)) /\
  (n <= Z.of_nat k -> nth_item (user_next md) k ui = None).
Proof.
  intros n Hb. pose proof (bound_reads_okv _ _ Hb) as Hn. cbn in Hn.
  pose proof (text_means _ Hb) as M. cbv zeta in M. rewrite Hv in M. destruct M as (b' & it & [= <-] & V & B & M).
  assert (In : in_i64 n = true) by (apply in_i64_iff; unfold i64_min, i64_max in *; lia).
  exists (UITimes (times_new it n)). split; [exact M|]. intro k. rewrite user_times. split.
  - intros Hk Hr. rewrite times_pass by (try exact In; lia).
    destruct (clock_item_nano md b _ _ it k B V Hu step_nonneg Hst Hr) as (m & E1 & E2 & E3 & E4). exists m. repeat split; assumption.
  - intro Hk. apply times_done; [exact In|lia|exact Hk].
Qed.
Lemma text_until : forall x en, bound_reads pd pdt (Some (UExact x)) (drop_blanks r2) ->
  (do y <- exactdate_into md now2 x; calculate md y) = Ok (Moment en) ->
  exists ui, parse md cfg pd pdt now1 now2 (b0 ++ s) = Ok (PIterator (Ok ui)) /\
  forall k, inst b + Z.of_nat k * step_count sp * unit_secs (step_unit sp) < instant (max_year + 1) 1 1 0 0 0 ->
    exists m, dt_valid m = true /\ inst m = inst b + Z.of_nat k * step_count sp * unit_secs (step_unit sp) /\ nano m = (if (k =? 0)%nat then nano b else 0) /\
      (before m en -> nth_item (user_next md) k ui = Some (Ok (Moment m))) /\ (~ before m en -> nth_item (user_next md) k ui = None).
Proof.
  intros x en Hb He. pose proof (text_means _ Hb) as M. cbv zeta in M. rewrite Hv, He in M.
  destruct M as (b' & it & [= <-] & V & B & en' & [= <-] & Ve & M).
  exists (UIUntil it en). split; [exact M|]. intros k Hk. rewrite user_until.
  destruct (clock_item_nano md b _ _ it k B V Hu step_nonneg Hst Hk) as (m & E1 & E2 & E3 & E4).
  destruct (until_moment md (iter_next md) en k it (Moment m) m E2 Ve E1 (calc_value md (Moment m) eq_refl)) as [U1 U2].
  exists m. split; [exact E2|]. split; [exact E3|]. split; [exact E4|]. split; assumption.
Qed.
End One.
End Text.
