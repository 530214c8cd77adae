(** Adapters over stepping iterators. *)
Require Import ZArith Bool List Lia ZifyBool.
From Verif Require Import Prelude Spec PreludeProofs CalendarProofs Chrono TimeType Matcher Iter SpecTree SpecMoment SpecIter SpecAdapt
  EvalProofs ShapeProofs CompProofs AmountProofs LoopProofs AddProofs AddProofs2 OrdProofs IterProofs IterProofs2 AdapterProofs.
Import ListNotations.
Local Open Scope Z_scope.

Section Steps.
Variable md : mode.

Lemma built_cases : forall y mo d r, 0 <= r < 86400 ->
  (exists m', built y mo d r = Ok (Moment m')) \/ exists e, built y mo d r = Err e.
Proof. intros y mo d r _. unfold built. destruct (representable y mo d); eauto. Qed.

(** Adding a forward amount inside the 32-bit span returns. *)
Lemma add_total : forall m u n, dt_valid m = true -> 0 <= n -> n * unit_secs u <= span32 ->
  (exists m', calculate md (Addition (Moment m) (mk u n)) = Ok (Moment m') /\ dt_valid m' = true) \/
  exists e, calculate md (Addition (Moment m) (mk u n)) = Err e.
Proof.
  intros m u n Hm Hn Hs.
  assert (Hi : in_i64 n = true).
  { apply in_i64_iff. unfold i64_min, i64_max, span32 in *. destruct u; cbn [unit_secs] in Hs; lia. }
  assert (C : (exists m', calculate md (Addition (Moment m) (mk u n)) = Ok (Moment m')) \/
    exists e, calculate md (Addition (Moment m) (mk u n)) = Err e).
  { pose proof (field_bnd m u Hm) as HB. unfold min_year, max_year in HB.
    pose proof (sod_range m Hm) as SR.
    destruct (clock_unit u) eqn:Hu.
    - assert (HF : field u m + n <= i64_max).
      { unfold i64_max, span32 in *. destruct u; cbn [unit_secs] in Hs; lia. }
      pose proof (add_clock md m u n Hm Hu Hn HF) as A. cbv zeta in A. destruct A as [A1 A2].
      destruct (Z_le_gt_dec (days_before (year m) (month m) + day m + (sod m + n * unit_secs u) / 86400) (year_length (year m))) as [L|G].
      + destruct (A1 L) as (mo' & d' & _ & _ & ->). left. eexists. reflexivity.
      + rewrite A2 by lia. apply built_cases. apply Z.mod_pos_bound. lia.
    - destruct u; try discriminate Hu; cbn [mk].
      + rewrite add_months; [|assumption|assumption|].
        * destruct (plus_months (year m) (month m) (day m) n) as [[Y Mo] D]. apply built_cases. lia.
        * unfold i64_max, span32 in *. cbn [unit_secs field] in *. lia.
      + rewrite add_years; [|assumption| |assumption].
        * destruct (in_year (wrap32 (year m + n)) (month m) (day m)) as [[Y Mo] D]. apply built_cases. lia.
        * unfold i64_max, i64_min, span32 in *. cbn [unit_secs field] in *. lia. }
  destruct C as [[m' E]|[e E]]; [left|right; eauto]. exists m'. split; [exact E|].
  assert (OA : tt_ok (Addition (Moment m) (mk u n)) = true) by (cbn [tt_ok]; rewrite ok_mk, Hi, Hm; reflexivity).
  pose proof (calculate_good md _ OA) as G. rewrite E in G. apply G.
Qed.

(** ** until on forward steps *)
Lemma before_inst : forall a b, before a b -> inst a <= inst b.
Proof. intros a b [H|[H _]]; lia. Qed.

Definition ends (ending : datetime) (it : iter) (K : nat) : Prop :=
  (nth_item (until_next md (iter_next md) ending) K it = None \/
   exists e, nth_item (until_next md (iter_next md) ending) K it = Some (Err e) /\ nth_item (iter_next md) K it = Some (Err e)) /\
  forall k, (k < K)%nat -> exists m', nth_item (until_next md (iter_next md) ending) k it = Some (Ok (Moment m')) /\
    nth_item (iter_next md) k it = Some (Ok (Moment m')) /\ before m' ending.

Lemma nth_S : forall S (nx : next_fn S) k s, nth_item nx (Datatypes.S k) s = nth_item nx k (snd (nx s)).
Proof. reflexivity. Qed.
Lemma until_snd : forall ending it, snd (until_next md (iter_next md) ending it) = snd (iter_next md it).
Proof.
  intros ending it. unfold until_next. destruct (iter_next md it) as [[[t|e|p|]|] s']; reflexivity.
Qed.

Lemma until_running : forall u n ending, 0 < n -> n * unit_secs u <= span32 -> dt_valid ending = true ->
  forall N m, dt_valid m = true -> inst ending - inst m < Z.of_nat N -> exists K, ends ending (at_moment u n m true) K.
Proof.
  intros u n ending Hn Hs He. induction N as [|N IH]; intros m Hm HN.
  all: destruct (add_total m u n Hm ltac:(lia) Hs) as [(m' & E & V)|[e E]].
  2,4: exists 0%nat; split; [right|intros; lia]; exists e;
    destruct (next_moment_err md u n m e E) as [it' F];
    assert (F0 : nth_item (iter_next md) 0 (at_moment u n m true) = Some (Err e)) by (unfold nth_item; cbn [after]; rewrite F; reflexivity);
    split; [|exact F0]; rewrite until_rest; [exact F0|]; intros t H; congruence.
  all: pose proof (add_forward md m u n m' Hm Hn Hs E) as Fw;
    pose proof (next_moment md u n m m' E) as Nx;
    assert (F0 : nth_item (iter_next md) 0 (at_moment u n m true) = Some (Ok (Moment m'))) by (unfold nth_item; cbn [after]; rewrite Nx; reflexivity);
    destruct (until_moment md (iter_next md) ending 0 (at_moment u n m true) (Moment m') m' V He F0 eq_refl) as [U1 U2].
  - exists 0%nat. split; [left|intros; lia]. apply U2. intro B. apply before_inst in B. lia.
  - destruct (dt_ltb m' ending) eqn:L.
    + assert (B : before m' ending) by (apply before_ltb; assumption).
      destruct (IH m' V ltac:(lia)) as (K & H1 & H2). exists (Datatypes.S K). split.
      * rewrite !nth_S, until_snd, Nx. cbn [snd]. exact H1.
      * intros [|k] Hk.
        -- exists m'. auto.
        -- rewrite !nth_S, until_snd, Nx. cbn [snd]. apply H2. lia.
    + exists 0%nat. split; [left|intros; lia]. apply U2. intro B. apply before_ltb in B; [congruence|assumption|assumption].
Qed.

Lemma until_progress : forall m u n it ending, build m (mk u n) = Ok it -> dt_valid m = true -> 0 < n ->
  n * unit_secs u <= span32 -> dt_valid ending = true -> exists K, ends ending it K.
Proof.
  intros m u n it ending B Hm Hn Hs He. apply build_at in B. subst it.
  assert (F0 : nth_item (iter_next md) 0 (at_moment u n m false) = Some (Ok (Moment m))) by reflexivity.
  destruct (until_moment md (iter_next md) ending 0 (at_moment u n m false) (Moment m) m Hm He F0 eq_refl) as [U1 U2].
  destruct (dt_ltb m ending) eqn:L.
  - assert (Bf : before m ending) by (apply before_ltb; assumption).
    destruct (until_running u n ending Hn Hs He (Z.to_nat (inst ending - inst m + 1)) m Hm ltac:(lia)) as (K & H1 & H2).
    exists (Datatypes.S K). split.
    + rewrite !nth_S, until_snd. exact H1.
    + intros [|k] Hk; [exists m; auto|]. rewrite !nth_S, until_snd. apply H2. lia.
  - exists 0%nat. split; [left|intros; lia]. apply U2. intro B. apply before_ltb in B; [congruence|assumption|assumption].
Qed.

(** An error persists. *)
Lemma until_error_persists : forall it ending K e, iter_ok it -> nth_item (iter_next md) K it = Some (Err e) ->
  forall j, (K <= j)%nat -> nth_item (until_next md (iter_next md) ending) j it = Some (Err e).
Proof.
  intros it ending K e Hok H j Hj. pose proof (b_sticky md it K e Hok H j Hj) as S.
  rewrite until_rest; [exact S|]. intros t Ht. congruence.
Qed.
Lemma build_ok : forall m u n it, dt_valid m = true -> in_i64 n = true -> build m (mk u n) = Ok it -> iter_ok it.
Proof.
  intros m u n it Hm Hn B. apply build_at in B. subst it. repeat split; cbn; [exact Hm|rewrite ok_mk; exact Hn|destruct u; reflexivity].
Qed.
Lemma span_i64 : forall u n, 0 <= n -> n * unit_secs u <= span32 -> in_i64 n = true.
Proof. intros u n Hn Hs. apply in_i64_iff. unfold i64_min, i64_max, span32 in *. destruct u; cbn [unit_secs] in Hs; lia. Qed.

Lemma until_none_or_error : forall m u n it ending, build m (mk u n) = Ok it -> dt_valid m = true -> 0 < n ->
  n * unit_secs u <= span32 -> dt_valid ending = true ->
  exists K, (forall k, (k < K)%nat -> exists m', nth_item (until_next md (iter_next md) ending) k it = Some (Ok (Moment m')) /\ before m' ending) /\
    (nth_item (until_next md (iter_next md) ending) K it = None \/
     exists e, forall j, (K <= j)%nat -> nth_item (until_next md (iter_next md) ending) j it = Some (Err e)).
Proof.
  intros m u n it ending B Hm Hn Hs He.
  destruct (until_progress m u n it ending B Hm Hn Hs He) as (K & H1 & H2). exists K. split.
  - intros k Hk. destruct (H2 k Hk) as (m' & A1 & _ & A3). eauto.
  - destruct H1 as [H1|(e & _ & H1)]; [left; exact H1|right; exists e].
    apply until_error_persists; [|exact H1]. eapply build_ok; [exact Hm| |exact B]. apply span_i64 with u; lia.
Qed.

(** The regular steps do end. *)
Lemma until_ends : forall m u n it ending, build m (mk u n) = Ok it -> dt_valid m = true -> 0 < n ->
  n * unit_secs u <= span32 -> dt_valid ending = true ->
  (forall k, (forall m', nth_item (iter_next md) k it = Some (Ok (Moment m')) -> before m' ending ->
     exists m'', nth_item (iter_next md) (Datatypes.S k) it = Some (Ok m''))) ->
  exists K, nth_item (until_next md (iter_next md) ending) K it = None /\
    forall k, (k < K)%nat -> exists m', nth_item (until_next md (iter_next md) ending) k it = Some (Ok (Moment m')) /\ before m' ending.
Proof.
  intros m u n it ending B Hm Hn Hs He Nxt.
  destruct (until_progress m u n it ending B Hm Hn Hs He) as (K & H1 & H2). exists K. split.
  - destruct H1 as [H1|(e & _ & H1)]; [exact H1|exfalso]. destruct K as [|K].
    + rewrite (build_first md _ _ _ B) in H1. discriminate H1.
    + destruct (H2 K ltac:(lia)) as (m' & _ & A2 & A3). destruct (Nxt K m' A2 A3) as [m'' C]. congruence.
  - intros k Hk. destruct (H2 k Hk) as (m' & A1 & _ & A3). eauto.
Qed.
Lemma until_ends_clock : forall m u n it ending, build m (mk u n) = Ok it -> dt_valid m = true -> clock_unit u = true -> 0 < n ->
  n * unit_secs u <= 30 * 86400 -> dt_valid ending = true ->
  inst ending + n * unit_secs u < instant (max_year + 1) 1 1 0 0 0 ->
  exists K, nth_item (until_next md (iter_next md) ending) K it = None /\
    forall k, (k < K)%nat -> exists m', nth_item (until_next md (iter_next md) ending) k it = Some (Ok (Moment m')) /\ before m' ending.
Proof.
  intros m u n it ending B Hm Hu Hn Hd He HR. pose proof (clock_unit_secs u Hu) as Hus.
  apply (until_ends m u n it ending B Hm Hn); [unfold span32; lia|exact He|].
  intros k m' F Bf. apply before_inst in Bf.
  assert (I : inst m' = inst m + Z.of_nat k * n * unit_secs u).
  { destruct k as [|k].
    - rewrite (build_first md _ _ _ B) in F. injection F as <-. lia.
    - destruct (Z_lt_le_dec (inst m + Z.of_nat (Datatypes.S k) * n * unit_secs u) (instant (max_year + 1) 1 1 0 0 0)) as [L|G].
      + destruct (b_clock md m u n it (Datatypes.S k) B Hm Hu ltac:(lia) Hd ltac:(lia) L) as (m1 & F1 & _ & _ & I1).
        rewrite F1 in F. injection F as <-. exact I1.
      + destruct (b_clock_beyond md m u n it (Datatypes.S k) B Hm Hu ltac:(lia) Hd G) as (y & mo & d & h & mi & s & O).
        rewrite O in F by lia. discriminate F. }
  destruct (b_clock md m u n it (Datatypes.S k) B Hm Hu ltac:(lia) Hd ltac:(lia)) as (m1 & F1 & _); [|eauto].
  replace (Z.of_nat (Datatypes.S k) * n * unit_secs u) with (Z.of_nat k * n * unit_secs u + n * unit_secs u) by lia. lia.
Qed.
(** Moments before the end are in its year or earlier. *)
Lemma before_year : forall a b, date_exists (year a) (month a) (day a) = true -> 0 <= sod a -> dt_valid b = true ->
  before a b -> year a <= year b.
Proof.
  intros a b Ha Hs Hb Bf. apply before_inst in Bf.
  destruct (Z_le_gt_dec (year a) (year b)) as [L|G]; [exact L|exfalso].
  pose proof (inst_year_end b Hb) as E. rewrite (inst_sod a) in Bf. pose proof (doy_bounds _ _ _ Ha).
  unfold instant in E. rewrite day_number_jan in E.
  pose proof (days_before_year_mono (year b + 1) (year a) ltac:(lia)).
  assert (Q : days_before_year (year b + 1) + 1 <= day_number (year a) (month a) (day a)) by (unfold day_number; lia).
  lia.
Qed.

(** Steps described by [f]. *)
Lemma until_ends_f : forall m u n it ending (f : nat -> datetime), build m (mk u n) = Ok it -> dt_valid m = true -> 0 < n ->
  n * unit_secs u <= span32 -> dt_valid ending = true -> f 0%nat = m ->
  (forall k, before (f k) ending -> nth_item (iter_next md) (Datatypes.S k) it = Some (Ok (Moment (f (Datatypes.S k))))) ->
  exists K, nth_item (until_next md (iter_next md) ending) K it = None /\
    forall k, (k < K)%nat -> nth_item (until_next md (iter_next md) ending) k it = Some (Ok (Moment (f k))) /\ before (f k) ending.
Proof.
  intros m u n it ending f B Hm Hn Hs He F0 Fs.
  destruct (until_progress m u n it ending B Hm Hn Hs He) as (K & H1 & H2).
  assert (X : forall k, (k <= K)%nat -> nth_item (iter_next md) k it = Some (Ok (Moment (f k)))).
  { induction k as [|k IH]; intro Hk.
    - rewrite (build_first md _ _ _ B), F0. reflexivity.
    - apply Fs. destruct (H2 k ltac:(lia)) as (m' & _ & A2 & A3). rewrite IH in A2 by lia. injection A2 as ->. exact A3. }
  exists K. split.
  - destruct H1 as [H1|(e & _ & H1)]; [exact H1|]. rewrite (X K) in H1 by lia. discriminate H1.
  - intros k Hk. destruct (H2 k Hk) as (m' & A1 & A2 & A3). rewrite (X k) in A2 by lia. injection A2 as <-. auto.
Qed.

Lemma until_ends_months : forall m n it ending, build m (Months n) = Ok it -> dt_valid m = true -> day m <= 28 -> 0 < n ->
  dt_valid ending = true -> year ending * 12 + n <= max_year * 12 ->
  exists K, nth_item (until_next md (iter_next md) ending) K it = None /\
    forall k, (k < K)%nat -> exists m', nth_item (until_next md (iter_next md) ending) k it = Some (Ok (Moment m')) /\ before m' ending.
Proof.
  intros m n it ending B Hm Hd Hn He HR.
  destruct (valid_facts m Hm) as (Vy & Vmo & Vd & Vml & Vh & Vmi & Vs).
  destruct (valid_facts ending He) as (Wy & _).
  set (i := fun k => year m * 12 + month m - 1 + Z.of_nat k * n).
  destruct (until_ends_f m UMonth n it ending (fun k => match k with O => m | _ => in_month (i k) (day m) m end) B Hm Hn) as (K & H1 & H2).
  - unfold span32; cbn [unit_secs]; unfold min_year, max_year in *; lia.
  - exact He.
  - reflexivity.
  - intros k Bf.
    assert (Hy : i k / 12 <= year ending).
    { destruct k as [|k].
      - pose proof (before_year m ending (valid_date m Hm) ltac:(unfold sod; lia) He Bf). unfold i.
        assert ((year m * 12 + month m - 1 + Z.of_nat 0 * n) / 12 < year ending + 1); [|lia]. apply Z.div_lt_upper_bound; lia.
      - refine (before_year _ ending _ _ He Bf); [|unfold sod; cbn [in_month hour minute second]; lia].
        cbn [in_month year month day]. apply date_exists_iff.
        pose proof (month_length_bounds (i (S k) / 12) (i (S k) mod 12 + 1) ltac:(lia)). lia. }
    assert (Hi : i (Datatypes.S k) = i k + n) by (unfold i; lia).
    apply b_months; try assumption; [lia|lia|]. fold (i (Datatypes.S k)). rewrite Hi.
    assert ((i k + n) / 12 < max_year + 1); [|lia]. apply Z.div_lt_upper_bound; [lia|].
    pose proof (Z.div_mod (i k) 12). lia.
  - exists K. split; [exact H1|]. intros k Hk. eexists. apply H2. exact Hk.
Qed.
Lemma until_ends_years : forall m n it ending, build m (Years n) = Ok it -> dt_valid m = true -> ~ (month m = 2 /\ day m = 29) -> 0 < n ->
  dt_valid ending = true -> year ending + n <= max_year ->
  exists K, nth_item (until_next md (iter_next md) ending) K it = None /\
    forall k, (k < K)%nat -> exists m', nth_item (until_next md (iter_next md) ending) k it = Some (Ok (Moment m')) /\ before m' ending.
Proof.
  intros m n it ending B Hm Hf Hn He HR.
  destruct (valid_facts m Hm) as (Vy & Vmo & Vd & Vml & Vh & Vmi & Vs).
  destruct (valid_facts ending He) as (Wy & _).
  destruct (until_ends_f m UYear n it ending (fun k => match k with O => m | _ => mkdt (year m + Z.of_nat k * n) (month m) (day m) (hour m) (minute m) (second m) 0 end) B Hm Hn) as (K & H1 & H2).
  - unfold span32; cbn [unit_secs]; unfold min_year, max_year in *; lia.
  - exact He.
  - reflexivity.
  - intros k Bf.
    assert (Hy : year m + Z.of_nat k * n <= year ending).
    { destruct k as [|k].
      - pose proof (before_year m ending (valid_date m Hm) ltac:(unfold sod; lia) He Bf). lia.
      - refine (before_year _ ending _ _ He Bf); [|unfold sod; cbn [hour minute second]; lia].
        cbn [year month day]. apply date_exists_iff. pose proof (month_length_bounds (year m) (month m) Vmo).
        split; [lia|]. split; [lia|].
        destruct (Z.eq_dec (month m) 2) as [E2|E2].
        + rewrite E2 in *. assert (day m <= 28) by (rewrite month_length_val in Vml by lia; cbn in Vml; destruct (leap (year m)); lia).
          pose proof (month_length_bounds (year m + Z.of_nat (S k) * n) 2 ltac:(lia)). lia.
        + rewrite (month_length_leap _ (year m)) by (try (left; assumption); assumption). assumption. }
    apply b_years; try assumption; [lia|]. nia.
  - exists K. split; [exact H1|]. intros k Hk. eexists. apply H2. exact Hk.
Qed.
End Steps.
