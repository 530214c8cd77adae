(** Iterations without some weekdays. *)
Require Import ZArith Znumtheory Bool List Lia ZifyBool.
From Verif Require Import Prelude Spec PreludeProofs CalendarProofs Chrono TimeType Matcher Iter SpecTree SpecMoment SpecIter SpecAdapt SpecSeq SpecExact SpecHang SpecFree
  EvalProofs ShapeProofs CompProofs AmountProofs AddProofs AddProofs2 OrdProofs IterProofs IterProofs2 AdapterProofs AdapterProofs2 AdapterProofs3 SeqProofs VisitProofs HangProofs ComposeProofs ForeverProofs OftenProofs TallyProofs.
Import ListNotations.
Local Open Scope Z_scope.

(** ** Lists of moments *)
Lemma listed_app : forall a b, listed (a ++ b) = listed a ++ listed b.
Proof. intros. apply map_app. Qed.
Lemma listed_moments : forall l, listed l = map Some (moments l).
Proof. intro l. unfold listed, moments. rewrite map_map. reflexivity. Qed.
Lemma moments_length : forall l, length (moments l) = length l.
Proof. intro l. apply map_length. Qed.
Lemma without_listed : forall S (nx : next_fn S) d l fuel s, items nx (length l) s = listed l -> (length l <= fuel)%nat ->
  let k := filter (fun x => negb (on_day d x)) l in items (without_next nx fuel (day_matches d)) (length k) s = listed k.
Proof.
  intros S nx d l fuel s E F k. pose proof (without_items S nx (day_matches d) (length l) fuel s F) as D. cbv zeta in D. rewrite E in D.
  rewrite (kept_listed _ (on_day d) true l (HangProofs.day_decides d)) in D. rewrite (filter_same _ (fun x => negb (on_day d x))) in D by (intro x; destruct (on_day d x); reflexivity).
  fold k in D. rewrite (seen_listed _ (on_day d) _ (HangProofs.day_decides d)), length_listed in D. exact D.
Qed.
Lemma every_listed : forall S (nx : next_fn S) d l fuel s, items nx (length l) s = listed l -> (length l <= fuel)%nat ->
  let k := filter (on_day d) l in items (filter_next nx fuel (day_matches d)) (length k) s = listed k.
Proof.
  intros S nx d l fuel s E F k. pose proof (every_items S nx (day_matches d) (length l) fuel s F) as D. cbv zeta in D. rewrite E in D.
  rewrite (kept_listed _ (on_day d) false l (HangProofs.day_decides d)) in D. rewrite (filter_same _ (on_day d)) in D by (intro x; destruct (on_day d x); reflexivity).
  fold k in D. rewrite (seen_listed _ (on_day d) _ (HangProofs.day_decides d)), length_listed in D. exact D.
Qed.
Lemma filter_shorter : forall A (p : A -> bool) l, (length (filter p l) <= length l)%nat.
Proof. intros A p. induction l as [|x l IH]; cbn [filter length]; [lia|]. destruct (p x); cbn [length]; lia. Qed.
Lemma filter_twice : forall A (p q : A -> bool) l, filter p (filter q l) = filter (fun x => p x && q x) l.
Proof.
  intros A p q. induction l as [|x l IH]; [reflexivity|]. cbn [filter]. destruct (q x); cbn [filter]; destruct (p x); cbn [andb]; rewrite ?IH; reflexivity.
Qed.
Lemma days_listed : forall md ds l fuel it, items (iter_next md) (length l) it = listed l -> (length l <= fuel)%nat ->
  items (without_days md fuel ds) (length (filter (free ds) l)) it = listed (filter (free ds) l).
Proof.
  intros md ds l fuel it E F. induction ds as [|d ds IH].
  - cbn [without_days]. assert (X : filter (free []) l = l). { clear. induction l as [|x l IH]; [reflexivity|]. cbn. f_equal. exact IH. } rewrite X. exact E.
  - cbn [without_days]. pose proof (without_listed _ (without_days md fuel ds) d (filter (free ds) l) fuel it IH) as W. cbv zeta in W.
    rewrite filter_twice in W. apply W. pose proof (filter_shorter _ (free ds) l). lia.
Qed.
Lemma until_listed : forall md S (nx : next_fn S) s e a y b, items nx (length (a ++ y :: b)) s = listed (a ++ y :: b) -> dt_valid e = true ->
  (forall x, In x (a ++ [y]) -> dt_valid x = true) -> (forall x, In x a -> before x e) -> ~ before y e -> collects (until_next md nx e) s (moments a).
Proof.
  intros md S nx s e a y b E He V Ba By.
  assert (I : forall k, (k < length (a ++ y :: b))%nat -> Some (nth_item nx k s) = nth_error (listed (a ++ y :: b)) k) by (intros k Hk; rewrite <- E; symmetry; apply nth_items; exact Hk).
  rewrite app_length in I. cbn [length] in I.
  split; rewrite moments_length.
  - rewrite <- listed_moments. rewrite (items_seq _ _ (length a) s (fun k => nth k (listed a) None)).
    + rewrite <- (length_listed a). apply map_nth_seq. intros k x X. apply nth_error_nth. exact X.
    + intros k Hk. cbv beta. specialize (I k ltac:(lia)). rewrite listed_app, nth_error_app1 in I by (rewrite length_listed; exact Hk).
      destruct (nth_error a k) as [x|] eqn:X; [|apply nth_error_None in X; lia].
      assert (Y : nth_error (listed a) k = Some (Some (Ok (Moment x)))) by (unfold listed; exact (map_nth_error (fun x => Some (Ok (Moment x))) k a X)).
      rewrite Y in I. etransitivity; [|symmetry; exact (nth_error_nth _ _ None Y)]. injection I as I. apply nth_error_In in X.
      apply (until_moment md nx e k s _ x (V x (in_or_app _ _ _ (or_introl X))) He I (calc_value md (Moment _) eq_refl)). apply Ba. exact X.
  - specialize (I (length a) ltac:(lia)). rewrite listed_app, nth_error_app2 in I by (rewrite length_listed; lia). rewrite length_listed, Nat.sub_diag in I. cbn in I. injection I as I.
    apply (until_moment md nx e _ s _ y (V y (in_or_app a [y] y (or_intror (in_eq y [])))) He I (calc_value md (Moment _) eq_refl)). exact By.
Qed.

Section Free.
Variable md : mode.
Lemma on_day_one : forall d d' x, on_day d x = true -> d' <> d -> on_day d' x = false.
Proof. intros d d' x H N. unfold on_day in *. apply Z.eqb_eq in H. apply Z.eqb_neq. rewrite H. destruct d, d'; cbn; congruence. Qed.
Lemma free_forall : forall ds x, free ds x = true <-> forall d, In d ds -> on_day d x = false.
Proof.
  intros ds x. unfold free. rewrite forallb_forall. split; intros H d I; specialize (H d I); destruct (on_day d x); (reflexivity || discriminate).
Qed.

(** The moments before the end, and seven after. *)
Lemma stretch : forall m u n c it ending, build m (mk u n) = Ok it -> dt_valid m = true -> nano m = 0 -> clock_unit u = true -> n * unit_secs u = c * 86400 -> 1 <= c <= 30 ->
  dt_valid ending = true -> before m ending ->
  let N := steps_before m ending (c * 86400) in inst m + (N + 7) * (c * 86400) < instant (max_year + 1) 1 1 0 0 0 ->
  exists a b, Z.of_nat (length a) = N /\ length b = 7%nat /\ items (iter_next md) (length (a ++ b)) it = listed (a ++ b) /\
    (forall x, In x a <-> dt_valid x = true /\ nano x = 0 /\ inst m <= inst x /\ before x ending /\ (c * 86400 | inst x - inst m)) /\
    (forall x, In x b -> dt_valid x = true /\ ~ before x ending) /\
    (Z.gcd c 7 = 1 -> forall d, exists x, In x b /\ on_day d x = true).
Proof.
  intros m u n c it e B Hm N0 Hu Ec Hc He Be N R. set (st := c * 86400) in *. assert (S0 : 0 < st) by (subst st; lia).
  assert (N1 : 0 < N) by (apply (before_steps m m e st 0 S0 He N0); [ring|exact Be]).
  set (f := fun k => match nth_item (iter_next md) k it with Some (Ok (Moment x)) => x | _ => m end).
  assert (F : forall k, Z.of_nat k < N + 7 -> nth_item (iter_next md) k it = Some (Ok (Moment (f k))) /\ dt_valid (f k) = true /\ inst (f k) = inst m + Z.of_nat k * st /\ nano (f k) = 0).
  { intros k Hk. destruct (day_items md m u n c it k B Hm Hu Ec ltac:(lia)) as (x & E & V & I & Z0).
    - fold st. assert (Z.of_nat k * st <= (N + 7) * st) by nia. lia.
    - unfold f. rewrite E. auto. }
  clearbody f. exists (map f (seq 0 (Z.to_nat N))), (map f (seq (Z.to_nat N) 7)). rewrite map_length, seq_length.
  split; [lia|]. split; [reflexivity|]. split; [|split; [|split]].
  - rewrite <- map_app, <- seq_app, map_length, seq_length. unfold listed. rewrite map_map. apply items_seq. intros k Hk. apply F. lia.
  - intro x. rewrite in_map_iff. split.
    + intros (k & <- & Hk). apply in_seq in Hk. destruct (F k ltac:(lia)) as (_ & V & I & Z0).
      split; [exact V|]. split; [exact Z0|]. assert (0 <= Z.of_nat k * st) by nia. split; [lia|]. split; [|exists (Z.of_nat k); lia].
      apply (before_steps m _ e st _ S0 He Z0 I). fold N. lia.
    + intros (V & Z0 & G & Bx & [k K]). assert (I : inst x = inst m + k * st) by lia. assert (K0 : 0 <= k) by nia.
      assert (KN : k < N) by (apply (before_steps m x e st k S0 He Z0 I); exact Bx). exists (Z.to_nat k). split; [|apply in_seq; lia].
      destruct (F (Z.to_nat k) ltac:(lia)) as (_ & V' & I' & Z0'). rewrite Z2Nat.id in I' by lia. apply inst_same; congruence.
  - intros x Hx. apply in_map_iff in Hx. destruct Hx as (k & <- & Hk). apply in_seq in Hk. destruct (F k ltac:(lia)) as (_ & V & I & Z0). split; [exact V|].
    intro Bx. apply (before_steps m _ e st _ S0 He Z0 I) in Bx. fold N in Bx. lia.
  - intros G d. destruct (hits 7 ltac:(lia) hit_7 c (wday_into d - weekday (year m) (month m) (day m))) as (g & Hg & H); [rewrite G; apply Z.divide_1_l|].
    unfold period_of in Hg, H. rewrite G in Hg, H. change (7 / 1) with 7 in Hg, H.
    set (k := N + (g - N) mod 7). pose proof (Z.mod_pos_bound (g - N) 7 ltac:(lia)) as M.
    assert (Km : k mod 7 = g). { unfold k. rewrite Z.add_mod_idemp_r by lia. replace (N + (g - N)) with g by ring. apply Z.mod_small. lia. }
    apply (H k ltac:(unfold k; lia)) in Km. destruct (F (Z.to_nat k) ltac:(unfold k; lia)) as (_ & V & I & _). exists (f (Z.to_nat k)). split.
    + apply in_map. apply in_seq. unfold k. lia.
    + rewrite Z2Nat.id in I by (unfold k; lia). pose proof (OftenProofs.day_decides m (f (Z.to_nat k)) d c k Hm V I) as D.
      rewrite HangProofs.day_decides in D. rewrite Km, Z.eqb_refl in D. injection D as ->. reflexivity.
Qed.
Lemma split_first : forall (p : datetime -> bool) a b y, In y b -> p y = true -> exists z r, filter p (a ++ b) = filter p a ++ z :: r /\ In z b.
Proof.
  intros p a b y I P. rewrite filter_app. destruct (filter p b) as [|z r] eqn:E.
  - assert (X : In y (filter p b)) by (apply filter_In; split; assumption). rewrite E in X. destruct X.
  - exists z, r. split; [reflexivity|]. assert (X : In z (filter p b)) by (rewrite E; left; reflexivity). apply filter_In in X. tauto.
Qed.
Lemma in_parts : forall (p : datetime -> bool) a z b, (forall x, In x a -> dt_valid x = true) -> In z b -> (forall x, In x b -> dt_valid x = true) ->
  forall x, In x (filter p a ++ [z]) -> dt_valid x = true.
Proof. intros p a z b A Z B x I. apply in_app_or in I. destruct I as [I|[<-|[]]]; [apply filter_In in I; apply A; tauto|apply B; exact Z]. Qed.
Lemma free_collects : forall m u n c it ds d0 fuel ending, build m (mk u n) = Ok it -> dt_valid m = true -> nano m = 0 -> clock_unit u = true -> n * unit_secs u = c * 86400 -> 1 <= c <= 30 ->
  Z.gcd c 7 = 1 -> ~ In d0 ds -> dt_valid ending = true -> before m ending ->
  let N := steps_before m ending (c * 86400) in N + 7 <= Z.of_nat fuel -> inst m + (N + 7) * (c * 86400) < instant (max_year + 1) 1 1 0 0 0 ->
  exists l, collects (until_next md (iter_next md) ending) it (moments l) /\ Z.of_nat (length l) = N /\
    collects (until_next md (without_days md fuel ds) ending) it (moments (filter (free ds) l)) /\
    (forall d, collects (until_next md (filter_next (iter_next md) fuel (day_matches d)) ending) it (moments (filter (on_day d) l))) /\
    (forall x, In x (filter (free ds) l) <-> dt_valid x = true /\ nano x = 0 /\ inst m <= inst x /\ before x ending /\ (c * 86400 | inst x - inst m) /\
       forall d, In d ds -> on_day d x = false).
Proof.
  intros m u n c it ds d0 fuel e B Hm N0 Hu Ec Hc G D0 He Be N F R.
  destruct (stretch m u n c it e B Hm N0 Hu Ec Hc He Be R) as (a & b & La & Lb & I & Ha & Hb & Hd). specialize (Hd G). fold N in La.
  assert (Va : forall x, In x a -> dt_valid x = true) by (intros x X; apply Ha in X; tauto).
  assert (Ba : forall x, In x a -> before x e) by (intros x X; apply Ha in X; tauto).
  assert (Vb : forall x, In x b -> dt_valid x = true) by (intros x X; apply Hb in X; tauto).
  assert (LF : (length (a ++ b) <= fuel)%nat) by (rewrite app_length; lia).
  exists a. split; [|split; [exact La|split; [|split]]].
  - destruct b as [|y b]; [discriminate Lb|]. apply (until_listed md _ (iter_next md) it e a y b I He).
    + intros x X. apply in_app_or in X. destruct X as [X|[<-|[]]]; [apply Va; exact X|apply Vb; left; reflexivity].
    + exact Ba.
    + apply Hb. left. reflexivity.
  - destruct (Hd d0) as (y & Yb & Yd). pose proof (days_listed md ds (a ++ b) fuel it I LF) as E.
    destruct (split_first (free ds) a b y Yb) as (z & r & Q & Zb). { apply free_forall. intros d Id. apply (on_day_one d0); [exact Yd|intro; subst; contradiction]. }
    rewrite Q in E. apply (until_listed md _ _ it e _ z r E He).
    + exact (in_parts _ a z b Va Zb Vb).
    + intros x X. apply filter_In in X. apply Ba. tauto.
    + apply Hb. exact Zb.
  - intro d. destruct (Hd d) as (y & Yb & Yd). pose proof (every_listed _ (iter_next md) d (a ++ b) fuel it I LF) as E. cbv zeta in E.
    destruct (split_first (on_day d) a b y Yb Yd) as (z & r & Q & Zb). rewrite Q in E. apply (until_listed md _ _ it e _ z r E He).
    + exact (in_parts _ a z b Va Zb Vb).
    + intros x X. apply filter_In in X. apply Ba. tauto.
    + apply Hb. exact Zb.
  - intro x. rewrite filter_In, Ha, free_forall. tauto.
Qed.

(** ** Whole weeks *)
Lemma free_count : forall d ds l, ~ In d ds -> (length (filter (free (d :: ds)) l) + length (filter (on_day d) l) = length (filter (free ds) l))%nat.
Proof.
  intros d ds l N. induction l as [|x l IH]; [reflexivity|]. cbn [filter].
  assert (E : free (d :: ds) x = negb (on_day d x) && free ds x) by reflexivity. rewrite E.
  destruct (on_day d x) eqn:O; cbn [negb andb].
  - assert (Fr : free ds x = true) by (apply free_forall; intros d' I; apply (on_day_one d); [exact O|intro; subst; contradiction]). rewrite Fr. cbn [length]. lia.
  - destruct (free ds x); cbn [length]; lia.
Qed.
Lemma free_weeks : forall m u n c it ds d0 fuel ending w, build m (mk u n) = Ok it -> dt_valid m = true -> nano m = 0 -> clock_unit u = true -> n * unit_secs u = c * 86400 -> 1 <= c <= 30 ->
  Z.gcd c 7 = 1 -> ~ In d0 ds -> NoDup ds -> dt_valid ending = true -> before m ending ->
  steps_before m ending (c * 86400) = 7 * w -> 7 * w + 7 <= Z.of_nat fuel -> inst m + (7 * w + 7) * (c * 86400) < instant (max_year + 1) 1 1 0 0 0 ->
  exists l, collects (until_next md (without_days md fuel ds) ending) it l /\ Z.of_nat (length l) = (7 - Z.of_nat (length ds)) * w.
Proof.
  intros m u n c it ds d0 fuel e w B Hm N0 Hu Ec Hc G D0 ND He Be W F R.
  assert (N1 : 0 < steps_before m e (c * 86400)) by (apply (before_steps m m e (c * 86400) 0 ltac:(lia) He N0); [ring|exact Be]).
  destruct (free_collects m u n c it ds d0 fuel e B Hm N0 Hu Ec Hc G D0 He Be) as (l & _ & L & C & Cd & _); [lia|rewrite W; exact R|].
  exists (moments (filter (free ds) l)). split; [exact C|]. rewrite moments_length.
  assert (Each : forall d, Z.of_nat (length (filter (on_day d) l)) = w).
  { intro d. destruct (tally md m u n c it d fuel e B Hm N0 Hu Ec Hc) as (l' & C' & (g & Hg & _ & Ln) & _); try assumption.
    - rewrite G. apply Z.divide_1_l.
    - lia.
    - rewrite G, W. exact R.
    - rewrite <- (collects_unique _ _ _ _ (Cd d) C'), moments_length in Ln. rewrite Ln, W. rewrite G in Hg |- *. change (7 / 1) with 7 in *.
      replace (7 * w + 7 - 1 - g) with (6 - g + w * 7) by ring. rewrite Z.div_add by lia. rewrite Z.div_small by lia. reflexivity. }
  clear C Cd D0. induction ds as [|d ds IH].
  - assert (X : filter (free []) l = l). { clear. induction l as [|x l IH]; [reflexivity|]. cbn. f_equal. exact IH. } rewrite X, L, W. cbn [length]. lia.
  - inversion ND as [|? ? Nd ND']. subst. specialize (IH ND'). pose proof (free_count d ds l Nd) as Q. specialize (Each d). cbn [length]. lia.
Qed.
End Free.
