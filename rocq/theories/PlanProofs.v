(** Proofs about the iterations of the README. *)
Require Import ZArith Bool List Lia ZifyBool.
From Verif Require Import Prelude Spec PreludeProofs Chrono TimeType Matcher Iter SpecTree SpecMoment SpecIter SpecAdapt SpecSeq SpecHang SpecPlan
  CalendarProofs EvalProofs ShapeProofs CompProofs OrdProofs AddProofs AddProofs2 IterProofs IterProofs2 AdapterProofs AdapterProofs2 AdapterProofs3 SeqProofs SeqProofs2
  ComposeProofs HangProofs ParserProofs5.
Import ListNotations.
Local Open Scope Z_scope.

(** ** Lists *)
(** Every element of [l] satisfying [P] comes after fewer than [fuel] others, and the last one satisfies [P]. *)
Inductive dense {A} (P : A -> bool) (fuel : nat) : list A -> Prop :=
| dense_nil : dense P fuel []
| dense_block : forall u x l, (length u < fuel)%nat -> (forall y, In y u -> P y = false) -> P x = true -> dense P fuel l -> dense P fuel (u ++ x :: l).
Lemma dense_le : forall A (P : A -> bool) f1 f2 l, (f1 <= f2)%nat -> dense P f1 l -> dense P f2 l.
Proof. intros A P f1 f2 l H D. induction D; constructor; auto; lia. Qed.
Lemma first_chosen : forall A (P : A -> bool) l x, In x l -> P x = true -> exists u y r, l = u ++ y :: r /\ (forall z, In z u -> P z = false) /\ P y = true.
Proof.
  intros A P l x. induction l as [|a l IH]; intros H Hx; [destruct H|]. destruct (P a) eqn:E.
  - exists [], a, l. split; [reflexivity|]. split; [intros z []|exact E].
  - destruct H as [->|H]; [congruence|]. destruct (IH H Hx) as (u & y & r & -> & Hu & Hy). exists (a :: u), y, r.
    split; [reflexivity|]. split; [|exact Hy]. intros z [->|Hz]; auto.
Qed.
Lemma dense_gap : forall A (P : A -> bool) fuel l, (0 < fuel)%nat -> (forall l0 x, l = l0 ++ [x] -> P x = true) ->
  (forall l1 w l2, l = l1 ++ w ++ l2 -> length w = fuel -> exists x, In x w /\ P x = true) -> dense P fuel l.
Proof.
  intros A P fuel l Hf. remember (length l) as n eqn:En. revert l En. induction n as [n IH] using lt_wf_ind. intros l En HL HW.
  destruct l as [|a l']; [constructor|].
  destruct (exists_last (l := a :: l') ltac:(discriminate)) as (l0 & z & Ez).
  destruct (first_chosen A P (a :: l') z) as (u & y & r & E & Hu & Hy).
  { rewrite Ez. apply in_or_app. right. left. reflexivity. }
  { apply (HL l0 z Ez). }
  rewrite E. constructor; [|exact Hu|exact Hy|].
  - destruct (le_lt_dec fuel (length u)) as [L|L]; [|exact L]. exfalso.
    destruct (HW [] (firstn fuel u) (skipn fuel u ++ y :: r)) as (x & I & X).
    + cbn [app]. rewrite app_assoc, firstn_skipn. exact E.
    + apply firstn_length_le. exact L.
    + rewrite (Hu x) in X; [discriminate|]. rewrite <- (firstn_skipn fuel u). apply in_or_app. left. exact I.
  - apply (IH (length r)).
    + rewrite En, E, app_length. cbn [length]. lia.
    + reflexivity.
    + intros l1 x ->. apply (HL (u ++ y :: l1) x). rewrite E, <- app_assoc. reflexivity.
    + intros l1 w l2 -> Hw. apply (HW (u ++ y :: l1) w l2); [|exact Hw]. rewrite E, <- app_assoc. reflexivity.
Qed.
Lemma dense_app : forall A (P : A -> bool) fuel l1 l2, dense P fuel l1 -> dense P fuel l2 -> dense P fuel (l1 ++ l2).
Proof. intros A P fuel l1 l2 D1 D2. induction D1; [exact D2|]. rewrite <- app_assoc. cbn [app]. constructor; auto. Qed.
Lemma filter_none : forall A (P : A -> bool) l, (forall y, In y l -> P y = false) -> filter P l = [].
Proof. intros A P l. induction l as [|a l IH]; intro H; [reflexivity|]. cbn [filter]. rewrite (H a) by (left; reflexivity). apply IH. intros y Hy. apply H. right. exact Hy. Qed.
Lemma filter_all : forall A (P : A -> bool) l, (forall y, In y l -> P y = true) -> filter P l = l.
Proof. intros A P l. induction l as [|a l IH]; intro H; [reflexivity|]. cbn [filter]. rewrite (H a) by (left; reflexivity). f_equal. apply IH. intros y Hy. apply H. right. exact Hy. Qed.
Lemma filter_cons_split : forall A (P : A -> bool) l x r, filter P l = x :: r -> exists a b, l = a ++ x :: b /\ filter P a = [] /\ P x = true /\ filter P b = r.
Proof.
  intros A P l x r. induction l as [|y l IH]; intro H; [discriminate|]. cbn [filter] in H. destruct (P y) eqn:E.
  - injection H as -> H. exists [], l. auto.
  - destruct (IH H) as (a & b & -> & H1 & H2 & H3). exists (y :: a), b. cbn [filter app]. rewrite E. auto.
Qed.
Lemma filter_split : forall A (P : A -> bool) l l1 r, filter P l = l1 ++ r -> exists a b, l = a ++ b /\ filter P a = l1 /\ filter P b = r.
Proof.
  intros A P l l1. revert l. induction l1 as [|x l1 IH]; intros l r H; [exists [], l; auto|].
  cbn [app] in H. destruct (filter_cons_split A P l x _ H) as (a & b & -> & H1 & H2 & H3). destruct (IH b r H3) as (c & d & -> & H4 & H5).
  exists (a ++ x :: c), d. rewrite <- app_assoc. split; [reflexivity|]. split; [|exact H5]. rewrite filter_app, H1. cbn [filter app]. rewrite H2, H4. reflexivity.
Qed.
Lemma filter_filter : forall A (P Q : A -> bool) l, filter P (filter Q l) = filter (fun x => Q x && P x) l.
Proof. intros A P Q l. induction l as [|a l IH]; [reflexivity|]. cbn [filter]. destruct (Q a); cbn [filter andb]; rewrite IH; reflexivity. Qed.

(** ** Iterators that give a list *)
Definition gives {S} (nx : next_fn S) (s : S) (l : list datetime) (s' : S) : Prop := items nx (length l) s = listed l /\ after nx (length l) s = s'.
Lemma gives_split : forall S (nx : next_fn S) l1 l2 s s', gives nx s (l1 ++ l2) s' -> gives nx s l1 (after nx (length l1) s) /\ gives nx (after nx (length l1) s) l2 s'.
Proof.
  intros S nx l1 l2 s s' [I A]. rewrite app_length, items_app in I. unfold listed in I. rewrite map_app in I.
  assert (E : items nx (length l1) s = listed l1 /\ items nx (length l2) (after nx (length l1) s) = listed l2).
  { assert (L : length (items nx (length l1) s) = length (listed l1)) by (rewrite items_length, length_listed; reflexivity).
    unfold listed in *.
    revert L I. generalize (items nx (length l1) s), (items nx (length l2) (after nx (length l1) s)). intros a b L I.
    set (u := map (fun x => Some (Ok (Moment x))) l1) in *. set (v := map (fun x => Some (Ok (Moment x))) l2) in *. clearbody u v.
    revert u L I. induction a as [|x a IH]; intros [|y u] L I; cbn in *; try discriminate; [auto|].
    injection I as -> I. destruct (IH u ltac:(lia) I) as [-> ->]. auto. }
  destruct E as [E1 E2]. rewrite app_length, after_add in A. repeat split; assumption.
Qed.
Lemma gives_app : forall S (nx : next_fn S) l1 l2 s s1 s2, gives nx s l1 s1 -> gives nx s1 l2 s2 -> gives nx s (l1 ++ l2) s2.
Proof.
  intros S nx l1 l2 s s1 s2 [I1 A1] [I2 A2]. split.
  - rewrite app_length, items_app, A1, I1, I2. unfold listed. rewrite map_app. reflexivity.
  - rewrite app_length, after_add, A1. exact A2.
Qed.
Lemma gives_item : forall S (nx : next_fn S) l s s' k x, gives nx s l s' -> nth_error l k = Some x -> nth_item nx k s = Some (Ok (Moment x)).
Proof.
  intros S nx l s s' k x [I _] H. assert (L : (k < length l)%nat) by (apply nth_error_Some; rewrite H; discriminate).
  pose proof (nth_items S nx (length l) k s L) as Q. rewrite I in Q. unfold listed in Q. rewrite nth_error_map, H in Q. cbn in Q. congruence.
Qed.
Lemma drop_gives : forall S (nx : next_fn S) (m : matcher) (p : datetime -> bool) b fuel l s s', (forall x, m (Moment x) = Ok (p x)) ->
  dense (fun x => negb (Bool.eqb b (p x))) fuel l -> gives nx s l s' -> gives (drop_next nx m b fuel) s (filter (fun x => negb (Bool.eqb b (p x))) l) s'.
Proof.
  intros S nx m p b fuel l s s' Hm D. revert s. induction D as [|u x l Hu Nu Hx D IH]; intros s G.
  - exact G.
  - destruct (gives_split _ nx (u ++ [x]) l s s') as [G1 G2]; [rewrite <- app_assoc; exact G|].
    rewrite filter_app, (filter_none _ _ u Nu). cbn [filter app]. rewrite Hx.
    change (x :: filter (fun y => negb (Bool.eqb b (p y))) l) with ([x] ++ filter (fun y => negb (Bool.eqb b (p y))) l).
    apply (gives_app _ _ _ _ _ (after nx (length (u ++ [x])) s)); [|apply IH; exact G2].
    assert (N : drop_next nx m b fuel s = (Some (Ok (Moment x)), after nx (Datatypes.S (length u)) s)).
    { assert (X : nth_item nx (length u) s = Some (Ok (Moment x))).
      { apply (gives_item _ nx _ s _ _ _ G1). rewrite nth_error_app2, Nat.sub_diag by lia. reflexivity. }
      rewrite (drop_first nx m b (length u) fuel s Hu).
      - rewrite X. cbn [seen]. rewrite Hm. reflexivity.
      - intros i Hi. destruct (nth_error u i) as [y|] eqn:E; [|apply nth_error_None in E; lia].
        rewrite (gives_item _ nx _ s _ i y G1) by (rewrite nth_error_app1 by lia; exact E). cbn [decided]. rewrite Hm.
        specialize (Nu y (nth_error_In _ _ E)). destruct b, (p y); cbn in *; congruence.
      - rewrite X. cbn [decided]. rewrite Hm. destruct b, (p x); cbn in *; congruence. }
    split; cbn [length items after]; rewrite N; cbn [fst snd]; [reflexivity|]. rewrite app_length. f_equal. cbn [length]. lia.
Qed.
Lemma filter_gives : forall S (nx : next_fn S) (m : matcher) (p : datetime -> bool) fuel l s s', (forall x, m (Moment x) = Ok (p x)) ->
  dense p fuel l -> gives nx s l s' -> gives (filter_next nx fuel m) s (filter p l) s'.
Proof.
  intros S nx m p fuel l s s' Hm D G.
  assert (E : forall x, p x = negb (Bool.eqb false (p x))) by (intro x; destruct (p x); reflexivity).
  rewrite (filter_ext _ _ E). apply (drop_gives S nx m p false); [exact Hm| |exact G].
  clear G. induction D as [|u x r H1 H2 H3 D IH]; constructor; auto; [intros y Hy; rewrite <- E; auto|rewrite <- E; exact H3].
Qed.
Lemma without_gives : forall S (nx : next_fn S) (m : matcher) (p : datetime -> bool) fuel l s s', (forall x, m (Moment x) = Ok (p x)) ->
  dense (fun x => negb (p x)) fuel l -> gives nx s l s' -> gives (without_next nx fuel m) s (filter (fun x => negb (p x)) l) s'.
Proof.
  intros S nx m p fuel l s s' Hm D G.
  assert (E : forall x, negb (p x) = negb (Bool.eqb true (p x))) by (intro x; destruct (p x); reflexivity).
  rewrite (filter_ext _ _ E). apply (drop_gives S nx m p true); [exact Hm| |exact G].
  clear G. induction D as [|u x r H1 H2 H3 D IH]; constructor; auto; [intros y Hy; rewrite <- E; auto|rewrite <- E; exact H3].
Qed.
Lemma until_gives : forall md S (nx : next_fn S) ending l x s s', dt_valid ending = true -> (forall y, In y l -> dt_valid y = true /\ before y ending) ->
  dt_valid x = true -> ~ before x ending -> gives nx s (l ++ [x]) s' -> collects (until_next md nx ending) s (moments l).
Proof.
  intros md S nx ending l x s s' He Hl Hx Nx G. unfold collects, moments. rewrite map_length. split.
  - rewrite map_map. rewrite (items_seq S _ (length l) s (fun k => nth_item nx k s)).
    + destruct (gives_split _ _ _ _ _ _ G) as [[I _] _]. rewrite <- (items_seq S nx (length l) s (fun k => nth_item nx k s)) by reflexivity. exact I.
    + intros k Hk. destruct (nth_error l k) as [y|] eqn:E; [|apply nth_error_None in E; lia].
      assert (N : nth_item nx k s = Some (Ok (Moment y))) by (apply (gives_item _ nx _ s _ k y G); rewrite nth_error_app1 by lia; exact E).
      destruct (Hl y (nth_error_In _ _ E)) as [V B]. rewrite N.
      apply (until_moment md nx ending k s _ y V He N (calc_value md (Moment _) eq_refl)). exact B.
  - assert (N : nth_item nx (length l) s = Some (Ok (Moment x))) by (apply (gives_item _ nx _ s _ _ _ G); rewrite nth_error_app2, Nat.sub_diag by lia; reflexivity).
    apply (until_moment md nx ending _ s _ x Hx He N (calc_value md (Moment _) eq_refl)). exact Nx.
Qed.

(** ** Days of one month *)
Lemma inst_days : forall x y k, dt_valid x = true -> dt_valid y = true -> inst y = inst x + k * 86400 ->
  day_number (year y) (month y) (day y) = day_number (year x) (month x) (day x) + k.
Proof.
  intros x y k Hx Hy I. rewrite !inst_sod in I. pose proof (sod_range x Hx). pose proof (sod_range y Hy).
  revert I. generalize (day_number (year y) (month y) (day y)), (day_number (year x) (month x) (day x)). intros; lia.
Qed.
Lemma days_before_same : forall y y' mo, 1 <= mo <= 12 -> days_before y mo - 1 <= days_before y' mo <= days_before y mo + 1.
Proof.
  intros y y' mo H. assert (C : mo = 1 \/ mo = 2 \/ mo = 3 \/ mo = 4 \/ mo = 5 \/ mo = 6 \/ mo = 7 \/ mo = 8 \/ mo = 9 \/ mo = 10 \/ mo = 11 \/ mo = 12) by lia.
  assert (E : forall y, days_before y mo = (fun b => fold_left Z.add (firstn (Z.to_nat (mo - 1)) [31; if b : bool then 29 else 28; 31; 30; 31; 30; 31; 31; 30; 31; 30; 31]) 0) (leap y)).
  { intro z. unfold days_before. destruct C as [->|[->|[->|[->|[->|[->|[->|[->|[->|[->|[->| ->]]]]]]]]]]];
    match goal with |- days_before_nat _ ?a = _ => let v := eval vm_compute in a in change (days_before_nat z a) with (days_before_nat z v) end;
    cbn [days_before_nat]; rewrite ?month_length_val by lia; destruct (leap z); reflexivity. }
  rewrite !E. generalize (leap y), (leap y'). intros b b'.
  destruct C as [->|[->|[->|[->|[->|[->|[->|[->|[->|[->|[->| ->]]]]]]]]]]]; destruct b, b'; vm_compute; split; discriminate.
Qed.
Lemma month_apart : forall x y k, dt_valid x = true -> dt_valid y = true -> inst y = inst x + k * 86400 -> 31 <= k <= 300 -> month x <> month y.
Proof.
  intros x y k Hx Hy I Hk M. pose proof (inst_days x y k Hx Hy I) as D. pose proof (year_le x y Hx Hy ltac:(lia)) as Y.
  apply dt_valid_iff in Hx. apply dt_valid_iff in Hy. destruct Hx as (_ & Ex & _). destruct Hy as (_ & Ey & _).
  apply date_exists_iff in Ex. apply date_exists_iff in Ey. rewrite <- M in *.
  pose proof (month_length_bounds (year x) (month x)). pose proof (month_length_bounds (year y) (month x)).
  unfold day_number in D. destruct (Z.eq_dec (year x) (year y)) as [E|E]; [rewrite E in *; lia|].
  pose proof (days_before_year_mono (year x) (year y) Y). pose proof (days_before_same (year x) (year y) (month x) ltac:(lia)). lia.
Qed.
Lemma week_after_first : forall x y, dt_valid x = true -> dt_valid y = true -> inst y = inst x + 7 * 86400 -> day x = 1 -> month y = month x /\ day y = 8.
Proof.
  intros x y Hx Hy I D1. pose proof (inst_days x y 7 Hx Hy I) as D. rewrite D1 in D.
  apply dt_valid_iff in Hx. apply dt_valid_iff in Hy. destruct Hx as (_ & Ex & _). destruct Hy as (_ & Ey & _).
  destruct (day_number_inj _ _ _ (year x) (month x) 8 Ey) as (_ & A & B); [|rewrite D; unfold day_number; lia|auto].
  apply date_exists_iff in Ex. apply date_exists_iff. pose proof (month_length_bounds (year x) (month x)). lia.
Qed.

(** ** Steps of [n] days *)
Lemma seq_prefix : forall A (F : nat -> A) a b p r, map F (seq a b) = p ++ r -> p = map F (seq a (length p)).
Proof.
  intros A F a b p. revert a b. induction p as [|x p IH]; intros a b r H; [reflexivity|].
  destruct b as [|b]; [discriminate|]. cbn [seq map app] in H. injection H as <- H. cbn [length seq map]. f_equal. apply (IH _ b r). exact H.
Qed.
Lemma seq_part : forall A (F : nat -> A) K l1 w l2 j, map F (seq 0 K) = l1 ++ w ++ l2 -> (j < length w)%nat -> nth_error w j = Some (F (length l1 + j)%nat).
Proof.
  intros A F K l1 w l2 j H Hj.
  assert (L : K = (length l1 + (length w + length l2))%nat) by (rewrite <- !app_length, <- H, map_length, seq_length; reflexivity).
  assert (X : nth_error (map F (seq 0 K)) (length l1 + j) = Some (F (length l1 + j)%nat)).
  { rewrite (map_nth_error F (length l1 + j) _ (d := (length l1 + j)%nat)); [reflexivity|].
    rewrite (nth_error_nth' _ 0%nat) by (rewrite seq_length; lia). rewrite seq_nth by lia. reflexivity. }
  rewrite H, nth_error_app2, Nat.add_comm, Nat.add_sub, nth_error_app1 in X by lia. rewrite X, Nat.add_comm. reflexivity.
Qed.

Lemma early : forall x, dt_valid x = true -> year x < max_year -> inst x + 364 * 86400 < instant (max_year + 1) 1 1 0 0 0.
Proof.
  intros x V Y. rewrite inst_sod. pose proof (sod_range x V). apply dt_valid_iff in V. destruct V as (_ & E & _).
  pose proof (day_number_lt_year (year x) (month x) (day x) max_year 1 1 E eq_refl Y) as L. unfold instant.
  rewrite day_number_jan in *. rewrite leap_year_step. pose proof (year_length_bounds max_year). lia.
Qed.

Section Steps.
Variables (md : mode) (m ending : datetime) (n : Z) (it : iter).
Hypothesis B : build m (Days n) = Ok it.
Hypothesis Vm : dt_valid m = true.
Hypothesis Ve : dt_valid ending = true.
Hypothesis Hn : 1 <= n <= 30.
Hypothesis Ym : year m < max_year.
Hypothesis Ye : year ending < max_year.

Definition F (k : nat) : datetime := match nth_item (iter_next md) k it with Some (Ok (Moment x)) => x | _ => m end.
Lemma F_ok : forall k, inst m + Z.of_nat k * (n * 86400) < instant (max_year + 1) 1 1 0 0 0 ->
  nth_item (iter_next md) k it = Some (Ok (Moment (F k))) /\ dt_valid (F k) = true /\ inst (F k) = inst m + Z.of_nat k * (n * 86400) /\
  nano (F k) = match k with O => nano m | _ => 0 end.
Proof.
  intros k H. destruct (clock_item_nano md m UDay n it k B Vm eq_refl ltac:(lia) ltac:(cbn; lia)) as (x & E & V & I & N).
  { cbn [unit_secs]. lia. }
  unfold F. rewrite E. repeat split; [exact V|rewrite I; cbn [unit_secs]; lia|]. rewrite N. destruct k; reflexivity.
Qed.
(** The number of steps before the end. *)
Variable N : nat.
Hypothesis HB : forall k, (k < N)%nat -> before (F k) ending.
Hypothesis HN : forall k, (N <= k)%nat -> inst m + Z.of_nat k * (n * 86400) < instant (max_year + 1) 1 1 0 0 0 -> ~ before (F k) ending.
Lemma reach : forall k, (Z.of_nat k * n <= Z.of_nat N * n + 300) -> inst m + Z.of_nat k * (n * 86400) < instant (max_year + 1) 1 1 0 0 0.
Proof.
  pose proof (early m Vm Ym) as Em. pose proof (early ending Ve Ye) as Ee.
  assert (P : forall j, (j <= N)%nat -> inst m + Z.of_nat j * (n * 86400) <= inst m \/ inst m + Z.of_nat j * (n * 86400) <= inst ending + 30 * 86400).
  { induction j as [|j IH]; intro H; [left; lia|]. right.
    destruct (F_ok j) as (_ & _ & I & _); [destruct (IH ltac:(lia)); lia|].
    pose proof (HB j ltac:(lia)) as Bj. apply before_inst in Bj. nia. }
  intros k H. destruct (P N (Nat.le_refl _)); nia.
Qed.
Lemma steps_gives : forall K, (Z.of_nat K * n <= Z.of_nat N * n + 300) -> gives (iter_next md) it (map F (seq 0 K)) (after (iter_next md) K it).
Proof.
  intros K H. unfold gives. rewrite map_length, seq_length. split; [|reflexivity].
  unfold listed. rewrite map_map. apply items_seq. intros k Hk. apply F_ok, reach. nia.
Qed.
Lemma steps_apart : days_apart m n (map F (seq 0 N)).
Proof.
  intros k x H. assert (L : (k < N)%nat) by (rewrite <- (seq_length N 0), <- (map_length F); apply nth_error_Some; rewrite H; discriminate).
  rewrite nth_error_map, (nth_error_nth' _ 0%nat), seq_nth in H by (rewrite ?seq_length; lia). injection H as <-.
  destruct (F_ok k) as (_ & V & I & Na); [apply reach; nia|]. auto.
Qed.

(** Without one month. *)
Lemma without_month : forall mo fuel, 31 <= (Z.of_nat fuel - 1) * n ->
  collects (until_next md (without_next (iter_next md) fuel (month_matches mo)) ending) it (moments (filter (fun x => negb (in_ymonth mo x)) (map F (seq 0 N)))).
Proof.
  intros mo fuel Hf. set (keep := fun x => negb (in_ymonth mo x)).
  set (c := Z.to_nat ((30 + n) / n)).
  assert (C : 31 <= Z.of_nat c * n <= 60).
  { unfold c. pose proof (Z.div_mod (30 + n) n ltac:(lia)). pose proof (Z.mod_pos_bound (30 + n) n ltac:(lia)).
    assert (0 <= (30 + n) / n) by (apply Z.div_pos; lia). rewrite Z2Nat.id by lia. nia. }
  assert (Cf : (c + 1 <= fuel)%nat).
  { unfold c. assert ((30 + n) / n <= Z.of_nat fuel - 1).
    { apply Z.lt_succ_r. apply Z.div_lt_upper_bound; nia. }
    assert (0 <= (30 + n) / n) by (apply Z.div_pos; lia). lia. }
  assert (Apart : forall i, (Z.of_nat (i + c) * n <= Z.of_nat N * n + 300) -> keep (F i) = true \/ keep (F (i + c)%nat) = true).
  { intros i Hi. destruct (F_ok i) as (_ & V1 & I1 & _); [apply reach; nia|]. destruct (F_ok (i + c)%nat) as (_ & V2 & I2 & _); [apply reach; nia|].
    assert (M : month (F i) <> month (F (i + c)%nat)) by (apply (month_apart _ _ (Z.of_nat c * n)); [assumption|assumption|nia|nia]).
    unfold keep, in_ymonth. lia. }
  assert (X : exists x, In x (map F (seq N (c + 1))) /\ keep x = true).
  { destruct (Apart N) as [K|K]; [nia| |]; eexists; (split; [|exact K]); apply in_map, in_seq; lia. }
  destruct X as (x & Ix & Kx). destruct (first_chosen _ keep _ x Ix Kx) as (u & y & r & E & Hu & Hy).
  assert (Lu : (length u <= c)%nat). { assert (L : length (map F (seq N (c + 1))) = length (u ++ y :: r)) by (rewrite E; reflexivity). rewrite map_length, seq_length, app_length in L. cbn [length] in L. lia. }
  set (K := (N + (length u + 1))%nat).
  assert (D : map F (seq 0 K) = map F (seq 0 N) ++ u ++ [y]).
  { unfold K. rewrite seq_app, map_app. f_equal. cbn [Nat.add].
    rewrite (seq_prefix _ F N (c + 1) (u ++ [y]) r) by (rewrite E, <- app_assoc; reflexivity). rewrite app_length. reflexivity. }
  assert (Uy : forall z, In z (u ++ [y]) -> dt_valid z = true /\ ~ before z ending).
  { intros z Hz. assert (I2 : In z (map F (seq N (c + 1)))).
    { rewrite E. apply in_app_or in Hz. apply in_or_app. destruct Hz as [Hz|[->|[]]]; [left; exact Hz|right; left; reflexivity]. }
    apply in_map_iff in I2. destruct I2 as (i & <- & Hi). apply in_seq in Hi. split; [apply F_ok, reach; nia|]. apply HN; [lia|apply reach; nia]. }
  apply (until_gives md _ _ ending _ y it (after (iter_next md) K it) Ve).
  - intros z Hz. apply filter_In in Hz. destruct Hz as [Hz _]. apply in_map_iff in Hz. destruct Hz as (i & <- & Hi). apply in_seq in Hi.
    split; [apply F_ok, reach; nia|]. apply HB. lia.
  - apply Uy, in_or_app. right. left. reflexivity.
  - apply Uy, in_or_app. right. left. reflexivity.
  - assert (Q : filter keep (map F (seq 0 N)) ++ [y] = filter keep (map F (seq 0 K))).
    { rewrite D, !filter_app, (filter_none _ keep u Hu). cbn [filter app]. rewrite Hy. reflexivity. }
    change (gives (without_next (iter_next md) fuel (month_matches mo)) it (filter keep (map F (seq 0 N)) ++ [y]) (after (iter_next md) K it)). rewrite Q.
    apply (without_gives _ _ _ (in_ymonth mo)).
    + apply month_decides.
    + apply (dense_le _ _ (c + 1) fuel _ Cf). apply dense_gap; [lia| |].
      * intros l0 z Ez. rewrite D, app_assoc in Ez. apply app_inj_tail in Ez. destruct Ez as [_ <-]. exact Hy.
      * intros l1 w l2 Ew Lw.
        assert (Kb : (length l1 + c < K)%nat). { rewrite <- (seq_length K 0), <- (map_length F), Ew, !app_length. lia. }
        pose proof (seq_part _ F K l1 w l2 0 Ew ltac:(lia)) as P0. pose proof (seq_part _ F K l1 w l2 c Ew ltac:(lia)) as P1.
        rewrite Nat.add_0_r in P0. destruct (Apart (length l1)) as [A|A]; [nia| |]; eexists; (split; [|exact A]); eapply nth_error_In; eassumption.
    + apply steps_gives. unfold K. nia.
Qed.
End Steps.

(** ** A day of the week, without one month, without the first of a month *)
Section Complex.
Variables (md : mode) (m ending : datetime) (it : iter).
Hypothesis B : build m (Days 1) = Ok it.
Hypothesis Vm : dt_valid m = true.
Hypothesis Ve : dt_valid ending = true.
Hypothesis Ym : year m < max_year.
Hypothesis Ye : year ending < max_year.
Variable N : nat.
Let F := F md m it.
Hypothesis HB : forall k, (k < N)%nat -> before (F k) ending.
Hypothesis HN : forall k, (N <= k)%nat -> inst m + Z.of_nat k * (1 * 86400) < instant (max_year + 1) 1 1 0 0 0 -> ~ before (F k) ending.
Variables (d : wday) (mo : ymonth).
Let day_ok := on_day d.
Let month_ok := fun x => negb (in_ymonth mo x).
Let start_ok := fun x => negb (day x =? 1).
Let g : nat := Z.to_nat ((wday_into d - weekday (year m) (month m) (day m)) mod 7).

Lemma day_F : forall k, (k <= N + 300)%nat -> dt_valid (F k) = true /\ inst (F k) = inst m + Z.of_nat k * 86400.
Proof.
  intros k H. destruct (F_ok md m ending 1 it B Vm ltac:(lia) k) as (_ & V & I & _); [|unfold F; split; [exact V|lia]].
  apply (reach md m ending 1 it B Vm Ve ltac:(lia) Ym Ye N HB HN). lia.
Qed.
Lemma day_on : forall k, (k <= N + 300)%nat -> day_ok (F k) = Nat.eqb (k mod 7) g.
Proof.
  intros k H. destruct (day_F k H) as [V I]. unfold day_ok, on_day. rewrite (weekday_shift m (F k) (Z.of_nat k) Vm V ltac:(lia)).
  unfold g. pose proof (weekday_range (year m) (month m) (day m)) as W. set (w := weekday (year m) (month m) (day m)) in *. clearbody w.
  assert (Db : 0 <= wday_into d < 7) by (destruct d; cbn; lia). set (e := wday_into d) in *. clearbody e.
  assert (E : Z.of_nat (k mod 7) = Z.of_nat k mod 7) by (rewrite Nat2Z.inj_mod; reflexivity).
  set (r := (k mod 7)%nat) in *. clearbody r. clear V I H.
  destruct (Nat.eqb_spec r (Z.to_nat ((e - w) mod 7))) as [Q|Q]; lia.
Qed.
Lemma weekly : forall K, (K <= N + 300)%nat -> exists Q, filter day_ok (map F (seq 0 K)) = map (fun q => F (g + 7 * q)%nat) (seq 0 Q) /\ (K <= g + 7 * Q < K + 7)%nat.
Proof.
  assert (Gb : (g < 7)%nat) by (unfold g; pose proof (Z.mod_pos_bound (wday_into d - weekday (year m) (month m) (day m)) 7); lia).
  induction K as [|K IH]; intro H; [exists 0%nat; split; [reflexivity|lia]|].
  destruct (IH ltac:(lia)) as (Q & E & L). rewrite seq_S, map_app, filter_app, E. cbn [map Nat.add filter]. rewrite day_on by lia.
  assert (Q7 : forall a, (a < 7)%nat -> ((a + 7 * Q) mod 7 = a)%nat) by (intros a Ha; rewrite Nat.mul_comm, Nat.mod_add by lia; apply Nat.mod_small; exact Ha).
  destruct (Nat.eq_dec K (g + 7 * Q)) as [->|Ne].
  - exists (Datatypes.S Q). rewrite Q7, Nat.eqb_refl by exact Gb. split; [|lia]. rewrite seq_S, map_app. reflexivity.
  - exists Q. destruct (Nat.eqb_spec (K mod 7) g) as [C|C]; [|rewrite app_nil_r; split; [reflexivity|lia]]. exfalso.
    pose proof (Nat.div_mod K 7 ltac:(lia)). lia.
Qed.
Let wanted := fun x => day_ok x && month_ok x && start_ok x.
Lemma some_wanted : exists x, In x (map F (seq N 49)) /\ wanted x = true.
Proof.
  assert (Gb : (g < 7)%nat) by (unfold g; pose proof (Z.mod_pos_bound (wday_into d - weekday (year m) (month m) (day m)) 7); lia).
  destruct (weekly N ltac:(lia)) as (Q & _ & L).
  assert (Dk : forall q, (q <= 40)%nat -> day_ok (F (g + 7 * (Q + q))%nat) = true).
  { intros q Hq. rewrite day_on by lia. rewrite (Nat.mul_comm 7 (Q + q)), Nat.mod_add by lia. rewrite Nat.mod_small by lia. apply Nat.eqb_refl. }
  assert (Next : forall q, (q <= 5)%nat -> month_ok (F (g + 7 * (Q + q))%nat) = true -> wanted (F (g + 7 * (Q + q))%nat) = true \/ wanted (F (g + 7 * (Q + (q + 1)))%nat) = true).
  { intros q Hq Mq. unfold wanted. rewrite !Dk by lia. rewrite Mq. cbn [andb].
    destruct (start_ok (F (g + 7 * (Q + q))%nat)) eqn:S1; [left; reflexivity|right].
    destruct (day_F (g + 7 * (Q + q)) ltac:(lia)) as [V1 I1]. destruct (day_F (g + 7 * (Q + (q + 1))) ltac:(lia)) as [V2 I2].
    destruct (week_after_first _ _ V1 V2) as [M D]; [lia|unfold start_ok in S1; lia|].
    unfold month_ok, in_ymonth, start_ok in *. rewrite M, D. exact Mq || (rewrite Mq; reflexivity). }
  assert (Base : exists q, (q <= 5)%nat /\ month_ok (F (g + 7 * (Q + q))%nat) = true).
  { destruct (month_ok (F (g + 7 * (Q + 0))%nat)) eqn:M0; [exists 0%nat; split; [lia|exact M0]|]. exists 5%nat. split; [lia|].
    destruct (day_F (g + 7 * (Q + 0)) ltac:(lia)) as [V1 I1]. destruct (day_F (g + 7 * (Q + 5)) ltac:(lia)) as [V2 I2].
    pose proof (month_apart _ _ 35 V1 V2 ltac:(lia) ltac:(lia)). unfold month_ok, in_ymonth in *. lia. }
  destruct Base as (q & Hq & Mq). destruct (Next q Hq Mq) as [W|W]; eexists; (split; [|exact W]); apply in_map, in_seq; lia.
Qed.
Lemma complex : forall f1 f2 f3, (7 <= f1)%nat -> (6 <= f2)%nat -> (2 <= f3)%nat ->
  collects (until_next md (without_next (without_next (filter_next (iter_next md) f1 (day_matches d)) f2 (month_matches mo)) f3 (filter_matches month_start)) ending) it
    (moments (filter wanted (map F (seq 0 N)))).
Proof.
  intros f1 f2 f3 H1 H2 H3. destruct some_wanted as (x & Ix & Kx).
  destruct (first_chosen _ wanted _ x Ix Kx) as (u & y & r & E & Hu & Hy).
  assert (Lu : (length u <= 48)%nat). { assert (L : length (map F (seq N 49)) = length (u ++ y :: r)) by (rewrite E; reflexivity). rewrite map_length, seq_length, app_length in L. cbn [length] in L. lia. }
  set (K := (N + (length u + 1))%nat).
  assert (D : map F (seq 0 K) = map F (seq 0 N) ++ u ++ [y]).
  { unfold K. rewrite seq_app, map_app. f_equal. cbn [Nat.add].
    rewrite (seq_prefix _ F N 49 (u ++ [y]) r) by (rewrite E, <- app_assoc; reflexivity). rewrite app_length. reflexivity. }
  assert (Uy : forall z, In z (u ++ [y]) -> dt_valid z = true /\ ~ before z ending).
  { intros z Hz. assert (I2 : In z (map F (seq N 49))).
    { rewrite E. apply in_app_or in Hz. apply in_or_app. destruct Hz as [Hz|[->|[]]]; [left; exact Hz|right; left; reflexivity]. }
    apply in_map_iff in I2. destruct I2 as (i & <- & Hi). apply in_seq in Hi. split; [apply day_F; lia|].
    apply HN; [lia|]. apply (reach md m ending 1 it B Vm Ve ltac:(lia) Ym Ye N HB HN). lia. }
  assert (Wy : day_ok y = true /\ month_ok y = true /\ start_ok y = true) by (unfold wanted in Hy; destruct (day_ok y), (month_ok y), (start_ok y); auto).
  destruct Wy as (Wd & Wm & Ws).
  set (W := filter day_ok (map F (seq 0 K))). set (W' := filter month_ok W).
  assert (EW : exists W0, W = W0 ++ [y]).
  { unfold W. rewrite D, app_assoc, filter_app. cbn [filter]. rewrite Wd. eexists. reflexivity. }
  assert (EW' : exists W0, W' = W0 ++ [y]).
  { destruct EW as (W0 & E0). unfold W'. rewrite E0, filter_app. cbn [filter]. rewrite Wm. eexists. reflexivity. }
  destruct (weekly K ltac:(unfold K; lia)) as (Q & EQ & LQ). fold W in EQ. set (G := fun q => F (g + 7 * q)%nat) in *.
  assert (GV : forall q, (q < Q)%nat -> dt_valid (G q) = true /\ inst (G q) = inst m + Z.of_nat (g + 7 * q) * 86400) by (intros q Hq; unfold G; apply day_F; unfold K in LQ; lia).
  assert (Gives1 : gives (filter_next (iter_next md) f1 (day_matches d)) it W (after (iter_next md) K it)).
  { apply filter_gives; [apply day_decides| |apply (steps_gives md m ending 1 it B Vm Ve ltac:(lia) Ym Ye N HB HN); unfold K; lia].
    apply (dense_le _ _ 7 f1 _ H1). apply dense_gap; [lia| |].
    - intros l0 z Ez. fold F in Ez. rewrite D, app_assoc in Ez. apply app_inj_tail in Ez. destruct Ez as [_ <-]. exact Wd.
    - intros l1 w l2 Ew Lw. fold F in Ew.
      assert (Kb : (length l1 + 6 < K)%nat). { rewrite <- (seq_length K 0), <- (map_length F), Ew, !app_length. lia. }
      assert (Gb : (g < 7)%nat) by (unfold g; pose proof (Z.mod_pos_bound (wday_into d - weekday (year m) (month m) (day m)) 7); lia).
      assert (J : exists j, (j < 7)%nat /\ ((length l1 + j) mod 7 = g)%nat).
      { pose proof (Nat.div_mod (length l1) 7 ltac:(lia)) as Dv. pose proof (Nat.mod_upper_bound (length l1) 7 ltac:(lia)) as Mb.
        destruct (le_lt_dec (length l1 mod 7) g) as [L|L].
        - exists (g - length l1 mod 7)%nat. split; [lia|]. replace (length l1 + (g - length l1 mod 7))%nat with (g + (length l1 / 7) * 7)%nat by lia.
          rewrite Nat.mod_add by lia. apply Nat.mod_small. exact Gb.
        - exists (g + 7 - length l1 mod 7)%nat. split; [lia|]. replace (length l1 + (g + 7 - length l1 mod 7))%nat with (g + (length l1 / 7 + 1) * 7)%nat by lia.
          rewrite Nat.mod_add by lia. apply Nat.mod_small. exact Gb. }
      destruct J as (j & Hj & Mj). exists (F (length l1 + j)%nat).
      split; [apply (nth_error_In w j), (seq_part _ F K l1 w l2); [exact Ew|lia]|].
      change (on_day d) with day_ok. rewrite day_on by (unfold K in Kb; lia). rewrite Mj. apply Nat.eqb_refl. }
  assert (Gives2 : gives (without_next (filter_next (iter_next md) f1 (day_matches d)) f2 (month_matches mo)) it W' (after (iter_next md) K it)).
  { apply without_gives; [apply month_decides| |exact Gives1].
    apply (dense_le _ _ 6 f2 _ H2). apply dense_gap; [lia| |].
    - intros l0 z Ez. destruct EW as (W0 & E0). rewrite E0 in Ez. apply app_inj_tail in Ez. destruct Ez as [_ <-]. exact Wm.
    - intros l1 w l2 Ew Lw. rewrite EQ in Ew.
      assert (Qb : (length l1 + 5 < Q)%nat). { rewrite <- (seq_length Q 0), <- (map_length G), Ew, !app_length. lia. }
      pose proof (seq_part _ G Q l1 w l2 0 Ew ltac:(lia)) as P0. pose proof (seq_part _ G Q l1 w l2 5 Ew ltac:(lia)) as P1.
      destruct (GV (length l1 + 0)%nat ltac:(lia)) as [V0 I0]. destruct (GV (length l1 + 5)%nat ltac:(lia)) as [V1 I1].
      pose proof (month_apart _ _ 35 V0 V1 ltac:(lia) ltac:(lia)) as M.
      destruct (in_ymonth mo (G (length l1 + 0)%nat)) eqn:A.
      + exists (G (length l1 + 5)%nat). split; [eapply nth_error_In; exact P1|]. unfold in_ymonth in *. lia.
      + exists (G (length l1 + 0)%nat). split; [eapply nth_error_In; exact P0|]. rewrite A. reflexivity. }
  assert (Gives3 : gives (without_next (without_next (filter_next (iter_next md) f1 (day_matches d)) f2 (month_matches mo)) f3 (filter_matches month_start)) it
    (filter start_ok W') (after (iter_next md) K it)).
  { apply (without_gives _ _ (filter_matches month_start) (fun x => day x =? 1)); [reflexivity| |exact Gives2].
    apply (dense_le _ _ 2 f3 _ H3). apply dense_gap; [lia| |].
    - intros l0 z Ez. destruct EW' as (W0 & E0). rewrite E0 in Ez. apply app_inj_tail in Ez. destruct Ez as [_ <-]. exact Ws.
    - intros l1 w l2 Ew Lw. destruct w as [|a [|b [|? ?]]]; try discriminate Lw.
      destruct (day a =? 1) eqn:Da; [|exists a; split; [left; reflexivity|rewrite Da; reflexivity]].
      destruct (day b =? 1) eqn:Db; [|exists b; split; [right; left; reflexivity|rewrite Db; reflexivity]]. exfalso.
      unfold W' in Ew. destruct (filter_split _ _ _ _ _ Ew) as (p & q & E1 & _ & E2). cbn [app] in E2.
      destruct (filter_cons_split _ _ _ _ _ E2) as (q1 & q2 & -> & _ & Ma & E3).
      destruct (filter_cons_split _ _ _ _ _ E3) as (q3 & q4 & -> & N3 & Mb & _).
      rewrite EQ in E1.
      assert (P : exists t tl, q3 ++ b :: q4 = t :: tl /\ (t = b \/ In t q3)).
      { destruct q3 as [|t q3]; [exists b, q4; auto|exists t, (q3 ++ b :: q4); split; [reflexivity|right; left; reflexivity]]. }
      destruct P as (t & tl & Et & Ht). rewrite Et in E1.
      assert (Eq2 : map G (seq 0 Q) = (p ++ q1) ++ [a; t] ++ tl) by (rewrite E1, <- app_assoc; reflexivity).
      assert (Qb : (length (p ++ q1) + 1 < Q)%nat). { rewrite <- (seq_length Q 0), <- (map_length G), Eq2, !app_length. cbn [length]. lia. }
      pose proof (seq_part _ G Q (p ++ q1) [a; t] tl 0 Eq2 ltac:(cbn; lia)) as P0. pose proof (seq_part _ G Q (p ++ q1) [a; t] tl 1 Eq2 ltac:(cbn; lia)) as P1.
      cbn [nth_error] in P0, P1. injection P0 as ->. injection P1 as ->.
      destruct (GV (length (p ++ q1) + 0)%nat ltac:(lia)) as [V0 I0]. destruct (GV (length (p ++ q1) + 1)%nat ltac:(lia)) as [V1 I1].
      destruct (week_after_first _ _ V0 V1 ltac:(lia) ltac:(lia)) as [Mt Dt].
      destruct Ht as [<-|Ht]; [lia|].
      assert (X : In (G (length (p ++ q1) + 1)%nat) (filter month_ok q3)).
      { apply filter_In. split; [exact Ht|]. unfold month_ok, in_ymonth in *. rewrite Mt. exact Ma. }
      rewrite N3 in X. destruct X. }
  assert (FF : filter start_ok W' = filter wanted (map F (seq 0 N)) ++ [y]).
  { unfold W', W. rewrite filter_filter, filter_filter. rewrite (filter_ext _ wanted) by (intro z; unfold wanted; destruct (day_ok z), (month_ok z), (start_ok z); reflexivity).
    rewrite D, !filter_app, (filter_none _ wanted u Hu). cbn [filter app]. rewrite Hy. reflexivity. }
  rewrite FF in Gives3.
  apply (until_gives md _ _ ending _ y it (after (iter_next md) K it) Ve).
  - intros z Hz. apply filter_In in Hz. destruct Hz as [Hz _]. apply in_map_iff in Hz. destruct Hz as (i & <- & Hi). apply in_seq in Hi.
    split; [apply day_F; lia|]. apply HB. lia.
  - apply Uy, in_or_app. right. left. reflexivity.
  - apply Uy, in_or_app. right. left. reflexivity.
  - exact Gives3.
Qed.
End Complex.

(** ** How many steps *)
Lemma steps_count : forall md m ending n it, build m (Days n) = Ok it -> dt_valid m = true -> dt_valid ending = true -> 1 <= n <= 30 ->
  exists N, (before m ending -> Z.of_nat N = steps_before m ending (n * 86400)) /\ (~ before m ending -> N = 0%nat) /\
    (forall k, (k < N)%nat -> inst m + Z.of_nat k * (n * 86400) < instant (max_year + 1) 1 1 0 0 0 -> before (F md m it k) ending) /\
    (forall k, (N <= k)%nat -> inst m + Z.of_nat k * (n * 86400) < instant (max_year + 1) 1 1 0 0 0 -> ~ before (F md m it k) ending).
Proof.
  intros md m ending n it B Vm Ve Hn.
  pose proof (nano_range m Vm) as Nm. pose proof (nano_range ending Ve) as Ne.
  assert (Fk : forall k, inst m + Z.of_nat k * (n * 86400) < instant (max_year + 1) 1 1 0 0 0 ->
    inst (F md m it k) = inst m + Z.of_nat k * (n * 86400) /\ nano (F md m it k) = match k with O => nano m | _ => 0 end).
  { intros k H. destruct (F_ok md m ending n it B Vm Hn k H) as (_ & _ & I & Na). auto. }
  destruct (dt_ltb m ending) eqn:L.
  - assert (Bm : before m ending) by (apply before_ltb; assumption).
    set (st := n * 86400) in *. assert (S0 : 0 < st) by (subst st; lia).
    set (b := if 0 <? nano ending then 1 else 0).
    assert (Pos : 0 < inst ending - inst m + b) by (unfold before in Bm; subst b; destruct (0 <? nano ending) eqn:Z0; lia).
    set (Z := steps_before m ending st).
    assert (Hz : inst ending - inst m + b <= Z * st /\ (Z - 1) * st < inst ending - inst m + b /\ 1 <= Z).
    { unfold Z, steps_before. fold b. set (D := inst ending - inst m + b - 1) in *.
      pose proof (Z.div_mod D st ltac:(lia)). pose proof (Z.mod_pos_bound D st S0). assert (0 <= D / st) by (apply Z.div_pos; lia). nia. }
    exists (Z.to_nat Z). split; [intros _; lia|]. split; [intro C; elim C; exact Bm|]. split; intros k Hk HR; destruct (Fk k HR) as [I Na].
    + destruct k as [|k]; [unfold before in *; rewrite I, Na; lia|].
      unfold before. rewrite I, Na. assert (Z.of_nat (S k) * st <= (Z - 1) * st) by nia. subst b. destruct (0 <? nano ending) eqn:Z0; lia.
    + unfold before. rewrite I, Na. assert (Z * st <= Z.of_nat k * st) by nia. subst b. destruct k; [lia|]. destruct (0 <? nano ending) eqn:Z0; lia.
  - assert (Bm : ~ before m ending) by (intro C; apply before_ltb in C; [congruence|assumption|assumption]).
    exists 0%nat. split; [intro C; elim Bm; exact C|]. split; [reflexivity|]. split; [intros; lia|].
    intros k _ HR. destruct (Fk k HR) as [I Na]. unfold before in *. rewrite I, Na. destruct k; [lia|]. nia.
Qed.
(** No step before the end leaves the range. *)
Lemma steps_in_range : forall md m ending n it N, build m (Days n) = Ok it -> dt_valid m = true -> dt_valid ending = true -> 1 <= n <= 30 -> year m < max_year -> year ending < max_year ->
  (forall k, (k < N)%nat -> inst m + Z.of_nat k * (n * 86400) < instant (max_year + 1) 1 1 0 0 0 -> before (F md m it k) ending) ->
  forall k, (k < N)%nat -> before (F md m it k) ending.
Proof.
  intros md m ending n it N B Vm Ve Hn Ym Ye H. pose proof (early m Vm Ym) as Em. pose proof (early ending Ve Ye) as Ee.
  induction k as [|k IH]; intro Hk; [apply H; [exact Hk|lia]|]. apply H; [exact Hk|].
  specialize (IH ltac:(lia)). apply before_inst in IH.
  destruct (Z.lt_ge_cases (inst m + Z.of_nat k * (n * 86400)) (instant (max_year + 1) 1 1 0 0 0)) as [R|R].
  - destruct (F_ok md m ending n it B Vm Hn k R) as (_ & _ & I & _). nia.
  - exfalso. (* the step before would have left it already *)
    assert (P : forall j, (j <= k)%nat -> inst m + Z.of_nat j * (n * 86400) < instant (max_year + 1) 1 1 0 0 0).
    { induction j as [|j IHj]; intro Hj; [lia|]. pose proof (IHj ltac:(lia)) as Rj. pose proof (H j ltac:(lia) Rj) as Bj. apply before_inst in Bj.
      destruct (F_ok md m ending n it B Vm Hn j Rj) as (_ & _ & I & _). nia. }
    specialize (P k (Nat.le_refl _)). lia.
Qed.
Lemma plan_without : forall md m n it mo ending fuel, build m (Days n) = Ok it -> dt_valid m = true -> dt_valid ending = true -> 1 <= n <= 30 ->
  31 <= (Z.of_nat fuel - 1) * n -> year m < max_year -> year ending < max_year ->
  exists ds, days_apart m n ds /\ (before m ending -> Z.of_nat (length ds) = steps_before m ending (n * 86400)) /\ (~ before m ending -> ds = []) /\
    collects (until_next md (without_next (iter_next md) fuel (month_matches mo)) ending) it (moments (filter (fun x => negb (in_ymonth mo x)) ds)).
Proof.
  intros md m n it mo ending fuel B Vm Ve Hn Hf Ym Ye. destruct (steps_count md m ending n it B Vm Ve Hn) as (N & N1 & N2 & HB & HN).
  pose proof (steps_in_range md m ending n it N B Vm Ve Hn Ym Ye HB) as HB'.
  exists (map (F md m it) (seq 0 N)). split; [exact (steps_apart md m ending n it B Vm Ve Hn Ym Ye N HB' HN)|].
  split; [rewrite map_length, seq_length; exact N1|]. split; [intro C; rewrite (N2 C); reflexivity|].
  exact (without_month md m ending n it B Vm Ve Hn Ym Ye N HB' HN mo fuel Hf).
Qed.
Lemma plan_complex : forall md m it d mo ending f1 f2 f3, build m (Days 1) = Ok it -> dt_valid m = true -> dt_valid ending = true ->
  (7 <= f1)%nat -> (6 <= f2)%nat -> (2 <= f3)%nat -> year m < max_year -> year ending < max_year ->
  exists ds, days_apart m 1 ds /\ (before m ending -> Z.of_nat (length ds) = steps_before m ending 86400) /\ (~ before m ending -> ds = []) /\
    collects (until_next md (without_next (without_next (filter_next (iter_next md) f1 (day_matches d)) f2 (month_matches mo)) f3 (filter_matches month_start)) ending) it
      (moments (filter (fun x => on_day d x && negb (in_ymonth mo x) && negb (day x =? 1)) ds)).
Proof.
  intros md m it d mo ending f1 f2 f3 B Vm Ve H1 H2 H3 Ym Ye. destruct (steps_count md m ending 1 it B Vm Ve ltac:(lia)) as (N & N1 & N2 & HB & HN).
  pose proof (steps_in_range md m ending 1 it N B Vm Ve ltac:(lia) Ym Ye HB) as HB'.
  exists (map (F md m it) (seq 0 N)). split; [exact (steps_apart md m ending 1 it B Vm Ve ltac:(lia) Ym Ye N HB' HN)|].
  split; [rewrite map_length, seq_length; exact N1|]. split; [intro C; rewrite (N2 C); reflexivity|].
  exact (complex md m ending it B Vm Ve Ym Ye N HB' HN d mo f1 f2 f3 H1 H2 H3).
Qed.
Lemma plan_times : forall md m n it c, build m (Days n) = Ok it -> dt_valid m = true -> 1 <= n <= 30 -> Z.of_nat c <= i64_max ->
  inst m + (Z.of_nat c - 1) * (n * 86400) < instant (max_year + 1) 1 1 0 0 0 ->
  exists ds, days_apart m n ds /\ length ds = c /\ collects (times_next md (iter_next md)) (times_new it (Z.of_nat c)) (moments ds).
Proof.
  intros md m n it c B Vm Hn Hc HR.
  assert (Fk : forall k, (k < c)%nat -> inst m + Z.of_nat k * (n * 86400) < instant (max_year + 1) 1 1 0 0 0) by (intros k Hk; nia).
  assert (I64 : in_i64 (Z.of_nat c) = true) by (unfold in_i64, i64_min; unfold i64_max in *; lia).
  exists (map (F md m it) (seq 0 c)). split; [|split; [rewrite map_length, seq_length; reflexivity|]].
  - intros k x H. assert (L : (k < c)%nat) by (rewrite <- (seq_length c 0), <- (map_length (F md m it)); apply nth_error_Some; rewrite H; discriminate).
    rewrite nth_error_map, (nth_error_nth' _ 0%nat), seq_nth in H by (rewrite ?seq_length; lia). injection H as <-.
    destruct (F_ok md m m n it B Vm Hn k (Fk k L)) as (_ & V & I & Na). auto.
  - unfold collects, moments. rewrite !map_length, seq_length. split.
    + rewrite !map_map. apply items_seq. intros k Hk. rewrite times_pass by (assumption || lia). apply (F_ok md m m n it B Vm Hn k (Fk k Hk)).
    + destruct (times_done md (iter_next md) (Z.of_nat c) it c I64 ltac:(lia) ltac:(lia)) as [X _]. exact X.
Qed.
