(** Weekdays of monthly and yearly iterations. *)
Require Import ZArith Znumtheory Bool List Lia ZifyBool.
From Verif Require Import Prelude Spec PreludeProofs CalendarProofs Chrono TimeType Matcher Iter SpecTree SpecMoment SpecIter SpecAdapt SpecSeq SpecExact SpecHang SpecFree
  EvalProofs ShapeProofs CompProofs AmountProofs AddProofs AddProofs2 OrdProofs IterProofs IterProofs2 AdapterProofs AdapterProofs2 AdapterProofs3 SeqProofs VisitProofs HangProofs ComposeProofs SoonerProofs ForeverProofs OftenProofs TallyProofs FreeProofs.
Import ListNotations.
Local Open Scope Z_scope.
Local Ltac Zify.zify_post_hook ::= Z.to_euclidean_division_equations.

(** ** The first of the month with number [i], counted from January of year 0 *)
Definition first_of (i : Z) : Z := weekday (i / 12) (i mod 12 + 1) 1.
Lemma first_range : forall i, 0 <= first_of i < 7.
Proof. intro i. unfold first_of, weekday. apply Z.mod_pos_bound. lia. Qed.
Lemma weekday_of_first : forall y m d, weekday y m d = (weekday y m 1 + d - 1) mod 7.
Proof. intros. unfold weekday, day_number. set (q := days_before_year y + days_before y m). clearbody q. lia. Qed.

Definition long (l : bool) : Z := if l then 366 else 365.
Definition ahead (l l' : bool) (q : Z) : Z :=
  if q <? 12 then dbn l (Z.to_nat q) else if q <? 24 then long l + dbn l' (Z.to_nat (q - 12)) else long l + long l'.
Lemma first_ahead : forall y q, 0 <= q <= 24 -> day_number (y + q / 12) (q mod 12 + 1) 1 = day_number y 1 1 + ahead (leap y) (leap (y + 1)) q.
Proof.
  intros y q Hq. unfold ahead, day_number, days_before. rewrite !dbn_days. change (dbn (leap y) (Z.to_nat (1 - 1))) with 0.
  assert (S1 : days_before_year (y + 1) = days_before_year y + long (leap y)) by (rewrite leap_year_step; reflexivity).
  assert (S2 : days_before_year (y + 2) = days_before_year (y + 1) + long (leap (y + 1))) by (replace (y + 2) with (y + 1 + 1) by ring; rewrite leap_year_step; reflexivity).
  destruct (Z.ltb_spec q 12) as [A|A]; [|destruct (Z.ltb_spec q 24) as [C|C]].
  - rewrite (Z.div_small q 12), (Z.mod_small q 12) by lia. rewrite Z.add_0_r. replace (q + 1 - 1) with q by ring. ring.
  - assert (D : q / 12 = 1) by (clear - A C; lia). assert (M : q mod 12 = q - 12) by (clear - A C; lia). rewrite D, M. replace (q - 12 + 1 - 1) with (q - 12) by ring. rewrite S1. ring.
  - assert (q = 24) by lia. subst q. change (24 / 12) with 2. change (24 mod 12 + 1 - 1) with 0. rewrite S2, S1. change (dbn (leap (y + 2)) (Z.to_nat 0)) with 0. ring.
Qed.
Definition month_window (l l' : bool) : bool :=
  all (fun mo => all (fun w => some (fun k => (ahead l l' (mo + k) - ahead l l' mo) mod 7 =? w) (upto 0 14)) (upto 0 7)) (upto 0 12).
Lemma month_windows : forall l l', month_window l l' = true.
Proof. intros [|] [|]; vm_compute; reflexivity. Qed.
Lemma window_months : forall i w, 0 <= w < 7 -> exists k, 0 <= k < 14 /\ first_of (i + k) = w.
Proof.
  intros i w Hw. set (y := i / 12). set (mo := i mod 12). assert (Hm : 0 <= mo < 12) by (unfold mo; apply Z.mod_pos_bound; lia).
  pose proof (month_windows (leap y) (leap (y + 1))) as T. unfold month_window in T.
  apply (proj1 (all_forall _ _)) with (x := mo) in T; [|apply in_upto; lia].
  apply (proj1 (all_forall _ _)) with (x := (w - first_of i) mod 7) in T; [|apply in_upto, Z.mod_pos_bound; lia].
  apply some_exists in T. destruct T as (k & Ik & T). apply in_upto in Ik. apply Z.eqb_eq in T. exists k. split; [exact Ik|].
  pose proof (first_ahead y mo ltac:(lia)) as A0. pose proof (first_ahead y (mo + k) ltac:(lia)) as A1.
  rewrite (Z.div_small mo 12), (Z.mod_small mo 12), Z.add_0_r in A0 by lia.
  assert (D : (i + k) / 12 = y + (mo + k) / 12) by (unfold y, mo; clear; lia). assert (M : (i + k) mod 12 = (mo + k) mod 12) by (unfold mo; clear; lia).
  unfold first_of, weekday in *. fold y mo in T. rewrite D, M, A1. rewrite A0 in T.
  set (a := ahead _ _ (mo + k)) in *. set (b := ahead _ _ mo) in *. set (c := day_number y 1 1) in *. clearbody a b c. clear - T Hw. lia.
Qed.

(** ** Years *)
Lemma year_step : forall y mo d, exists s c, (s = 0 \/ s = 1) /\ forall k, 1 <= mo <= 12 -> day_number (y + k) mo d = days_before_year (y + k + s) + c.
Proof.
  intros y mo d. exists (if 2 <? mo then 1 else 0), (days_before 1 mo + d - (if 2 <? mo then 365 else 0)). split; [destruct (2 <? mo); auto|].
  intros k Hm. unfold day_number, days_before. rewrite !dbn_days. change (leap 1) with false.
  assert (E : dbn (leap (y + k)) (Z.to_nat (mo - 1)) = dbn false (Z.to_nat (mo - 1)) + (if 2 <? mo then long (leap (y + k)) - 365 else 0)).
  { assert (G : mo = 1 \/ mo = 2 \/ mo = 3 \/ mo = 4 \/ mo = 5 \/ mo = 6 \/ mo = 7 \/ mo = 8 \/ mo = 9 \/ mo = 10 \/ mo = 11 \/ mo = 12) by lia.
    repeat (destruct G as [G|G]; [subst mo; destruct (leap (y + k)); reflexivity|]). subst mo; destruct (leap (y + k)); reflexivity. }
  rewrite E. destruct (2 <? mo).
  - rewrite leap_year_step. unfold year_length, long. destruct (leap (y + k)); ring.
  - rewrite !Z.add_0_r. ring.
Qed.
Definition year_window : bool := all (fun y => all (fun w => some (fun k => (days_before_year (y + k) - days_before_year y) mod 7 =? w) (upto 0 12)) (upto 0 7)) (upto 0 400).
Lemma year_windows : year_window = true.
Proof. vm_compute. reflexivity. Qed.
Lemma by_period : forall y k, days_before_year (y + 400 * k) = days_before_year y + 146097 * k.
Proof. intros. unfold days_before_year. lia. Qed.
Lemma window_years : forall y mo d w, 1 <= mo <= 12 -> 0 <= w < 7 -> exists k, 0 <= k < 12 /\ weekday (y + k) mo d = w.
Proof.
  intros y mo d w Hm Hw. destruct (year_step y mo d) as (s & c & _ & E). pose proof year_windows as T. unfold year_window in T.
  apply (proj1 (all_forall _ _)) with (x := (y + s) mod 400) in T; [|apply in_upto, Z.mod_pos_bound; lia].
  apply (proj1 (all_forall _ _)) with (x := (w - weekday y mo d) mod 7) in T; [|apply in_upto, Z.mod_pos_bound; lia].
  apply some_exists in T. destruct T as (k & Ik & T). apply in_upto in Ik. apply Z.eqb_eq in T. exists k. split; [exact Ik|].
  pose proof (E k Hm) as E1. pose proof (E 0 Hm) as E0. rewrite Z.add_0_r in E0. unfold weekday in *. rewrite E1. rewrite E0 in T.
  pose proof (by_period ((y + s) mod 400) ((y + s) / 400)) as P0. pose proof (by_period ((y + s) mod 400 + k) ((y + s) / 400)) as P1.
  replace ((y + s) mod 400 + 400 * ((y + s) / 400)) with (y + s) in P0 by (clear; lia).
  replace ((y + s) mod 400 + k + 400 * ((y + s) / 400)) with (y + k + s) in P1 by (clear; lia).
  rewrite P1. rewrite P0 in T. set (a := days_before_year _) in *. set (b := days_before_year ((y + s) mod 400)) in *. set (q := (y + s) / 400) in *. clearbody a b q. clear - T Hw. lia.
Qed.

(** ** Counting *)
Fixpoint run (a : Z) (n : nat) : list Z := match n with O => [] | S n' => a :: run (a + 1) n' end.
Definition many (p : Z -> bool) (a : Z) (n : nat) : nat := length (filter p (run a n)).
Lemma many_S : forall p a n, many p a (S n) = ((if p a then 1 else 0) + many p (a + 1) n)%nat.
Proof. intros. unfold many. cbn [run filter]. destruct (p a); reflexivity. Qed.
Lemma many_end : forall p n a, many p a (S n) = (many p a n + (if p (a + Z.of_nat n)%Z then 1 else 0))%nat.
Proof.
  intros p. induction n as [|n IH]; intro a; rewrite many_S.
  - unfold many. cbn [run filter length]. rewrite Z.add_0_r. lia.
  - rewrite IH, (many_S p a n). replace (a + 1 + Z.of_nat n) with (a + Z.of_nat (S n)) by lia. lia.
Qed.
Lemma many_same : forall p q n a, (forall i, a <= i < a + Z.of_nat n -> p i = q i) -> many p a n = many q a n.
Proof. intros p q. induction n as [|n IH]; intros a H; [reflexivity|]. rewrite !many_S, (H a) by lia. f_equal. apply IH. intros i Hi. apply H. lia. Qed.
Lemma many_shift : forall p k n a, many (fun i => p (i + k)) a n = many p (a + k) n.
Proof. intros p k. induction n as [|n IH]; intro a; [reflexivity|]. rewrite !many_S, IH. replace (a + 1 + k) with (a + k + 1) by ring. reflexivity. Qed.
Section Round.
Variable p : Z -> bool.
Variable n : nat.
Hypothesis P : forall i, p (i + Z.of_nat n) = p i.
Lemma many_next : forall a, many p (a + 1) n = many p a n.
Proof. intro a. pose proof (many_S p a n) as A. rewrite many_end, P in A. lia. Qed.
Lemma many_up : forall k a, many p (a + Z.of_nat k) n = many p a n.
Proof. induction k as [|k IH]; intro a; [rewrite Z.add_0_r; reflexivity|]. replace (a + Z.of_nat (S k)) with (a + Z.of_nat k + 1) by lia. rewrite many_next. apply IH. Qed.
Lemma many_round : forall a, many p a n = many p 0 n.
Proof.
  intro a. destruct (Z_le_gt_dec 0 a) as [H|H].
  - rewrite <- (many_up (Z.to_nat a) 0). f_equal. lia.
  - rewrite <- (many_up (Z.to_nat (- a)) a). f_equal. lia.
Qed.
End Round.
Lemma leap_round : forall y, leap (y + 400) = leap y.
Proof. intro y. unfold leap. repeat match goal with |- context[(y + 400) mod ?c] => replace ((y + 400) mod c) with (y mod c) by (clear; lia) end. reflexivity. Qed.
Lemma first_round : forall i, first_of (i + 4800) = first_of i.
Proof.
  intro i. unfold first_of. assert (D : (i + 4800) / 12 = i / 12 + 400) by (clear; lia). assert (M : (i + 4800) mod 12 = i mod 12) by (clear; lia). rewrite D, M.
  unfold weekday, day_number, days_before. rewrite !dbn_days, leap_round. pose proof (by_period (i / 12) 1) as E. change (400 * 1) with 400 in E. rewrite E.
  set (a := days_before_year _). set (b := dbn _ _). clearbody a b. clear. lia.
Qed.
Definition in_400_years : list nat := [684; 687; 685; 685; 687; 684; 688]%nat.
Lemma counted : (let l := map first_of (run 0 4800) in map (fun w => length (filter (fun x => x =? w) l)) (run 0 7)) = in_400_years.
Proof. vm_compute. reflexivity. Qed.
Lemma filter_map_length : forall A B (f : A -> B) (q : B -> bool) l, length (filter q (map f l)) = length (filter (fun x => q (f x)) l).
Proof. intros A B f q. induction l as [|x l IH]; [reflexivity|]. cbn [map filter]. destruct (q (f x)); cbn [length]; rewrite IH; reflexivity. Qed.
Lemma nth_run : forall A (f : Z -> A) d n k a, (k < n)%nat -> nth k (map f (run a n)) d = f (a + Z.of_nat k).
Proof.
  intros A f d. induction n as [|n IH]; intros k a H; [lia|]. cbn [run map]. destruct k as [|k]; [cbn [nth]; f_equal; lia|]. cbn [nth]. rewrite IH by lia. f_equal. lia.
Qed.
Lemma counted_from : forall a w, 0 <= w < 7 -> many (fun i => first_of i =? w) a 4800 = nth (Z.to_nat w) in_400_years 0%nat.
Proof.
  intros a w Hw. rewrite (many_round (fun i => first_of i =? w) 4800) by (intro i; change (Z.of_nat 4800) with 4800; rewrite first_round; reflexivity).
  rewrite <- counted. cbv zeta. rewrite (nth_run _ _ 0%nat 7 (Z.to_nat w) 0) by lia. rewrite Z.add_0_l, Z2Nat.id by lia. rewrite filter_map_length. reflexivity.
Qed.
(** In a year. *)
Definition in_a_year (l : bool) : bool := all (fun w => let c := many (fun q => (dbn l (Z.to_nat q)) mod 7 =? w) 0 12 in Nat.leb 1 c && Nat.leb c 3) (upto 0 7).
Lemma in_years : forall l, in_a_year l = true.
Proof. intros [|]; vm_compute; reflexivity. Qed.
Lemma counted_year : forall y w, 0 <= w < 7 -> (1 <= many (fun i => first_of i =? w)%Z (12 * y) 12 <= 3)%nat.
Proof.
  intros y w Hw. pose proof (in_years (leap y)) as T. unfold in_a_year in T.
  apply (proj1 (all_forall _ _)) with (x := (w - weekday y 1 1) mod 7) in T; [|apply in_upto, Z.mod_pos_bound; lia]. cbv zeta in T. apply andb_true_iff in T. destruct T as [T1 T2].
  apply Nat.leb_le in T1, T2.
  assert (E : many (fun i => first_of i =? w) (12 * y) 12 = many (fun q => (dbn (leap y) (Z.to_nat q)) mod 7 =? (w - weekday y 1 1) mod 7) 0 12); [|rewrite E; lia].
  replace (12 * y) with (0 + 12 * y) by ring. rewrite <- many_shift. apply many_same. intros q Hq. change (0 + Z.of_nat 12) with 12 in Hq.
  unfold first_of. assert (D : (q + 12 * y) / 12 = y) by (clear - Hq; lia). assert (M : (q + 12 * y) mod 12 = q) by (clear - Hq; lia). rewrite D, M.
  unfold weekday, day_number, days_before. rewrite !dbn_days. replace (q + 1 - 1) with q by ring. change (dbn (leap y) (Z.to_nat (1 - 1))) with 0.
  set (a := days_before_year y). set (b := dbn _ _). clearbody a b. clear - Hw.
  destruct (Z.eqb_spec ((a + b + 1 - 1) mod 7) w) as [Q|Q]; symmetry; [apply Z.eqb_eq|apply Z.eqb_neq]; lia.
Qed.

(** ** Filters that match in every stretch of [K] items *)
Lemma least : forall (h : nat -> bool) k, h k = true -> exists g, (g <= k)%nat /\ h g = true /\ forall i, (i < g)%nat -> h i = false.
Proof.
  intros h. induction k as [k IH] using (well_founded_induction lt_wf). intro H. destruct (existsb h (seq 0 k)) eqn:E.
  - apply existsb_exists in E. destruct E as (i & I & T). apply in_seq in I. destruct (IH i ltac:(lia) T) as (g & G & R). exists g. split; [lia|exact R].
  - exists k. split; [lia|]. split; [exact H|]. intros i Hi. destruct (h i) eqn:T; [|reflexivity]. exfalso. rewrite <- not_true_iff_false in E. apply E. apply existsb_exists. exists i. split; [apply in_seq; lia|exact T].
Qed.
Section Stretches.
Context {S : Type}.
Variable nx : next_fn S.
Variable m : matcher.
Variable s : S.
Variables lim K fuel : nat.
Variable hit : nat -> bool.
Hypothesis HK : (K <= fuel)%nat.
Hypothesis Hi : forall i, (i < lim)%nat -> exists t, nth_item nx i s = Some (Ok t) /\ m t = Ok (hit i).
Hypothesis Hw : forall p, exists k, (k < K)%nat /\ hit (p + k)%nat = true.
Lemma one_match : forall p, (p + K <= lim)%nat -> exists h, (p <= h < p + K)%nat /\ hit h = true /\ filter_next nx fuel m (after nx p s) = (nth_item nx h s, after nx (Datatypes.S h) s).
Proof.
  intros p Hp. destruct (Hw p) as (k & Hk & T). destruct (least (fun i => hit (p + i)%nat) k T) as (g & G & Tg & L). exists (p + g)%nat. split; [lia|]. split; [exact Tg|].
  change (filter_next nx fuel m) with (drop_next nx m false fuel). rewrite (drop_first nx m false g fuel (after nx p s)); [|lia| |].
  - rewrite <- nth_item_add, <- after_add. destruct (Hi (p + g) ltac:(lia)) as (t & E & M). rewrite E. cbn [seen]. rewrite M. f_equal. f_equal. lia.
  - intros i I. rewrite <- nth_item_add. destruct (Hi (p + i) ltac:(lia)) as (t & E & M). rewrite E. cbn [decided]. rewrite M, (L i I). reflexivity.
  - rewrite <- nth_item_add. destruct (Hi (p + g) ltac:(lia)) as (t & E & M). rewrite E. cbn [decided]. rewrite M, Tg. reflexivity.
Qed.
Lemma matches_at : forall j, (K * Datatypes.S j <= lim)%nat -> exists h, (j <= h < K * Datatypes.S j)%nat /\ hit h = true /\
  nth_item (filter_next nx fuel m) j s = nth_item nx h s /\ after (filter_next nx fuel m) (Datatypes.S j) s = after nx (Datatypes.S h) s.
Proof.
  induction j as [|j IH]; intro L.
  - destruct (one_match 0 ltac:(lia)) as (h & Hh & T & E). exists h. split; [lia|]. split; [exact T|]. unfold nth_item at 1. cbn [after] in *. rewrite E. split; reflexivity.
  - destruct IH as (h & Hh & _ & _ & A); [nia|]. destruct (one_match (Datatypes.S h) ltac:(nia)) as (h' & Hh' & T & E). exists h'. split; [nia|]. split; [exact T|].
    rewrite (after_S (filter_next nx fuel m) (Datatypes.S j)). unfold nth_item at 1. rewrite A, E. split; reflexivity.
Qed.
Lemma matches_next : forall j, (K * Datatypes.S (Datatypes.S j) <= lim)%nat -> exists h h', (j <= h < K * Datatypes.S j)%nat /\ (h < h' <= h + K)%nat /\ hit h = true /\ hit h' = true /\
  nth_item (filter_next nx fuel m) j s = nth_item nx h s /\ nth_item (filter_next nx fuel m) (Datatypes.S j) s = nth_item nx h' s.
Proof.
  intros j L. destruct (matches_at j ltac:(nia)) as (h & Hh & T & E & A). destruct (one_match (Datatypes.S h) ltac:(nia)) as (h' & Hh' & T' & E'). exists h, h'.
  split; [exact Hh|]. split; [lia|]. split; [exact T|]. split; [exact T'|]. split; [exact E|]. unfold nth_item at 1. rewrite A, E'. reflexivity.
Qed.
End Stretches.

Section Iterations.
Variable md : mode.
Lemma month_hit : forall d x, dt_valid x = true -> on_day d x = ((first_of (month_index x) + day x - 1) mod 7 =? wday_into d).
Proof.
  intros d x V. destruct (valid_facts x V) as (_ & Vm & _). unfold on_day. rewrite weekday_of_first. unfold first_of, month_index.
  assert (D : (12 * year x + month x - 1) / 12 = year x) by (clear - Vm; lia). assert (M : (12 * year x + month x - 1) mod 12 + 1 = month x) by (clear - Vm; lia). rewrite D, M. reflexivity.
Qed.
Lemma wday_bound : forall d, 0 <= wday_into d < 7.
Proof. intros []; cbn; lia. Qed.
Definition back (d : wday) (k : Z) : Z := (wday_into d - k + 1) mod 7.
Lemma month_hit_first : forall d x, dt_valid x = true -> on_day d x = (first_of (month_index x) =? back d (day x)).
Proof.
  intros d x V. rewrite month_hit by exact V. unfold back. pose proof (first_range (month_index x)) as F. pose proof (wday_bound d) as W.
  set (a := first_of _) in *. set (w := wday_into d) in *. set (b := day x). clearbody a w b. clear - F W.
  destruct (Z.eqb_spec a ((w - b + 1) mod 7)) as [Q|Q]; [apply Z.eqb_eq|apply Z.eqb_neq]; lia.
Qed.
Lemma monthly_items : forall m it, build m (Months 1) = Ok it -> dt_valid m = true -> day m <= 28 ->
  exists f : nat -> datetime, forall k, month_index m + Z.of_nat k <= 12 * max_year + 11 ->
    nth_item (iter_next md) k it = Some (Ok (Moment (f k))) /\ dt_valid (f k) = true /\ month_index (f k) = month_index m + Z.of_nat k /\ day (f k) = day m.
Proof.
  intros m it B Hm Hd. exists (fun k => match nth_item (iter_next md) k it with Some (Ok (Moment x)) => x | _ => m end). intros k Hk.
  destruct (month_items md m 1 it k B Hm Hd ltac:(lia) ltac:(lia)) as (x & E & V & I & D & _). rewrite E. rewrite Z.mul_1_r in I. auto.
Qed.
Lemma friday_months : forall m it d fuel j, build m (Months 1) = Ok it -> dt_valid m = true -> day m <= 28 -> (14 <= fuel)%nat ->
  month_index m + 14 * (Z.of_nat j + 1) <= 12 * (max_year + 1) ->
  exists x, nth_item (filter_next (iter_next md) fuel (day_matches d)) j it = Some (Ok (Moment x)) /\ dt_valid x = true /\ on_day d x = true /\ day x = day m /\
    month_index m + Z.of_nat j <= month_index x < month_index m + 14 * (Z.of_nat j + 1) /\
    (month_index m + 14 * (Z.of_nat j + 2) <= 12 * (max_year + 1) ->
     exists y, nth_item (filter_next (iter_next md) fuel (day_matches d)) (S j) it = Some (Ok (Moment y)) /\ dt_valid y = true /\ on_day d y = true /\ day y = day m /\
       month_index x < month_index y <= month_index x + 14).
Proof.
  intros m it d fuel j B Hm Hd Hf R. destruct (monthly_items m it B Hm Hd) as [f F].
  set (hit := fun k => first_of (month_index m + Z.of_nat k) =? back d (day m)).
  assert (H : forall k, month_index m + Z.of_nat k <= 12 * max_year + 11 -> on_day d (f k) = hit k).
  { intros k Hk. destruct (F k Hk) as (_ & V & I & D). rewrite month_hit_first by exact V. rewrite I, D. reflexivity. }
  assert (W : forall p, exists k, (k < 14)%nat /\ hit (p + k)%nat = true).
  { intro p. destruct (window_months (month_index m + Z.of_nat p) (back d (day m))) as (k & Hk & E); [unfold back; apply Z.mod_pos_bound; lia|].
    exists (Z.to_nat k). split; [lia|]. unfold hit. apply Z.eqb_eq. rewrite <- E. f_equal. lia. }
  assert (I : forall lim, month_index m + Z.of_nat lim <= 12 * (max_year + 1) -> forall i, (i < lim)%nat -> exists t, nth_item (iter_next md) i it = Some (Ok t) /\ day_matches d t = Ok (hit i)).
  { intros lim L i Hi. destruct (F i ltac:(lia)) as (E & _). exists (Moment (f i)). split; [exact E|]. rewrite HangProofs.day_decides, H by lia. reflexivity. }
  assert (One : exists h, (j <= h < 14 * S j)%nat /\ hit h = true /\ nth_item (filter_next (iter_next md) fuel (day_matches d)) j it = nth_item (iter_next md) h it).
  { destruct (matches_at (iter_next md) (day_matches d) it (14 * S j) 14 fuel hit Hf (I (14 * S j)%nat ltac:(lia)) W j ltac:(lia)) as (h & Hh & T & E & _). exists h. auto. }
  destruct One as (h & Hh & T & E). destruct (F h ltac:(lia)) as (Eh & Vh & Ih & Dh). exists (f h). rewrite E.
  split; [exact Eh|]. split; [exact Vh|]. split; [rewrite H by lia; exact T|]. split; [exact Dh|]. split; [lia|]. intro R2.
  destruct (matches_next (iter_next md) (day_matches d) it (14 * S (S j)) 14 fuel hit Hf (I (14 * S (S j))%nat ltac:(lia)) W j ltac:(lia)) as (g & g' & Hg & Hg' & Tg & Tg' & Eg & Eg').
  destruct (F g ltac:(lia)) as (Fg & _ & Ig & _). destruct (F g' ltac:(lia)) as (Fg' & Vg' & Ig' & Dg'). exists (f g'). rewrite Eg'.
  split; [exact Fg'|]. split; [exact Vg'|]. split; [rewrite H by lia; exact Tg'|]. split; [exact Dg'|].
  assert (X : f h = f g) by (rewrite Eg, Fg in E; rewrite Eh in E; congruence). rewrite X, Ig, Ig'. lia.
Qed.

(** ** Years *)
Lemma yearly_items : forall m it, build m (Years 1) = Ok it -> dt_valid m = true -> ~ (month m = 2 /\ day m = 29) ->
  exists f : nat -> datetime, forall k, year m + Z.of_nat k <= max_year ->
    nth_item (iter_next md) k it = Some (Ok (Moment (f k))) /\ dt_valid (f k) = true /\ year (f k) = year m + Z.of_nat k /\ month (f k) = month m /\ day (f k) = day m.
Proof.
  intros m it B Hm N. destruct (valid_facts m Hm) as (Vy & Vmo & Vd & Vml & Vh & Vmi & Vs).
  exists (fun k => match k with O => m | _ => mkdt (year m + Z.of_nat k) (month m) (day m) (hour m) (minute m) (second m) 0 end). intros [|k] Hk.
  - rewrite (build_first md _ _ _ B). repeat split; try assumption. lia.
  - split; [|split; [|repeat split]].
    + rewrite (b_years md m 1 it (S k) B Hm N) by lia. rewrite Z.mul_1_r. reflexivity.
    + apply dt_valid_iff. cbn [year month day hour minute second nano]. split; [lia|]. split; [|lia]. apply date_exists_iff. split; [exact Vmo|]. split; [lia|].
      unfold month_length in *. destruct (Z.eq_dec (month m) 2) as [E|E].
      * rewrite E in *. change (Z.to_nat (2 - 1)) with 1%nat in *. cbn [nth] in *. destruct (leap (year m)), (leap (year m + Z.of_nat (S k))); lia.
      * assert (G : Z.to_nat (month m - 1) <> 1%nat) by lia. destruct (Z.to_nat (month m - 1)) as [|[|q]]; [exact Vml|lia|exact Vml].
Qed.
Lemma friday_years : forall m it d fuel j, build m (Years 1) = Ok it -> dt_valid m = true -> ~ (month m = 2 /\ day m = 29) -> (12 <= fuel)%nat ->
  year m + 12 * (Z.of_nat j + 1) <= max_year + 1 ->
  exists x, nth_item (filter_next (iter_next md) fuel (day_matches d)) j it = Some (Ok (Moment x)) /\ dt_valid x = true /\ on_day d x = true /\ month x = month m /\ day x = day m /\
    year m + Z.of_nat j <= year x < year m + 12 * (Z.of_nat j + 1) /\
    (year m + 12 * (Z.of_nat j + 2) <= max_year + 1 ->
     exists y, nth_item (filter_next (iter_next md) fuel (day_matches d)) (S j) it = Some (Ok (Moment y)) /\ dt_valid y = true /\ on_day d y = true /\ month y = month m /\ day y = day m /\
       year x < year y <= year x + 12).
Proof.
  intros m it d fuel j B Hm N Hf R. destruct (yearly_items m it B Hm N) as [f F]. destruct (valid_facts m Hm) as (_ & Vmo & _).
  set (hit := fun k => weekday (year m + Z.of_nat k) (month m) (day m) =? wday_into d).
  assert (H : forall k, year m + Z.of_nat k <= max_year -> on_day d (f k) = hit k).
  { intros k Hk. destruct (F k Hk) as (_ & _ & Y & Mo & D). unfold on_day. rewrite Y, Mo, D. reflexivity. }
  assert (W : forall p, exists k, (k < 12)%nat /\ hit (p + k)%nat = true).
  { intro p. destruct (window_years (year m + Z.of_nat p) (month m) (day m) (wday_into d) Vmo (wday_bound d)) as (k & Hk & E).
    exists (Z.to_nat k). split; [lia|]. unfold hit. apply Z.eqb_eq. rewrite <- E. f_equal. lia. }
  assert (I : forall lim, year m + Z.of_nat lim <= max_year + 1 -> forall i, (i < lim)%nat -> exists t, nth_item (iter_next md) i it = Some (Ok t) /\ day_matches d t = Ok (hit i)).
  { intros lim L i Hi. destruct (F i ltac:(lia)) as (E & _). exists (Moment (f i)). split; [exact E|]. rewrite HangProofs.day_decides, H by lia. reflexivity. }
  assert (One : exists h, (j <= h < 12 * S j)%nat /\ hit h = true /\ nth_item (filter_next (iter_next md) fuel (day_matches d)) j it = nth_item (iter_next md) h it).
  { destruct (matches_at (iter_next md) (day_matches d) it (12 * S j) 12 fuel hit Hf (I (12 * S j)%nat ltac:(lia)) W j ltac:(lia)) as (h & Hh & T & E & _). exists h. auto. }
  destruct One as (h & Hh & T & E). destruct (F h ltac:(lia)) as (Eh & Vh & Ih & Mh & Dh). exists (f h). rewrite E.
  split; [exact Eh|]. split; [exact Vh|]. split; [rewrite H by lia; exact T|]. split; [exact Mh|]. split; [exact Dh|]. split; [lia|]. intro R2.
  destruct (matches_next (iter_next md) (day_matches d) it (12 * S (S j)) 12 fuel hit Hf (I (12 * S (S j))%nat ltac:(lia)) W j ltac:(lia)) as (g & g' & Hg & Hg' & Tg & Tg' & Eg & Eg').
  destruct (F g ltac:(lia)) as (Fg & _ & Ig & _). destruct (F g' ltac:(lia)) as (Fg' & Vg' & Ig' & Mg' & Dg'). exists (f g'). rewrite Eg'.
  split; [exact Fg'|]. split; [exact Vg'|]. split; [rewrite H by lia; exact Tg'|]. split; [exact Mg'|]. split; [exact Dg'|].
  assert (X : f h = f g) by (rewrite Eg, Fg in E; rewrite Eh in E; congruence). rewrite X, Ig, Ig'. lia.
Qed.

(** ** A number of months *)
Lemma times_listed : forall S (nx : next_fn S) s n a d fuel, Z.of_nat (length a) = n -> in_i64 n = true -> n < i64_max -> items nx (length a) s = listed a -> (length a < fuel)%nat ->
  collects (filter_next (times_next md nx) fuel (day_matches d)) (times_new s n) (moments (filter (on_day d) a)).
Proof.
  intros S nx s n a d fuel L Hi Hn E F. set (t := times_new s n).
  assert (P : forall k, (k < length a)%nat -> nth_item (times_next md nx) k t = nth_item nx k s) by (intros k Hk; unfold t; rewrite times_pass; [reflexivity|exact Hi|right; lia|lia]).
  assert (D : nth_item (times_next md nx) (length a) t = None) by (apply times_done; [exact Hi|lia|lia]).
  assert (Ea : items (times_next md nx) (length a) t = listed a).
  { rewrite (items_seq _ _ (length a) t (fun k => nth_item nx k s)) by exact P. rewrite <- E. symmetry. apply items_seq. reflexivity. }
  assert (Eb : items (times_next md nx) (Datatypes.S (length a)) t = listed a ++ [None]).
  { rewrite (items_seq _ _ (Datatypes.S (length a)) t (fun k => nth_item (times_next md nx) k t)) by reflexivity. rewrite seq_S, map_app. cbn [map Nat.add]. rewrite D. f_equal.
    rewrite <- Ea. symmetry. apply items_seq. reflexivity. }
  split; rewrite moments_length.
  - rewrite <- listed_moments. apply (every_listed _ (times_next md nx) d a fuel t Ea). lia.
  - pose proof (every_items _ (times_next md nx) (day_matches d) (Datatypes.S (length a)) fuel t F) as Q. cbv zeta in Q. rewrite Eb in Q.
    assert (K : keep (day_matches d) false (listed a ++ [None]) = listed (filter (on_day d) a) ++ [None]).
    { unfold keep. rewrite filter_app. fold (keep (day_matches d) false (listed a)). rewrite (kept_listed _ (on_day d) false a (HangProofs.day_decides d)).
      rewrite (filter_same _ (on_day d)) by (intro x; destruct (on_day d x); reflexivity). reflexivity. }
    rewrite K, app_length, length_listed, map_app in Q. cbn [length map seen] in Q. rewrite (seen_listed _ (on_day d) _ (HangProofs.day_decides d)) in Q.
    pose proof (nth_items _ (filter_next (times_next md nx) fuel (day_matches d)) (length (filter (on_day d) a) + 1) (length (filter (on_day d) a)) t ltac:(lia)) as N.
    rewrite Q, nth_error_app2 in N by (rewrite length_listed; lia). rewrite length_listed, Nat.sub_diag in N. cbn [nth_error] in N. injection N as N. symmetry. exact N.
Qed.
Lemma filter_seq : forall (f : nat -> datetime) d (p : Z -> bool) n a z, (forall k, (a <= k < a + n)%nat -> on_day d (f k) = p (z + Z.of_nat k)) ->
  length (filter (on_day d) (map f (seq a n))) = many p (z + Z.of_nat a) n.
Proof.
  intros f d p. induction n as [|n IH]; intros a z H; [reflexivity|]. rewrite many_S. cbn [seq map filter]. rewrite (H a) by lia.
  replace (z + Z.of_nat a + 1) with (z + Z.of_nat (S a)) by lia. rewrite <- (IH (S a) z) by (intros k Hk; apply H; lia). destruct (p _); reflexivity.
Qed.
Lemma month_tally : forall m it d n fuel, build m (Months 1) = Ok it -> dt_valid m = true -> day m <= 28 -> (n < fuel)%nat ->
  month_index m + Z.of_nat n <= 12 * (max_year + 1) ->
  exists l, collects (filter_next (times_next md (iter_next md)) fuel (day_matches d)) (times_new it (Z.of_nat n)) (moments l) /\
    length l = many (fun i => first_of i =? back d (day m)) (month_index m) n /\
    (forall x, In x l -> dt_valid x = true /\ on_day d x = true /\ day x = day m /\ month_index m <= month_index x < month_index m + Z.of_nat n).
Proof.
  intros m it d n fuel B Hm Hd Hf R. destruct (monthly_items m it B Hm Hd) as [f F]. set (a := map f (seq 0 n)). assert (La : length a = n) by (unfold a; rewrite map_length, seq_length; reflexivity).
  destruct (valid_facts m Hm) as (Vy & Vmo & _).
  assert (Rn : Z.of_nat n <= 12 * (max_year + 1) - 12 * min_year) by (unfold month_index in R; lia).
  exists (filter (on_day d) a). split; [|split].
  - apply times_listed; [rewrite La; reflexivity| | | |lia].
    + apply in_i64_iff. unfold max_year, min_year, i64_min, i64_max in *. lia.
    + unfold max_year, min_year, i64_max in *. lia.
    + rewrite La. unfold a, listed. rewrite map_map. apply items_seq. intros k Hk. apply F. lia.
  - unfold a. rewrite (filter_seq f d (fun i => first_of i =? back d (day m)) n 0 (month_index m)).
    + rewrite Z.add_0_r. reflexivity.
    + intros k Hk. destruct (F k ltac:(lia)) as (_ & V & I & D). rewrite month_hit_first by exact V. rewrite I, D. reflexivity.
  - intros x X. apply filter_In in X. destruct X as [X O]. unfold a in X. apply in_map_iff in X. destruct X as (k & <- & Hk). apply in_seq in Hk.
    destruct (F k ltac:(lia)) as (_ & V & I & D). rewrite I. repeat split; try assumption; lia.
Qed.
Lemma back_range : forall d k, 0 <= back d k < 7.
Proof. intros. unfold back. apply Z.mod_pos_bound. lia. Qed.
Lemma tally_400 : forall m it d fuel, build m (Months 1) = Ok it -> dt_valid m = true -> day m <= 28 -> (4800 < fuel)%nat -> month_index m + 4800 <= 12 * (max_year + 1) ->
  exists l, collects (filter_next (times_next md (iter_next md)) fuel (day_matches d)) (times_new it 4800) l /\
    length l = nth (Z.to_nat ((wday_into d - day m + 1) mod 7)) [684; 687; 685; 685; 687; 684; 688]%nat 0%nat.
Proof.
  intros m it d fuel B Hm Hd Hf R. destruct (month_tally m it d 4800 fuel B Hm Hd Hf) as (l & C & L & _); [change (Z.of_nat 4800) with 4800; exact R|].
  exists (moments l). split; [exact C|]. rewrite moments_length, L. exact (counted_from _ _ (back_range d (day m))).
Qed.
Lemma tally_year : forall m it d fuel, build m (Months 1) = Ok it -> dt_valid m = true -> day m <= 28 -> month m = 1 -> (12 < fuel)%nat ->
  exists l, collects (filter_next (times_next md (iter_next md)) fuel (day_matches d)) (times_new it 12) (moments l) /\ (1 <= length l <= 3)%nat /\
    (forall x, In x l -> dt_valid x = true /\ on_day d x = true /\ day x = day m /\ year x = year m).
Proof.
  intros m it d fuel B Hm Hd Hj Hf. destruct (valid_facts m Hm) as (Vy & _).
  destruct (month_tally m it d 12 fuel B Hm Hd Hf) as (l & C & L & X); [unfold month_index; lia|].
  exists l. split; [exact C|]. split.
  - rewrite L. replace (month_index m) with (12 * year m) by (unfold month_index; lia). apply counted_year. apply back_range.
  - intros x I. destruct (X x I) as (V & O & D & R). split; [exact V|]. split; [exact O|]. split; [exact D|]. destruct (valid_facts x V) as (_ & Vm & _). unfold month_index in R. rewrite Hj in R. lia.
Qed.
End Iterations.
