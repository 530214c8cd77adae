(** The moments an iteration visits (C117). *)
Require Import ZArith Bool List Lia ZifyBool Znumtheory.
From Verif Require Import Prelude Spec Chrono Util TimeType Matcher Iter SpecTree SpecMoment SpecIter SpecAdapt SpecExact SpecVisit PreludeProofs EvalProofs AmountProofs
  ShapeProofs CompProofs CalendarProofs OrdProofs AddProofs AddProofs2 SubProofs SubProofs2 SeqProofs NegProofs IterProofs IterProofs2 AdapterProofs AdapterProofs2 AdapterProofs3 SeqProofs2.
Import ListNotations.
Local Open Scope Z_scope.
Local Ltac Zify.zify_post_hook ::= Z.to_euclidean_division_equations.

Section Visit.
Variable md : mode.

(** An item that is a moment comes from the item before. *)
Lemma from_before : forall m u n it k b, build m (mk u n) = Ok it -> dt_valid m = true -> 0 <= n -> n * unit_secs u <= span32 ->
  nth_item (iter_next md) (S k) it = Some (Ok (Moment b)) ->
  exists x, dt_valid x = true /\ nth_item (iter_next md) k it = Some (Ok (Moment x)) /\ calculate md (Addition (Moment x) (mk u n)) = Ok (Moment b).
Proof.
  intros m u n it k b B Hm Hn Hs E. apply build_at in B. subst it. pose proof (span_i64 u n Hn Hs) as Hi.
  assert (St : forall m, dt_valid m = true ->
    (exists m', calculate md (Addition (Moment m) (mk u n)) = Ok (Moment m') /\ dt_valid m' = true /\ True) \/
    exists e, calculate md (Addition (Moment m) (mk u n)) = Err e).
  { intros x Hx. destruct (add_total md x u n Hx Hn Hs) as [(m' & A & V)|A]; [left; eauto|right; exact A]. }
  assert (X : exists x, dt_valid x = true /\ nth_item (iter_next md) k (at_moment u n m false) = Some (Ok (Moment x)) /\
    after (iter_next md) (S k) (at_moment u n m false) = at_moment u n x true).
  { destruct k as [|k]; [exists m; repeat split; exact Hm|].
    rewrite fresh_item, fresh_after.
    destruct (run_item md u n (fun _ _ => True) Hi (fun _ _ _ _ _ => I) St k m _ Hm eq_refl) as [(x & A & V & _ & F)|[e A]].
    - exists x. auto.
    - exfalso.
      assert (O : iter_ok (at_moment u n m false)) by (repeat split; cbn; [exact Hm|rewrite ok_mk; exact Hi|destruct u; reflexivity]).
      pose proof (b_sticky md _ (S k) e O A (S (S k)) ltac:(lia)) as C. rewrite E in C. discriminate C. }
  destruct X as (x & V & A & F). exists x. split; [exact V|]. split; [exact A|].
  unfold nth_item in E. rewrite F in E.
  destruct (St x V) as [(m' & G & _)|[e G]].
  - rewrite (next_moment md u n x m' G) in E. cbn [fst] in E. injection E as <-. exact G.
  - destruct (next_moment_err md u n x e G) as [it' N]. rewrite N in E. discriminate E.
Qed.

Lemma whole_self : forall m, nano m = 0 -> whole_second m = m.
Proof. intros m H. destruct m. cbn in *. subst. reflexivity. Qed.
Lemma inst_same : forall a b, dt_valid a = true -> dt_valid b = true -> nano a = 0 -> nano b = 0 -> inst a = inst b -> a = b.
Proof. intros a b Ha Hb Na Nb E. apply inst_inj in E; [|assumption|assumption]. rewrite !whole_self in E by assumption. exact E. Qed.

(** The [k]-th item of a clock iteration, counting from 0. *)
Lemma clock_item : forall m u n it k, build m (mk u n) = Ok it -> dt_valid m = true -> nano m = 0 -> clock_unit u = true -> 0 <= n -> n * unit_secs u <= 30 * 86400 ->
  inst m + Z.of_nat k * n * unit_secs u < instant (max_year + 1) 1 1 0 0 0 ->
  exists x, nth_item (iter_next md) k it = Some (Ok (Moment x)) /\ dt_valid x = true /\ nano x = 0 /\ inst x = inst m + Z.of_nat k * n * unit_secs u.
Proof.
  intros m u n it [|k] B Hm N0 Hu Hn Hd HR.
  - exists m. split; [exact (build_first md m _ it B)|]. repeat split; try assumption. lia.
  - apply (b_clock md m u n it (S k)); try assumption. lia.
Qed.
Lemma clock_visits : forall m u n it x, build m (mk u n) = Ok it -> dt_valid m = true -> nano m = 0 -> clock_unit u = true ->
  0 < n -> n * unit_secs u <= 30 * 86400 -> dt_valid x = true -> nano x = 0 ->
  (visits (iter_next md) it x <-> inst m <= inst x /\ (n * unit_secs u | inst x - inst m)).
Proof.
  intros m u n it x B Hm N0 Hu Hn Hd Hx Nx. pose proof (clock_unit_secs u Hu) as Us. split.
  - intros [k E]. destruct (Z_lt_le_dec (inst m + Z.of_nat k * n * unit_secs u) (instant (max_year + 1) 1 1 0 0 0)) as [L|G].
    + destruct (clock_item m u n it k B Hm N0 Hu ltac:(lia) Hd L) as (y & F & V & Ny & I). rewrite E in F. injection F as <-.
      rewrite I. split; [nia|]. exists (Z.of_nat k). ring.
    + exfalso. destruct (b_clock_beyond md m u n it k B Hm Hu ltac:(lia) Hd G) as (y & mo & d & h & mi & s & F).
      rewrite (F k (le_n k)) in E. discriminate E.
  - intros [L [q D]]. assert (Q : 0 <= q) by nia. exists (Z.to_nat q).
    destruct (clock_item m u n it (Z.to_nat q) B Hm N0 Hu ltac:(lia) Hd) as (y & F & V & Ny & I).
    + rewrite Z2Nat.id by exact Q. pose proof (inst_max x Hx). lia.
    + rewrite F. rewrite Z2Nat.id in I by exact Q. do 2 f_equal. f_equal. apply inst_same; try assumption. lia.
Qed.
(** No moment is visited twice. *)
Lemma visited_once : forall m u n it x j k, build m (mk u n) = Ok it -> dt_valid m = true -> 0 < n -> n * unit_secs u <= span32 ->
  nth_item (iter_next md) j it = Some (Ok (Moment x)) -> nth_item (iter_next md) k it = Some (Ok (Moment x)) -> j = k.
Proof.
  intros m u n it x j k B Hm Hn Hs Ej Ek. destruct (lt_eq_lt_dec j k) as [[L|E]|L]; [exfalso|exact E|exfalso].
  - pose proof (items_increase md m u n it j k x x B Hm Hn Hs L Ej Ek). lia.
  - pose proof (items_increase md m u n it k j x x B Hm Hn Hs L Ek Ej). lia.
Qed.
(** One item a day. *)
Lemma every_date : forall m it y mo d, build m (Days 1) = Ok it -> dt_valid m = true -> nano m = 0 -> date_exists y mo d = true -> y <= max_year ->
  day_number (year m) (month m) (day m) <= day_number y mo d ->
  exists! k, exists x, nth_item (iter_next md) k it = Some (Ok (Moment x)) /\ year x = y /\ month x = mo /\ day x = d.
Proof.
  intros m it y mo d B Hm N0 Hd Hy L.
  destruct (valid_facts m Hm) as (Vy & Vmo & Vd & Vml & Vh & Vmi & Vs).
  assert (Ly : min_year <= y).
  { apply date_exists_iff in Hd. destruct (Z_lt_le_dec y min_year) as [C|]; [exfalso|assumption].
    assert (DL : day_number y mo d < day_number (year m) (month m) (day m)); [|lia].
    apply day_number_lt_iff; [apply date_exists_iff; lia|apply date_exists_iff; lia|]. lia. }
  set (x := mkdt y mo d (hour m) (minute m) (second m) 0).
  assert (Vx : dt_valid x = true).
  { apply dt_valid_iff. cbn. apply dt_valid_iff in Hm. intuition lia. }
  assert (Ix : inst x = inst m + (day_number y mo d - day_number (year m) (month m) (day m)) * 86400).
  { rewrite (inst_sod m), (inst_sod x). unfold sod, x. cbn [year month day hour minute second]. lia. }
  destruct (proj2 (clock_visits m UDay 1 it x B Hm N0 eq_refl ltac:(lia) ltac:(cbn; lia) Vx eq_refl)) as [k E].
  { split; [lia|]. rewrite Ix. cbn [unit_secs]. exists (day_number y mo d - day_number (year m) (month m) (day m)). lia. }
  exists k. split; [exists x; repeat split; exact E|].
  intros j (z & F & Y1 & Y2 & Y3).
  assert (Cz : inst m + Z.of_nat j * 1 * unit_secs UDay < instant (max_year + 1) 1 1 0 0 0).
  { destruct (Z_lt_le_dec (inst m + Z.of_nat j * 1 * unit_secs UDay) (instant (max_year + 1) 1 1 0 0 0)) as [l|G]; [exact l|exfalso].
    destruct (b_clock_beyond md m UDay 1 it j B Hm eq_refl ltac:(lia) ltac:(cbn; lia) G) as (? & ? & ? & ? & ? & ? & W).
    rewrite (W j (le_n j)) in F. discriminate F. }
  destruct (clock_item m UDay 1 it j B Hm N0 eq_refl ltac:(lia) ltac:(cbn; lia) Cz) as (z' & F' & Vz & Nz & Iz).
  rewrite F in F'. injection F' as <-.
  assert (Ez : z = x).
  { apply inst_same; try assumption; [reflexivity|]. rewrite (inst_sod z), Y1, Y2, Y3 in Iz.
    rewrite (inst_sod z), Y1, Y2, Y3, Ix. rewrite (inst_sod m) in *. cbn [unit_secs] in Iz.
    pose proof (sod_range z Vz). pose proof (sod_range m Hm). lia. }
  subst z. exact (visited_once m UDay 1 it x k j B Hm ltac:(lia) ltac:(unfold span32; cbn; lia) E F).
Qed.
(** What two iterations from one moment have in common. *)
Lemma common_visits : forall m u n v p it it' x, build m (mk u n) = Ok it -> build m (mk v p) = Ok it' -> dt_valid m = true -> nano m = 0 ->
  clock_unit u = true -> clock_unit v = true -> 0 < n -> n * unit_secs u <= 30 * 86400 -> 0 < p -> p * unit_secs v <= 30 * 86400 -> dt_valid x = true -> nano x = 0 ->
  (visits (iter_next md) it x /\ visits (iter_next md) it' x <-> inst m <= inst x /\ (Z.lcm (n * unit_secs u) (p * unit_secs v) | inst x - inst m)).
Proof.
  intros m u n v p it it' x B B' Hm N0 Hu Hv Hn Hd Hp Hd' Hx Nx.
  rewrite (clock_visits m u n it x), (clock_visits m v p it' x) by assumption. split.
  - intros [[L D] [_ D']]. split; [exact L|]. apply Z.lcm_least; assumption.
  - intros [L D]. split; (split; [exact L|]); eapply Z.divide_trans; [apply Z.divide_lcm_l|exact D|apply Z.divide_lcm_r|exact D].
Qed.
(** One iteration visits all the other does exactly if its step divides the other's. *)
Lemma finer_visits : forall m u n v p it it', build m (mk u n) = Ok it -> build m (mk v p) = Ok it' -> dt_valid m = true -> nano m = 0 ->
  clock_unit u = true -> clock_unit v = true -> 0 < n -> n * unit_secs u <= 30 * 86400 -> 0 < p -> p * unit_secs v <= 30 * 86400 ->
  inst m + p * unit_secs v < instant (max_year + 1) 1 1 0 0 0 ->
  ((forall x, visits (iter_next md) it' x -> visits (iter_next md) it x) <-> (n * unit_secs u | p * unit_secs v)).
Proof.
  intros m u n v p it it' B B' Hm N0 Hu Hv Hn Hd Hp Hd' HR. split.
  - intro A. destruct (clock_item m v p it' 1%nat B' Hm N0 Hv ltac:(lia) Hd' ltac:(lia)) as (x & E & V & Nx & I).
    specialize (A x (ex_intro _ 1%nat E)). apply (clock_visits m u n it x) in A; try assumption. destruct A as [_ D].
    replace (inst x - inst m) with (p * unit_secs v) in D by lia. exact D.
  - intros D x A.
    assert (VN : dt_valid x = true /\ nano x = 0).
    { destruct A as [k E]. destruct (Z_lt_le_dec (inst m + Z.of_nat k * p * unit_secs v) (instant (max_year + 1) 1 1 0 0 0)) as [L|G].
      - destruct (clock_item m v p it' k B' Hm N0 Hv ltac:(lia) Hd' L) as (y & F & V & Ny & _). rewrite E in F. injection F as <-. auto.
      - exfalso. destruct (b_clock_beyond md m v p it' k B' Hm Hv ltac:(lia) Hd' G) as (? & ? & ? & ? & ? & ? & F).
        rewrite (F k (le_n k)) in E. discriminate E. }
    destruct VN as [V Nx]. apply (clock_visits m v p it' x) in A; try assumption. apply (clock_visits m u n it x); try assumption.
    destruct A as [L A]. split; [exact L|]. eapply Z.divide_trans; eassumption.
Qed.
(** An Ok item of every() comes from the inner iterator. *)
Lemma filter_call : forall S (nx : next_fn S) mt fuel s, exists j, snd (filter_next nx fuel mt s) = after nx j s.
Proof.
  intros S nx mt. induction fuel as [|fuel IH]; intro s; [exists 0%nat; reflexivity|].
  cbn [filter_next]. destruct (nx s) as [r s'] eqn:E.
  assert (D : after nx 1 s = s') by (cbn [after]; rewrite E; reflexivity).
  destruct r as [[t|e|p|]|]; try (exists 1%nat; cbn [snd]; rewrite D; reflexivity).
  destruct (mt t) as [[]|e|p|]; try (exists 1%nat; cbn [snd]; rewrite D; reflexivity).
  destruct (IH s') as [j J]. exists (Datatypes.S j). rewrite J. cbn [after]. rewrite E. reflexivity.
Qed.
Lemma filter_item : forall S (nx : next_fn S) mt fuel s t, fst (filter_next nx fuel mt s) = Some (Ok t) -> exists k, nth_item nx k s = Some (Ok t).
Proof.
  intros S nx mt. induction fuel as [|fuel IH]; intros s t H; [discriminate|].
  cbn [filter_next] in H. destruct (nx s) as [r s'] eqn:E. destruct r as [[t'|e|p|]|]; try discriminate.
  destruct (mt t') as [[]|e|p|] eqn:E2; try discriminate.
  - exists 0%nat. unfold nth_item. cbn [after]. rewrite E. exact H.
  - destruct (IH s' t H) as [k Hk]. exists (Datatypes.S k). unfold nth_item in *. cbn [after]. rewrite E. exact Hk.
Qed.
Lemma filter_from : forall S (nx : next_fn S) mt fuel j s t, nth_item (filter_next nx fuel mt) j s = Some (Ok t) -> exists k, nth_item nx k s = Some (Ok t).
Proof.
  intros S nx mt fuel j s t H. unfold nth_item in H. apply filter_item in H. destruct H as [k K].
  assert (A : forall j s, exists i, after (filter_next nx fuel mt) j s = after nx i s).
  { clear. induction j as [|j IH]; intro s; [exists 0%nat; reflexivity|]. cbn [after].
    destruct (filter_call S nx mt fuel s) as [a Ea]. rewrite Ea. destruct (IH (after nx a s)) as [b Eb]. rewrite Eb.
    exists (a + b)%nat. clear. revert s. induction a as [|a IH]; intro s; [reflexivity|]. cbn [after Nat.add]. apply IH. }
  destruct (A j s) as [i Ei]. rewrite Ei in K. exists (i + k)%nat. rewrite nth_item_add. exact K.
Qed.
(** Weekly, and daily kept to the weekday of the start. *)
Lemma weekly_same : forall m it it' d fuel j, build m (Days 1) = Ok it -> build m (Days 7) = Ok it' -> dt_valid m = true -> nano m = 0 -> (7 <= fuel)%nat ->
  wday_into d = weekday (year m) (month m) (day m) -> inst m + 7 * Z.of_nat j * 86400 < instant (max_year + 1) 1 1 0 0 0 ->
  nth_item (filter_next (iter_next md) fuel (day_matches d)) j it = nth_item (iter_next md) j it'.
Proof.
  intros m it it' d fuel j B B' Hm N0 Hf Hd HR.
  destruct (every_weekday md m it d fuel j B Hm Hf) as (x & E & V & I & _).
  { rewrite Hd, Z.sub_diag. change (0 mod 7) with 0. lia. }
  rewrite Hd, Z.sub_diag in I. change (0 mod 7) with 0 in I.
  destruct (clock_item m UDay 7 it' j B' Hm N0 eq_refl ltac:(lia) ltac:(cbn; lia)) as (y & F & Vy & Ny & Iy); [cbn [unit_secs]; lia|].
  cbn [unit_secs] in Iy. rewrite E, F. do 3 f_equal.
  assert (Nx : nano x = 0); [|apply inst_same; try assumption; lia].
  destruct (filter_from _ (iter_next md) (day_matches d) fuel j it (Moment x) E) as [k K].
  assert (Ck : inst m + Z.of_nat k * 1 * unit_secs UDay < instant (max_year + 1) 1 1 0 0 0).
  { destruct (Z_lt_le_dec (inst m + Z.of_nat k * 1 * unit_secs UDay) (instant (max_year + 1) 1 1 0 0 0)) as [l|G]; [exact l|exfalso].
    destruct (b_clock_beyond md m UDay 1 it k B Hm eq_refl ltac:(lia) ltac:(cbn; lia) G) as (? & ? & ? & ? & ? & ? & W).
    rewrite (W k (le_n k)) in K. discriminate K. }
  destruct (clock_item m UDay 1 it k B Hm N0 eq_refl ltac:(lia) ltac:(cbn; lia) Ck) as (z & F' & _ & Nz & _).
  rewrite K in F'. injection F' as <-. exact Nz.
Qed.
(** Months, on a day that every month has. *)
Lemma month_item : forall m n it k x, build m (Months n) = Ok it -> dt_valid m = true -> nano m = 0 -> day m <= 28 -> 0 < n -> n * unit_secs UMonth <= span32 ->
  nth_item (iter_next md) k it = Some (Ok (Moment x)) ->
  month_index m + Z.of_nat k * n <= 12 * max_year + 11 /\ x = in_month (month_index m + Z.of_nat k * n) (day m) m.
Proof.
  intros m n it k x B Hm N0 Hd Hn Hs. destruct (valid_facts m Hm) as (Vy & Vmo & Vd & Vml & Vh & Vmi & Vs).
  assert (Self : in_month (month_index m) (day m) m = m).
  { unfold in_month, month_index. replace ((12 * year m + month m - 1) / 12) with (year m) by lia.
    replace ((12 * year m + month m - 1) mod 12 + 1) with (month m) by lia. destruct m. cbn in *. subst. reflexivity. }
  revert x. induction k as [|k IH]; intros x E.
  - rewrite (build_first md m _ it B) in E. injection E as <-.
    replace (month_index m + Z.of_nat 0 * n) with (month_index m) by lia. split; [unfold month_index; lia|symmetry; exact Self].
  - destruct (from_before m UMonth n it k x B Hm ltac:(lia) Hs E) as (y & Vy' & F & G). destruct (IH y F) as [L ->].
    assert (LS : month_index m + Z.of_nat (S k) * n <= 12 * max_year + 11).
    { destruct (Z_le_gt_dec (month_index m + Z.of_nat (S k) * n) (12 * max_year + 11)) as [l|g]; [exact l|exfalso].
      destruct (add_months_beyond md _ n Vy' ltac:(lia) Hs) as (? & ? & ? & ? & ? & ? & O).
      - cbn [in_month year month]. lia.
      - cbn [mk] in G. rewrite G in O. discriminate O. }
    split; [exact LS|].
    pose proof (b_months md m n it (S k) B Hm Hd ltac:(lia)) as A. cbv zeta in A.
    replace (year m * 12 + month m - 1) with (month_index m) in A by (unfold month_index; lia).
    rewrite A in E by lia. injection E as <-. reflexivity.
Qed.
Lemma month_visits : forall m n it x, build m (Months n) = Ok it -> dt_valid m = true -> nano m = 0 -> day m <= 28 -> 0 < n -> n * unit_secs UMonth <= span32 ->
  dt_valid x = true -> nano x = 0 ->
  (visits (iter_next md) it x <-> month_index m <= month_index x /\ (n | month_index x - month_index m) /\ day x = day m /\ sod x = sod m).
Proof.
  intros m n it x B Hm N0 Hd Hn Hs Hx Nx. destruct (valid_facts m Hm) as (Vy & Vmo & Vd & Vml & Vh & Vmi & Vs).
  destruct (valid_facts x Hx) as (Wy & Wmo & Wd & Wml & Wh & Wmi & Ws). split.
  - intros [k E]. destruct (month_item m n it k x B Hm N0 Hd Hn Hs E) as [L ->].
    assert (I : month_index (in_month (month_index m + Z.of_nat k * n) (day m) m) = month_index m + Z.of_nat k * n).
    { unfold month_index at 1. cbn [in_month year month]. lia. }
    rewrite I. split; [nia|]. split; [exists (Z.of_nat k); ring|]. split; reflexivity.
  - intros (L & [q D] & Ed & Es). assert (Q : 0 <= q) by nia.
    assert (Ex : x = in_month (month_index m + q * n) (day m) m).
    { replace (month_index m + q * n) with (month_index x) by lia. unfold in_month, month_index.
      replace ((12 * year x + month x - 1) / 12) with (year x) by lia. replace ((12 * year x + month x - 1) mod 12 + 1) with (month x) by lia.
      unfold sod in Es. rewrite <- Ed.
      assert (hour m = hour x /\ minute m = minute x /\ second m = second x) as (-> & -> & ->) by lia. destruct x; cbn in *; subst; reflexivity. }
    destruct (Z.eq_dec q 0) as [->|Q0].
    + exists 0%nat. rewrite (build_first md m _ it B). do 3 f_equal. apply inst_same; try assumption.
      rewrite (inst_sod m), (inst_sod x), Es, Ed. assert (year m = year x /\ month m = month x) as [-> ->] by (unfold month_index in *; lia). reflexivity.
    + exists (Z.to_nat q). pose proof (b_months md m n it (Z.to_nat q) B Hm Hd ltac:(lia)) as A. cbv zeta in A.
      replace (year m * 12 + month m - 1) with (month_index m) in A by (unfold month_index; lia). rewrite Z2Nat.id in A by exact Q.
      rewrite Ex. apply A; [lia|]. replace (month_index m + q * n) with (month_index x) by lia. unfold month_index. lia.
Qed.
(** Years, from any day but 29 February. *)
Lemma year_item : forall m n it k x, build m (Years n) = Ok it -> dt_valid m = true -> nano m = 0 -> ~ (month m = 2 /\ day m = 29) -> 0 < n -> n * unit_secs UYear <= span32 ->
  nth_item (iter_next md) k it = Some (Ok (Moment x)) ->
  year m + Z.of_nat k * n <= max_year /\ x = mkdt (year m + Z.of_nat k * n) (month m) (day m) (hour m) (minute m) (second m) 0.
Proof.
  intros m n it k x B Hm N0 Hd Hn Hs. destruct (valid_facts m Hm) as (Vy & Vmo & Vd & Vml & Vh & Vmi & Vs).
  revert x. induction k as [|k IH]; intros x E.
  - rewrite (build_first md m _ it B) in E. injection E as <-.
    replace (year m + Z.of_nat 0 * n) with (year m) by lia. split; [lia|]. destruct m. cbn in *. subst. reflexivity.
  - destruct (from_before m UYear n it k x B Hm ltac:(lia) Hs E) as (y & Vy' & F & G). destruct (IH y F) as [L ->].
    assert (LS : year m + Z.of_nat (S k) * n <= max_year).
    { destruct (Z_le_gt_dec (year m + Z.of_nat (S k) * n) max_year) as [l|g]; [exact l|exfalso].
      assert (K0 : 0 <= Z.of_nat k * n) by nia. cbn [unit_secs] in Hs. unfold span32 in Hs.
      destruct (add_years_beyond md _ n Vy') as (? & ? & ? & ? & ? & ? & O).
      - cbn [year]. unfold min_year, max_year in *. lia.
      - cbn [year]. lia.
      - cbn [mk] in G. rewrite G in O. discriminate O. }
    split; [exact LS|].
    assert (K0 : 0 <= Z.of_nat (S k) * n) by nia.
    rewrite (b_years md m n it (S k) B Hm Hd) in E by lia. injection E as <-. reflexivity.
Qed.
Lemma year_visits : forall m n it x, build m (Years n) = Ok it -> dt_valid m = true -> nano m = 0 -> ~ (month m = 2 /\ day m = 29) -> 0 < n -> n * unit_secs UYear <= span32 ->
  dt_valid x = true -> nano x = 0 ->
  (visits (iter_next md) it x <-> year m <= year x /\ (n | year x - year m) /\ month x = month m /\ day x = day m /\ sod x = sod m).
Proof.
  intros m n it x B Hm N0 Hd Hn Hs Hx Nx. destruct (valid_facts m Hm) as (Vy & Vmo & Vd & Vml & Vh & Vmi & Vs).
  destruct (valid_facts x Hx) as (Wy & Wmo & Wd & Wml & Wh & Wmi & Ws). split.
  - intros [k E]. destruct (year_item m n it k x B Hm N0 Hd Hn Hs E) as [L ->]. cbn [year month day].
    split; [nia|]. split; [exists (Z.of_nat k); ring|]. repeat split.
  - intros (L & [q D] & Emo & Ed & Es). assert (Q : 0 <= q) by nia.
    assert (Ex : x = mkdt (year m + q * n) (month m) (day m) (hour m) (minute m) (second m) 0).
    { replace (year m + q * n) with (year x) by lia. unfold sod in Es. rewrite <- Ed, <- Emo.
      assert (hour m = hour x /\ minute m = minute x /\ second m = second x) as (-> & -> & ->) by lia. destruct x; cbn in *; subst; reflexivity. }
    destruct (Z.eq_dec q 0) as [->|Q0].
    + exists 0%nat. rewrite (build_first md m _ it B). do 3 f_equal. apply inst_same; try assumption.
      rewrite (inst_sod m), (inst_sod x), Es, Ed, Emo. assert (year m = year x) as -> by lia. reflexivity.
    + exists (Z.to_nat q). pose proof (b_years md m n it (Z.to_nat q) B Hm Hd ltac:(lia)) as A. rewrite Z2Nat.id in A by exact Q.
      rewrite Ex. apply A. replace (year m + q * n) with (year x) by lia. exact Wy.
Qed.
End Visit.
