(** Subtraction of amounts beyond 32 bits. *)
Require Import ZArith Bool List Lia ZifyBool.
From Verif Require Import Prelude Spec Chrono Util TimeType SpecTree SpecMoment SpecIter SpecSeq SpecWide PreludeProofs CalendarProofs EvalProofs AmountProofs ShapeProofs CompProofs LoopProofs
  AddProofs AddProofs2 SubProofs SubProofs2.
Local Open Scope Z_scope.
Ltac Zify.zify_post_hook ::= Z.div_mod_to_equations.

(** The borrows from a field upwards. *)
Definition t5 (y mo : Z) : Z * Z := bor 1 13 12 y mo.
Definition t4 (y mo d : Z) := let '(mo1, d2) := bor 1 32 31 mo d in (t5 y mo1, d2).
Definition t3 (y mo d h : Z) := let '(d1, h2) := bor 0 24 24 d h in (t4 y mo d1, h2).
Definition t2 (y mo d h mi : Z) := let '(h1, mi2) := bor 0 60 60 h mi in (t3 y mo d h1, mi2).
Definition t1 (y mo d h mi s : Z) : fields := let '(mi1, s2) := bor 0 60 60 mi s in (t2 y mo d h mi1, s2).

(** What can be built, and fields that are built into the same date. *)
Definition g5 (f : Z * Z) : Prop := let '(y, mo) := f in min_year <= wrap32 y <= max_year /\ 1 <= as_u32 mo <= 12.
Definition g4 (f : Z * Z * Z) : Prop := let '(p, d) := f in g5 p /\ 1 <= as_u32 d <= 31.
Definition g3 (f : Z * Z * Z * Z) : Prop := let '(p, h) := f in g4 p /\ as_u32 h < 24.
Definition g2 (f : Z * Z * Z * Z * Z) : Prop := let '(p, mi) := f in g3 p /\ as_u32 mi < 60.
Definition g1 (f : fields) : Prop := let '(p, s) := f in g2 p /\ as_u32 s < 60.
Definition c5 (f f' : Z * Z) : Prop := wrap32 (fst f) = wrap32 (fst f') /\ as_u32 (snd f) = as_u32 (snd f').
Definition c4 (f f' : Z * Z * Z) : Prop := c5 (fst f) (fst f') /\ as_u32 (snd f) = as_u32 (snd f').
Definition c3 (f f' : Z * Z * Z * Z) : Prop := c4 (fst f) (fst f') /\ as_u32 (snd f) = as_u32 (snd f').
Definition c2 (f f' : Z * Z * Z * Z * Z) : Prop := c3 (fst f) (fst f') /\ as_u32 (snd f) = as_u32 (snd f').
Definition c1 (f f' : fields) : Prop := c2 (fst f) (fst f') /\ as_u32 (snd f) = as_u32 (snd f').
Definition y5 (f : Z * Z) := fst f.
Definition y4 (f : Z * Z * Z) := y5 (fst f).
Definition y3 (f : Z * Z * Z * Z) := y4 (fst f).
Definition y2 (f : Z * Z * Z * Z * Z) := y3 (fst f).
Definition y1 (f : fields) := y2 (fst f).

Lemma same_build : forall f f', c1 f f' -> build_moment f = build_moment f'.
Proof.
  intros [[[[[y mo] d] h] mi] s] [[[[[y' mo'] d'] h'] mi'] s'] (((((A & B) & C) & D) & E) & F). cbn [fst snd] in *.
  unfold build_moment. change as_i32 with wrap32. rewrite A, B, C, D, E, F. reflexivity.
Qed.

(** A borrow from a field shifted by a whole number of turns. *)
Lemma bor_shift : forall l k t n b Q, 0 <= l <= 1 -> 0 < k -> b < l -> 0 <= Q ->
  bor l k t n (b - k * Q) = (fst (bor l k t n b) - Q, snd (bor l k t n b) - k * Q).
Proof.
  intros l k t n b Q Hl Hk Hb HQ. unfold bor. assert (0 <= k * Q) by nia. replace (b - k * Q <? l) with true by lia. replace (b <? l) with true by lia. cbn [fst snd].
  replace (Z.abs (b - k * Q)) with (Z.abs b + Q * k) by lia. rewrite Z.div_add by lia. f_equal; lia.
Qed.
Lemma bor_le : forall l k t n b, 0 < k -> fst (bor l k t n b) <= n /\ (fst (bor l k t n b) < n -> b < l).
Proof.
  intros l k t n b Hk. unfold bor. destruct (Z.ltb_spec b l); cbn [fst]; [|lia]. pose proof (Z.div_pos (Z.abs b) k ltac:(lia) Hk). lia.
Qed.
Lemma u32_turn : forall x q, as_u32 (x - 4294967296 * q) = as_u32 x.
Proof. intros x q. unfold as_u32. replace (x - 4294967296 * q) with (x + (- q) * 4294967296) by lia. apply Z_mod_plus_full. Qed.
Lemma w32_turn : forall x q, wrap32 (x - 4294967296 * q) = wrap32 x.
Proof. intros x q. unfold wrap32. lia. Qed.

Definition p5 := 13 * 4294967296.
Definition p4 := 32 * p5.
Definition p3 := 24 * p4.
Definition p2 := 60 * p3.
Definition p1 := 60 * p2.

Lemma y5_le : forall y mo, y5 (t5 y mo) <= y.
Proof. intros. unfold y5, t5. apply bor_le. lia. Qed.
Lemma y4_le : forall y mo d, y4 (t4 y mo d) <= y.
Proof. intros. unfold y4, t4. destruct (bor 1 32 31 mo d). apply y5_le. Qed.
Lemma y3_le : forall y mo d h, y3 (t3 y mo d h) <= y.
Proof. intros. unfold y3, t3. destruct (bor 0 24 24 d h). apply y4_le. Qed.
Lemma y2_le : forall y mo d h mi, y2 (t2 y mo d h mi) <= y.
Proof. intros. unfold y2, t2. destruct (bor 0 60 60 h mi). apply y3_le. Qed.
Lemma y1_le : forall y mo d h mi s, y1 (t1 y mo d h mi s) <= y.
Proof. intros. unfold y1, t1. destruct (bor 0 60 60 mi s). apply y2_le. Qed.

(** Whole turns of a field that borrows from the year change nothing. *)
Lemma s5 : forall y mo b, 0 <= b -> y5 (t5 y mo) < y -> mo < 1 /\ c5 (t5 y (mo - p5 * b)) (t5 y mo).
Proof.
  intros y mo b Hb Y. unfold y5, t5 in *. assert (M : mo < 1) by (apply (bor_le 1 13 12 y mo ltac:(lia)); exact Y). split; [exact M|].
  unfold p5. replace (mo - 13 * 4294967296 * b) with (mo - 13 * (4294967296 * b)) by lia. rewrite bor_shift by lia.
  split; cbn [fst snd]; [apply w32_turn|]. replace (13 * (4294967296 * b)) with (4294967296 * (13 * b)) by lia. apply u32_turn.
Qed.
Lemma s4 : forall y mo d b, 1 <= mo -> 0 <= b -> y4 (t4 y mo d) < y -> d < 1 /\ c4 (t4 y mo (d - p4 * b)) (t4 y mo d).
Proof.
  intros y mo d b Hm Hb Y. unfold y4, t4 in *. destruct (bor_le 1 32 31 mo d ltac:(lia)) as [L1 L2].
  destruct (bor 1 32 31 mo d) as [mo1 d2] eqn:E. cbn [fst] in *. destruct (s5 y mo1 b Hb Y) as [M C].
  assert (D : d < 1) by (apply L2; lia). split; [exact D|]. unfold p4. replace (d - 32 * p5 * b) with (d - 32 * (p5 * b)) by lia. rewrite bor_shift by (unfold p5; lia).
  rewrite E. cbn [fst snd]. split; cbn [fst snd]; [exact C|]. unfold p5. replace (32 * (13 * 4294967296 * b)) with (4294967296 * (32 * 13 * b)) by lia. apply u32_turn.
Qed.
Lemma s3 : forall y mo d h b, 1 <= mo -> 1 <= d -> 0 <= b -> y3 (t3 y mo d h) < y -> h < 0 /\ c3 (t3 y mo d (h - p3 * b)) (t3 y mo d h).
Proof.
  intros y mo d h b Hm Hd Hb Y. unfold y3, t3 in *. destruct (bor_le 0 24 24 d h ltac:(lia)) as [L1 L2].
  destruct (bor 0 24 24 d h) as [d1 h2] eqn:E. cbn [fst] in *. destruct (s4 y mo d1 b Hm Hb Y) as [M C].
  assert (D : h < 0) by (apply L2; lia). split; [exact D|]. unfold p3. replace (h - 24 * p4 * b) with (h - 24 * (p4 * b)) by lia. rewrite bor_shift by (unfold p4, p5; lia).
  rewrite E. cbn [fst snd]. split; cbn [fst snd]; [exact C|]. unfold p4, p5. replace (24 * (32 * (13 * 4294967296) * b)) with (4294967296 * (24 * 32 * 13 * b)) by lia. apply u32_turn.
Qed.
Lemma s2 : forall y mo d h mi b, 1 <= mo -> 1 <= d -> 0 <= h -> 0 <= b -> y2 (t2 y mo d h mi) < y -> mi < 0 /\ c2 (t2 y mo d h (mi - p2 * b)) (t2 y mo d h mi).
Proof.
  intros y mo d h mi b Hm Hd Hh Hb Y. unfold y2, t2 in *. destruct (bor_le 0 60 60 h mi ltac:(lia)) as [L1 L2].
  destruct (bor 0 60 60 h mi) as [h1 mi2] eqn:E. cbn [fst] in *. destruct (s3 y mo d h1 b Hm Hd Hb Y) as [M C].
  assert (D : mi < 0) by (apply L2; lia). split; [exact D|]. unfold p2. replace (mi - 60 * p3 * b) with (mi - 60 * (p3 * b)) by lia. rewrite bor_shift by (unfold p3, p4, p5; lia).
  rewrite E. cbn [fst snd]. split; cbn [fst snd]; [exact C|]. unfold p3, p4, p5. replace (60 * (24 * (32 * (13 * 4294967296)) * b)) with (4294967296 * (60 * 24 * 32 * 13 * b)) by lia. apply u32_turn.
Qed.
Lemma s1 : forall y mo d h mi s b, 1 <= mo -> 1 <= d -> 0 <= h -> 0 <= mi -> 0 <= b -> y1 (t1 y mo d h mi s) < y -> s < 0 /\ c1 (t1 y mo d h mi (s - p1 * b)) (t1 y mo d h mi s).
Proof.
  intros y mo d h mi s b Hm Hd Hh Hi Hb Y. unfold y1, t1 in *. destruct (bor_le 0 60 60 mi s ltac:(lia)) as [L1 L2].
  destruct (bor 0 60 60 mi s) as [mi1 sx] eqn:E. cbn [fst] in *. destruct (s2 y mo d h mi1 b Hm Hd Hh Hb Y) as [M C].
  assert (D : s < 0) by (apply L2; lia). split; [exact D|]. unfold p1. replace (s - 60 * p2 * b) with (s - 60 * (p2 * b)) by lia. rewrite bor_shift by (unfold p2, p3, p4, p5; lia).
  rewrite E. cbn [fst snd]. split; cbn [fst snd]; [exact C|]. unfold p2, p3, p4, p5. replace (60 * (60 * (24 * (32 * (13 * 4294967296))) * b)) with (4294967296 * (60 * 60 * 24 * 32 * 13 * b)) by lia. apply u32_turn.
Qed.

(** What can be built lies a few units before a whole number of turns. *)
Lemma r5 : forall y mo, min_year <= y <= max_year -> mo <= 0 -> g5 (t5 y mo) -> exists b z, 0 <= b /\ 0 <= z <= 11 /\ mo = - (p5 * b) - z /\ y5 (t5 y (- z)) = y - 1.
Proof.
  intros y mo Hy Hm G. exists (- mo / p5), (- mo mod p5). unfold t5, bor in G. replace (mo <? 1) with true in G by lia. destruct G as [G1 G2].
  assert (Z0 : 0 <= - mo mod p5 <= 11).
  { replace (Z.abs mo) with (- mo) in * by lia. remember (- mo) as x eqn:Ex. assert (0 <= x) by lia. clear Ex Hm mo.
    pose proof (Z.div_mod x 13 ltac:(lia)) as D. pose proof (Z.mod_pos_bound x 13 ltac:(lia)) as B. set (q := x / 13) in *. set (e := x mod 13) in *. clearbody q e.
    assert (Hq : exists k c, q = 4294967296 * k + c /\ -600000 <= c <= 600000).
    { unfold wrap32, min_year, max_year in *. exists (- ((y - (q + 1) + 2147483648) / 4294967296)), (q + 4294967296 * ((y - (q + 1) + 2147483648) / 4294967296)). split; [lia|]. lia. }
    destruct Hq as (k & c & Eq & Hc). unfold as_u32 in G2.
    assert (13 * c + e = 12 - (12 - x) mod 4294967296).
    { pose proof (Z.div_mod (12 - x) 4294967296 ltac:(lia)) as D2. set (v := (12 - x) mod 4294967296) in *. set (w := (12 - x) / 4294967296) in *. clearbody v w.
      assert (4294967296 * (w + 13 * k) = 12 - v - 13 * c - e) by lia. assert (w + 13 * k = 0) by lia. lia. }
    assert (x = 12 - (12 - x) mod 4294967296 + k * p5) by (unfold p5; lia).
    rewrite H1. rewrite Z_mod_plus_full. rewrite Z.mod_small by (unfold p5; lia). lia. }
  split; [apply Z.div_pos; unfold p5; lia|]. split; [exact Z0|]. split; [unfold p5 in *; lia|].
  unfold y5, t5, bor. set (z := - mo mod p5) in *. clearbody z. replace (- z <? 1) with true by lia. cbn [fst]. replace (Z.abs (- z)) with z by lia. rewrite Z.div_small by lia. lia.
Qed.
(** One more field. *)
Lemma turn_up : forall l k t n b W z n1 b2 z', 0 <= l <= 1 -> 13 <= k <= 60 -> 0 <= W -> b < l -> - 60 <= n <= 60 -> bor l k t n b = (n1, b2) ->
  n1 = - (4294967296 * W) - z -> 0 <= z <= 60 -> as_u32 b2 = t - z' -> 1 - l <= z' <= 60 ->
  b = - (4294967296 * (k * W)) - z' /\ fst (bor l k t n (- z')) = - z.
Proof.
  intros l k t n b W z n1 b2 z' Hl Hk HW Hb Hn E En Hz Eb G. unfold bor in E |- *. replace (b <? l) with true in E by lia. apply pair_equal_spec in E. destruct E as [E1 E2].
  replace (Z.abs b) with (- b) in * by lia. remember (- b) as x eqn:Ex. replace b with (- x) by lia. clear Ex.
  replace (- z' <? l) with true by lia. cbn [fst]. replace (Z.abs (- z')) with z' by lia. subst b2.
  pose proof (Z.div_mod x k ltac:(lia)) as D. pose proof (Z.mod_pos_bound x k ltac:(lia)) as B. set (q := x / k) in *. set (e := x mod k) in *. clearbody q e.
  assert (Q : q = n - 1 + z + 4294967296 * W) by lia. subst q.
  assert (T : t - x = 4294967296 * ((t - x) / 4294967296) + (t - z')) by (rewrite <- Eb; unfold as_u32; apply Z.div_mod; lia).
  set (w := (t - x) / 4294967296) in *. clearbody w. clear E1 En Eb Hb.
  assert (F : k * (n - 1 + z) + e - z' = - 4294967296 * (k * W + w)) by (rewrite D in T; lia).
  assert (S1 : -10000 <= k * (n - 1 + z) + e <= 10000) by nia.
  assert (S2 : k * W + w = 0) by (clear D T; set (kw := k * W + w) in *; clearbody kw; lia). assert (S3 : z' = k * (n - 1 + z) + e) by lia.
  split; [rewrite D; lia|]. rewrite S3. rewrite (Z.mul_comm k), Z.div_add_l by lia. rewrite Z.div_small by lia. lia.
Qed.
Lemma r4 : forall y mo d, min_year <= y <= max_year -> 1 <= mo <= 12 -> d <= -1000 -> g4 (t4 y mo d) ->
  exists b z, 0 <= b /\ 0 <= z <= 30 /\ d = - (p4 * b) - z /\ y4 (t4 y mo (- z)) = y - 1.
Proof.
  intros y mo d Hy Hm Hd G. unfold t4 in G. destruct (bor 1 32 31 mo d) as [mo1 d2] eqn:E. destruct G as [G1 G2].
  assert (M : mo1 <= 0) by (unfold bor in E; replace (d <? 1) with true in E by lia; apply pair_equal_spec in E; lia).
  destruct (r5 y mo1 Hy M G1) as (b & z & Hb & Hz & Em & Ey).
  destruct (turn_up 1 32 31 mo d (13 * b) z _ _ (31 - as_u32 d2) ltac:(lia) ltac:(lia) ltac:(lia) ltac:(lia) ltac:(lia) E ltac:(unfold p5 in Em; lia) ltac:(lia) ltac:(lia) ltac:(lia)) as [T1 T2].
  exists b, (31 - as_u32 d2). split; [exact Hb|]. split; [lia|]. split; [unfold p4, p5; lia|].
  unfold y4, t4. destruct (bor 1 32 31 mo (- (31 - as_u32 d2))) as [mo1' d2']. cbn [fst] in *. subst mo1'. exact Ey.
Qed.
Lemma r3 : forall y mo d h, min_year <= y <= max_year -> 1 <= mo <= 12 -> 1 <= d <= 31 -> h <= -30000 -> g3 (t3 y mo d h) ->
  exists b z, 0 <= b /\ 1 <= z <= 24 /\ h = - (p3 * b) - z /\ y3 (t3 y mo d (- z)) = y - 1.
Proof.
  intros y mo d h Hy Hm Hd Hh G. unfold t3 in G. destruct (bor 0 24 24 d h) as [d1 h2] eqn:E. destruct G as [G1 G2].
  assert (M : d1 <= -1000) by (unfold bor in E; replace (h <? 0) with true in E by lia; apply pair_equal_spec in E; lia).
  destruct (r4 y mo d1 Hy Hm M G1) as (b & z & Hb & Hz & Em & Ey).
  assert (U : 0 <= as_u32 h2) by (unfold as_u32; lia).
  destruct (turn_up 0 24 24 d h (32 * 13 * b) z _ _ (24 - as_u32 h2) ltac:(lia) ltac:(lia) ltac:(lia) ltac:(lia) ltac:(lia) E ltac:(unfold p4, p5 in Em; lia) ltac:(lia) ltac:(lia) ltac:(lia)) as [T1 T2].
  exists b, (24 - as_u32 h2). split; [exact Hb|]. split; [lia|]. split; [unfold p3, p4, p5; lia|].
  unfold y3, t3. destruct (bor 0 24 24 d (- (24 - as_u32 h2))) as [d1' h2']. cbn [fst] in *. subst d1'. exact Ey.
Qed.
Lemma r2 : forall y mo d h mi, min_year <= y <= max_year -> 1 <= mo <= 12 -> 1 <= d <= 31 -> 0 <= h <= 23 -> mi <= -2000000 -> g2 (t2 y mo d h mi) ->
  exists b z, 0 <= b /\ 1 <= z <= 60 /\ mi = - (p2 * b) - z /\ y2 (t2 y mo d h (- z)) = y - 1.
Proof.
  intros y mo d h mi Hy Hm Hd Hh Hi G. unfold t2 in G. destruct (bor 0 60 60 h mi) as [h1 mi2] eqn:E. destruct G as [G1 G2].
  assert (M : h1 <= -30000) by (unfold bor in E; replace (mi <? 0) with true in E by lia; apply pair_equal_spec in E; lia).
  destruct (r3 y mo d h1 Hy Hm Hd M G1) as (b & z & Hb & Hz & Em & Ey).
  assert (U : 0 <= as_u32 mi2) by (unfold as_u32; lia).
  destruct (turn_up 0 60 60 h mi (24 * 32 * 13 * b) z _ _ (60 - as_u32 mi2) ltac:(lia) ltac:(lia) ltac:(lia) ltac:(lia) ltac:(lia) E ltac:(unfold p3, p4, p5 in Em; lia) ltac:(lia) ltac:(lia) ltac:(lia)) as [T1 T2].
  exists b, (60 - as_u32 mi2). split; [exact Hb|]. split; [lia|]. split; [unfold p2, p3, p4, p5; lia|].
  unfold y2, t2. destruct (bor 0 60 60 h (- (60 - as_u32 mi2))) as [h1' mi2']. cbn [fst] in *. subst h1'. exact Ey.
Qed.
Lemma r1 : forall y mo d h mi s, min_year <= y <= max_year -> 1 <= mo <= 12 -> 1 <= d <= 31 -> 0 <= h <= 23 -> 0 <= mi <= 59 -> s <= -200000000 -> g1 (t1 y mo d h mi s) ->
  exists b z, 0 <= b /\ 1 <= z <= 60 /\ s = - (p1 * b) - z /\ y1 (t1 y mo d h mi (- z)) = y - 1.
Proof.
  intros y mo d h mi s Hy Hm Hd Hh Hi Hs G. unfold t1 in G. destruct (bor 0 60 60 mi s) as [mi1 sx] eqn:E. destruct G as [G1 G2].
  assert (M : mi1 <= -2000000) by (unfold bor in E; replace (s <? 0) with true in E by lia; apply pair_equal_spec in E; lia).
  destruct (r2 y mo d h mi1 Hy Hm Hd Hh M G1) as (b & z & Hb & Hz & Em & Ey).
  assert (U : 0 <= as_u32 sx) by (unfold as_u32; lia).
  destruct (turn_up 0 60 60 mi s (60 * 24 * 32 * 13 * b) z _ _ (60 - as_u32 sx) ltac:(lia) ltac:(lia) ltac:(lia) ltac:(lia) ltac:(lia) E ltac:(unfold p2, p3, p4, p5 in Em; lia) ltac:(lia) ltac:(lia) ltac:(lia)) as [T1 T2].
  exists b, (60 - as_u32 sx). split; [exact Hb|]. split; [lia|]. split; [unfold p1, p2, p3, p4, p5; lia|].
  unfold y1, t1. destruct (bor 0 60 60 mi (- (60 - as_u32 sx))) as [mi1' s2']. cbn [fst] in *. subst mi1'. exact Ey.
Qed.

Section Far.
Variable md : mode.

Lemma borrow_wide : forall l k t n b, 0 <= l <= 1 -> - i64_max <= b <= i64_max -> (b < l -> -8000000000000000000 <= n <= 8000000000000000000) -> 13 <= k <= 60 -> 0 <= t <= 60 ->
  @borrow kek md l k t n b = Ok (bor l k t n b).
Proof.
  intros l k t n b Hl Hb Hn Hk Ht. unfold borrow, bor. destruct (Z.ltb_spec b l) as [L|]; [|reflexivity]. specialize (Hn L).
  unfold subc, addc, divc, absc. cbn [bind]. unfold i64_max in *.
  rewrite arith_ok by (unfold i64_min, i64_max; lia). cbn [bind].
  rewrite Z.quot_div_nonneg by lia.
  assert (Hd : 0 <= Z.abs b / k <= 709490156681136601).
  { split; [apply Z.div_pos; lia|]. apply Z.div_le_upper_bound; nia. }
  rewrite arith_ok by (unfold i64_min, i64_max; lia). cbn [bind].
  rewrite arith_ok by (unfold i64_min, i64_max; lia). cbn [bind].
  rewrite arith_ok by (unfold i64_min, i64_max; lia). cbn [bind].
  rewrite arith_ok by (unfold i64_min, i64_max; lia). cbn [bind].
  rewrite arith_ok by (unfold i64_min, i64_max; lia). cbn [bind].
  replace (Z.abs (0 - b)) with (Z.abs b) by lia. reflexivity.
Qed.

(** All borrows. *)
Lemma chain_wide : forall y mo d h mi s, min_year <= y <= max_year ->
  - i64_max <= mo <= 12 -> - i64_max <= d <= 31 -> - i64_max <= h < 24 -> - i64_max <= mi < 60 -> - i64_max <= s < 60 ->
  (mo < 1 -> 1 <= d) -> (mo < 1 \/ d < 1 -> 0 <= h) -> (mo < 1 \/ d < 1 \/ h < 0 -> 0 <= mi) -> (mo < 1 \/ d < 1 \/ h < 0 \/ mi < 0 -> 0 <= s) ->
  adjust_times_sub (E := kek) md y mo d h mi s = Ok (t1 y mo d h mi s).
Proof.
  intros y mo d h mi s Hy Hmo Hd Hh Hmi Hs C1 C2 C3 C4. unfold adjust_times_sub, t1, t2, t3, t4, t5. unfold i64_max in *.
  assert (N : forall l k t n b n1 b2, bor l k t n b = (n1, b2) -> 0 <= l <= 1 -> 13 <= k -> -9223372036854775807 <= b ->
    n1 <= n /\ (l <= b -> n1 = n) /\ (b < l -> n - 709490156681136602 <= n1)).
  { clear. intros l k t n b n1 b2 E Hl Hk Hb. unfold bor in E. destruct (Z.ltb_spec b l); apply pair_equal_spec in E; destruct E as [<- _]; [|lia].
    assert (0 <= Z.abs b / k <= 709490156681136601).
    { split; [apply Z.div_pos; lia|]. apply Z.div_le_upper_bound; nia. }
    lia. }
  rewrite borrow_wide by (unfold i64_max; lia). destruct (bor 0 60 60 mi s) as [mi1 s1] eqn:E1. pose proof (N _ _ _ _ _ _ _ E1 ltac:(lia) ltac:(lia) ltac:(lia)) as N1. cbn [bind].
  rewrite borrow_wide by (unfold i64_max; lia). destruct (bor 0 60 60 h mi1) as [h1 mi2] eqn:E2. pose proof (N _ _ _ _ _ _ _ E2 ltac:(lia) ltac:(lia) ltac:(lia)) as N2. cbn [bind].
  rewrite borrow_wide by (unfold i64_max; lia). destruct (bor 0 24 24 d h1) as [d1 h2] eqn:E3. pose proof (N _ _ _ _ _ _ _ E3 ltac:(lia) ltac:(lia) ltac:(lia)) as N3. cbn [bind].
  rewrite borrow_wide by (unfold i64_max; lia). destruct (bor 1 32 31 mo d1) as [mo1 d2] eqn:E4. pose proof (N _ _ _ _ _ _ _ E4 ltac:(lia) ltac:(lia) ltac:(lia)) as N4. cbn [bind].
  rewrite borrow_wide by (unfold i64_max, min_year, max_year in *; lia). destruct (bor 1 13 12 y mo1) as [y' mo2] eqn:E5. reflexivity.
Qed.
Definition tu (m : datetime) (u : tunit) (x : Z) : fields :=
  match u with
  | USec => t1 (year m) (month m) (day m) (hour m) (minute m) x
  | UMin => t1 (year m) (month m) (day m) (hour m) x (second m)
  | UHour => t1 (year m) (month m) (day m) x (minute m) (second m)
  | UDay => t1 (year m) (month m) x (hour m) (minute m) (second m)
  | UMonth => t1 (year m) x (day m) (hour m) (minute m) (second m)
  | UYear => t1 x (month m) (day m) (hour m) (minute m) (second m)
  end.
Lemma sub_tu : forall m u n, dt_valid m = true -> u <> UYear -> 0 <= n <= i64_max ->
  calculate md (Subtraction (Moment m) (mk u n)) = build_moment (tu m u (field u m - n)).
Proof.
  intros m u n Hm Hu Hn. destruct (valid_facts m Hm) as (Vy & Vmo & Vd & Vml & Vh & Vmi & Vs).
  rewrite calc_sub_mk by (assumption || (apply in_i64_iff; unfold i64_min, i64_max in *; lia)).
  destruct u; try (exfalso; apply Hu; reflexivity); cbn [mk sub_from_moment field tu]; unfold subc; cbn [bind];
    (rewrite arith_ok by (unfold i64_min, i64_max in *; lia)); cbn [bind]; (rewrite chain_wide by (unfold i64_max in *; lia)); reflexivity.
Qed.
Lemma bor_none : forall l k t n b, l <= b -> bor l k t n b = (n, b).
Proof. intros. unfold bor. replace (b <? l) with false by lia. reflexivity. Qed.
Lemma tu_le : forall m u x, u <> UYear -> y1 (tu m u x) <= year m.
Proof. intros m u x Hu. destruct u; try (exfalso; apply Hu; reflexivity); apply y1_le. Qed.
Lemma tu_turn : forall m u x b, dt_valid m = true -> u <> UYear -> 0 <= b -> y1 (tu m u x) < year m -> c1 (tu m u (x - period u * b)) (tu m u x).
Proof.
  intros m u x b Hm Hu Hb Y. destruct (valid_facts m Hm) as (Vy & Vmo & Vd & Vml & Vh & Vmi & Vs).
  destruct u; try (exfalso; apply Hu; reflexivity); cbn [tu] in *.
  - apply s1; lia || exact Y.
  - unfold t1 in *. rewrite !bor_none in * by lia. split; [|reflexivity]. apply s2; lia || exact Y.
  - unfold t1, t2 in *. rewrite !(bor_none 0 60 60) in * by lia. split; [|reflexivity]. split; [|reflexivity]. apply s3; lia || exact Y.
  - unfold t1, t2, t3 in *. rewrite !(bor_none 0) in * by lia. split; [|reflexivity]. split; [|reflexivity]. split; [|reflexivity]. apply s4; lia || exact Y.
  - unfold t1, t2, t3, t4 in *. rewrite !(bor_none 0) in * by lia. rewrite !(bor_none 1 32) in * by lia.
    split; [|reflexivity]. split; [|reflexivity]. split; [|reflexivity]. split; [|reflexivity]. apply s5; lia || exact Y.
Qed.
Lemma tu_built : forall m u x, dt_valid m = true -> u <> UYear -> x <= -2147483000 -> g1 (tu m u x) ->
  exists b z, 0 <= b /\ 0 <= z <= 60 /\ x = - (period u * b) - z /\ y1 (tu m u (- z)) = year m - 1.
Proof.
  intros m u x Hm Hu Hx G. destruct (valid_facts m Hm) as (Vy & Vmo & Vd & Vml & Vh & Vmi & Vs).
  destruct u; try (exfalso; apply Hu; reflexivity); cbn [tu] in *.
  - destruct (r1 (year m) (month m) (day m) (hour m) (minute m) x Vy ltac:(lia) ltac:(lia) ltac:(lia) ltac:(lia) ltac:(lia) G) as (b & z & A & B & C & D). exists b, z. split; [exact A|]. split; [lia|]. split; [exact C|exact D].
  - unfold t1 in *. rewrite !bor_none in * by lia. destruct G as [G _].
    destruct (r2 (year m) (month m) (day m) (hour m) x Vy ltac:(lia) ltac:(lia) ltac:(lia) ltac:(lia) G) as (b & z & A & B & C & D). exists b, z. split; [exact A|]. split; [lia|]. split; [exact C|].
    rewrite ?bor_none by lia. exact D.
  - unfold t1, t2 in *. rewrite !(bor_none 0 60 60) in * by lia. destruct G as [[G _] _].
    destruct (r3 (year m) (month m) (day m) x Vy ltac:(lia) ltac:(lia) ltac:(lia) G) as (b & z & A & B & C & D). exists b, z. split; [exact A|]. split; [lia|]. split; [exact C|].
    rewrite ?(bor_none 0 60 60) by lia. exact D.
  - unfold t1, t2, t3 in *. rewrite !(bor_none 0) in * by lia. destruct G as [[[G _] _] _].
    destruct (r4 (year m) (month m) x Vy ltac:(lia) ltac:(lia) G) as (b & z & A & B & C & D). exists b, z. split; [exact A|]. split; [lia|]. split; [exact C|].
    rewrite ?(bor_none 0) by lia. exact D.
  - unfold t1, t2, t3, t4 in *. rewrite !(bor_none 0) in * by lia. rewrite !(bor_none 1 32) in * by lia. destruct G as [[[[G _] _] _] _].
    destruct (r5 (year m) x Vy ltac:(lia) G) as (b & z & A & B & C & D). exists b, z. split; [exact A|]. split; [lia|]. split; [exact C|].
    rewrite ?(bor_none 0) by lia. rewrite ?(bor_none 1 32) by lia. exact D.
Qed.
Lemma built_good : forall f t, build_moment f = Ok (Moment t) -> g1 f /\ year t = wrap32 (y1 f).
Proof.
  intros [[[[[y mo] d] h] mi] s] t E. destruct (build_cases y mo d h mi s) as [(C1 & C2 & C3 & C4 & C5)|[C _]]; [|congruence].
  rewrite E in C5. injection C5 as ->. apply representable_iff in C1. destruct C1 as [R1 R2]. apply date_exists_iff in R2. destruct R2 as (R2 & R3 & R4).
  pose proof (month_length_bounds (wrap32 y) (as_u32 mo) R2) as ML. split; [|reflexivity]. unfold g1, g2, g3, g4, g5. repeat split; lia.
Qed.
Lemma built_or : forall f, oob (build_moment f) \/ exists t, build_moment f = Ok (Moment t).
Proof. intros [[[[[y mo] d] h] mi] s]. destruct (build_cases y mo d h mi s) as [(_ & _ & _ & _ & ->)|[-> _]]; [right; eexists; reflexivity|left; repeat eexists]. Qed.

(** Amounts that make fields come round do what is left of them does, provided that it borrows from the year. *)
Lemma sub_round : forall m u n t, dt_valid m = true -> u <> UYear -> 2147483648 <= n <= i64_max ->
  (calculate md (Subtraction (Moment m) (mk u n)) = Ok (Moment t) <->
   calculate md (Subtraction (Moment m) (mk u (n mod period u))) = Ok (Moment t) /\ year t = year m - 1).
Proof.
  intros m u n t Hm Hu Hn. destruct (valid_facts m Hm) as (Vy & Vmo & Vd & Vml & Vh & Vmi & Vs).
  assert (Pp : 100000 < period u) by (destruct u; cbn [period]; lia).
  pose proof (Z.mod_pos_bound n (period u) ltac:(lia)) as Br. pose proof (Z.div_mod n (period u) ltac:(lia)) as Dn. pose proof (Z.mod_le n (period u) ltac:(lia) ltac:(lia)) as Ml.
  assert (Fu : 0 <= field u m <= 60) by (destruct u; try (exfalso; apply Hu; reflexivity); cbn [field]; lia).
  assert (Ny : forall f, y1 f <= year m -> wrap32 (y1 f) = year m - 1 -> y1 f < year m).
  { intros f L W. destruct (Z.eq_dec (y1 f) (year m)) as [E|E]; [|lia]. rewrite E in W. exfalso. clear - W Vy. unfold wrap32, min_year, max_year in *. lia. }
  rewrite !sub_tu by (assumption || lia). set (r := n mod period u) in *. set (b := n / period u) in *. split.
  - intro E. destruct (built_good _ _ E) as [G Yt]. destruct (tu_built m u (field u m - n) Hm Hu ltac:(lia) G) as (b' & z & B1 & B2 & B3 & B4).
    assert (Eb : n = period u * b' + (field u m + z)) by lia.
    assert (Er : r = field u m + z) by (unfold r; symmetry; apply (Z.mod_unique n (period u) b'); [left; lia|exact Eb]).
    replace (field u m - r) with (- z) by lia. rewrite B3 in E, Yt. replace (- (period u * b') - z) with (- z - period u * b') in E, Yt by lia.
    pose proof (tu_turn m u (- z) b' Hm Hu B1 ltac:(lia)) as C. rewrite (same_build _ _ C) in E. split; [exact E|].
    destruct (built_good _ _ E) as [_ ->]. rewrite B4. clear - Vy G Yt E. pose proof (built_good _ _ E) as [G' _]. unfold wrap32, min_year, max_year in *. lia.
  - intros [E Yt]. destruct (built_good _ _ E) as [G Y]. rewrite Y in Yt.
    pose proof (Ny _ (tu_le m u _ Hu) Yt) as L. assert (B0 : 0 <= b) by (apply Z.div_pos; lia).
    pose proof (tu_turn m u _ b Hm Hu B0 L) as C. replace (field u m - n) with (field u m - r - period u * b) by lia. rewrite (same_build _ _ C). exact E.
Qed.
Lemma sub_round_oob : forall m u n, dt_valid m = true -> u <> UYear -> 0 <= n <= i64_max ->
  oob (calculate md (Subtraction (Moment m) (mk u n))) \/ exists t, calculate md (Subtraction (Moment m) (mk u n)) = Ok (Moment t).
Proof. intros m u n Hm Hu Hn. rewrite sub_tu by assumption. apply built_or. Qed.
Lemma sub_far_deep : forall m u n, dt_valid m = true -> u <> UYear -> 2147483648 <= n < period u ->
  oob (calculate md (Subtraction (Moment m) (mk u n))).
Proof.
  intros m u n Hm Hu Hn. destruct (valid_facts m Hm) as (Vy & Vmo & Vd & Vml & Vh & Vmi & Vs).
  assert (Fu : 0 <= field u m <= 60) by (destruct u; try (exfalso; apply Hu; reflexivity); cbn [field]; lia).
  assert (Pp : period u <= i64_max) by (unfold i64_max; destruct u; cbn [period]; lia).
  destruct (sub_round_oob m u n Hm Hu ltac:(lia)) as [O|[t E]]; [exact O|exfalso].
  rewrite sub_tu in E by (assumption || lia). destruct (built_good _ _ E) as [G _].
  destruct (tu_built m u (field u m - n) Hm Hu ltac:(lia) G) as (b & z & B1 & B2 & B3 & B4).
  assert (b = 0) by nia. subst b. lia.
Qed.

Lemma sub_far : forall m u n, dt_valid m = true -> clock_unit u = true -> u <> UDay -> 0 <= n < period u ->
  let x := field u m - n in
  let T := sod m - n * unit_secs u in
  let res := calculate md (Subtraction (Moment m) (mk u n)) in
  (- modulus u < x -> res = built3 (back_day (year m) (month m) (day m + T / 86400)) (T mod 86400)) /\
  (x = - modulus u -> let T' := T - modulus u * unit_secs u in
     res = built3 (back_day (year m) (month m) (day m + T' / 86400)) (T' mod 86400)) /\
  (x < - modulus u -> oob res).
Proof.
  intros m u n Hm Hu Hd Hn. destruct (Z_lt_le_dec n 2147483648) as [L|L]; [apply sub_clock; try assumption; lia|].
  pose proof (sub_far_deep m u n Hm ltac:(destruct u; discriminate) ltac:(lia)) as D.
  destruct (valid_facts m Hm) as (Vy & Vmo & Vd & Vml & Vh & Vmi & Vs).
  intros x T res. subst res. split; [|split]; [intro Hx; exfalso|intro Hx; exfalso|intros _; exact D];
    subst x; clear T D; destruct u; try discriminate; cbn [field modulus] in Hx; lia.
Qed.

Lemma sub_far_days : forall m n, dt_valid m = true -> 0 <= n < period UDay ->
  let D := day m - n in
  let res := calculate md (Subtraction (Moment m) (Days n)) in
  (-30 <= D -> res = built3 (back_day (year m) (month m) D) (sod m)) /\
  (D < -30 -> oob res).
Proof.
  intros m n Hm Hn. destruct (Z_lt_le_dec n 2147483648) as [L|L]; [apply sub_days; try assumption; lia|].
  pose proof (sub_far_deep m UDay n Hm ltac:(discriminate) ltac:(lia)) as D.
  destruct (valid_facts m Hm) as (Vy & Vmo & Vd & Vml & Vh & Vmi & Vs).
  intros x res. subst res. split; [intro Hx; exfalso|intros _; exact D]. subst x. lia.
Qed.

Lemma sub_far_months : forall m n, dt_valid m = true -> 0 <= n < period UMonth ->
  let M := month m - n in
  let res := calculate md (Subtraction (Moment m) (Months n)) in
  (1 <= M -> res = built (year m) M (day m) (sod m)) /\
  (-11 <= M <= 0 -> res = built (year m - 1) (M + 12) (day m) (sod m)) /\
  (M < -11 -> oob res).
Proof.
  intros m n Hm Hn. destruct (Z_lt_le_dec n 2147483648) as [L|L]; [apply sub_months; try assumption; lia|].
  pose proof (sub_far_deep m UMonth n Hm ltac:(discriminate) ltac:(lia)) as D.
  destruct (valid_facts m Hm) as (Vy & Vmo & Vd & Vml & Vh & Vmi & Vs).
  intros x res. subst res. split; [|split]; [intro Hx; exfalso|intro Hx; exfalso|intros _; exact D]; subst x; lia.
Qed.
End Far.
