(** UTF-8 validation accepts exactly the encodings of scalar values; the fuzz target. *)
Require Import ZArith Bool List String Ascii Lia ZifyBool.
From Verif Require Import Prelude Spec Chrono TimeType SpecTree SpecMoment SpecAdapt Nom ParserTimetype ParserIterator ParserMod SpecText SpecDoc Fuzz
  ParserProofs2 ParserProofs3 ParserProofs6.
Import ListNotations.
Local Open Scope string_scope.
Local Open Scope Z_scope.

Lemma byte_chr : forall z, 0 <= z < 256 -> byte (chr z) = z.
Proof. intros z H. unfold byte, chr. rewrite nat_ascii_embedding by lia. lia. Qed.
Lemma chr_byte : forall c, chr (byte c) = c.
Proof. intro c. unfold byte, chr. rewrite Nat2Z.id. apply ascii_nat_embedding. Qed.
Lemma byte_range : forall c, 0 <= byte c < 256.
Proof. intro c. unfold byte. pose proof (nat_ascii_bounded c). lia. Qed.

Ltac chop := repeat match goal with |- context [chr ?z] => rewrite (byte_chr z) by lia end.
Lemma utf8_char_ok : forall c s, scalar c -> utf8_ok (utf8_char c ++ s) = utf8_ok s.
Proof.
  intros c s H. unfold scalar in H. unfold utf8_char.
  assert (M : forall a, 0 <= a mod 64 < 64) by (intro a; apply Z.mod_pos_bound; lia).
  destruct (Z.ltb_spec c 128) as [L|L].
  { cbn [append utf8_ok]. rewrite (byte_chr c) by lia. destruct (Z.ltb_spec c 128); [reflexivity|lia]. }
  destruct (Z.ltb_spec c 2048) as [L2|L2].
  { pose proof (M c). assert (2 <= c / 64 < 32) by (split; [apply Z.div_le_lower_bound|apply Z.div_lt_upper_bound]; lia).
    cbn [append utf8_ok]. unfold cont, within. rewrite !byte_chr by lia.
    replace (192 + c / 64 <? 128) with false by lia. replace ((194 <=? 192 + c / 64) && (192 + c / 64 <=? 223)) with true by lia.
    replace ((128 <=? 128 + c mod 64) && (128 + c mod 64 <=? 191)) with true by lia. reflexivity. }
  assert (D : c / 64 = 64 * (c / 4096) + c / 64 mod 64).
  { pose proof (Z.div_mod (c / 64) 64 ltac:(lia)) as E. rewrite Z.div_div in E by lia. exact E. }
  pose proof (Z.div_mod c 64 ltac:(lia)) as E0. pose proof (M c) as M0. pose proof (M (c / 64)) as M1.
  destruct (Z.ltb_spec c 65536) as [L3|L3].
  { set (a := c / 4096) in *. set (b := c / 64 mod 64) in *. set (d := c mod 64) in *. rewrite D in E0.
    assert (R : 0 <= a < 16) by lia.
    cbn [append utf8_ok]. unfold cont, within. rewrite !byte_chr by lia.
    replace (224 + a <? 128) with false by lia. replace ((194 <=? 224 + a) && (224 + a <=? 223)) with false by lia.
    replace ((224 <=? 224 + a) && (224 + a <=? 239)) with true by lia.
    replace (if 224 + a =? 224 then (160 <=? 128 + b) && (128 + b <=? 191)
      else if 224 + a =? 237 then (128 <=? 128 + b) && (128 + b <=? 159) else (128 <=? 128 + b) && (128 + b <=? 191)) with true.
    2:{ destruct (Z.eqb_spec (224 + a) 224); [lia|]. destruct (Z.eqb_spec (224 + a) 237); lia. }
    replace ((128 <=? 128 + d) && (128 + d <=? 191)) with true by lia. reflexivity. }
  assert (D2 : c / 4096 = 64 * (c / 262144) + c / 4096 mod 64).
  { pose proof (Z.div_mod (c / 4096) 64 ltac:(lia)) as E. rewrite Z.div_div in E by lia. exact E. }
  pose proof (M (c / 4096)) as M2. rewrite D2 in D. rewrite D in E0.
  set (e := c / 262144) in *. set (a := c / 4096 mod 64) in *. set (b := c / 64 mod 64) in *. set (d := c mod 64) in *.
  assert (R : 0 <= e <= 4) by lia.
  cbn [append utf8_ok]. unfold cont, within. rewrite !byte_chr by lia.
  replace (240 + e <? 128) with false by lia. replace ((194 <=? 240 + e) && (240 + e <=? 223)) with false by lia.
  replace ((224 <=? 240 + e) && (240 + e <=? 239)) with false by lia. replace ((240 <=? 240 + e) && (240 + e <=? 244)) with true by lia.
  replace (if 240 + e =? 240 then (144 <=? 128 + a) && (128 + a <=? 191)
    else if 240 + e =? 244 then (128 <=? 128 + a) && (128 + a <=? 143) else (128 <=? 128 + a) && (128 + a <=? 191)) with true.
  2:{ destruct (Z.eqb_spec (240 + e) 240); [lia|]. destruct (Z.eqb_spec (240 + e) 244); lia. }
  replace ((128 <=? 128 + b) && (128 + b <=? 191)) with true by lia.
  replace ((128 <=? 128 + d) && (128 + d <=? 191)) with true by lia. reflexivity.
Qed.

Lemma div_val : forall q r k, 0 <= r < k -> (k * q + r) / k = q.
Proof. intros q r k H. rewrite Z.mul_comm, Z.div_add_l by lia. rewrite Z.div_small by lia. lia. Qed.
Lemma mod_val : forall q r k, 0 <= r < k -> (k * q + r) mod k = r.
Proof. intros q r k H. rewrite Z.mul_comm, Z.add_comm, Z.mod_add by lia. apply Z.mod_small. lia. Qed.
Lemma utf8_split : forall c s, utf8_ok (String c s) = true -> exists z s', scalar z /\ String c s = utf8_char z ++ s' /\ utf8_ok s' = true.
Proof.
  intros c0 s0 H. cbn [utf8_ok] in H. pose proof (byte_range c0) as R0.
  destruct (Z.ltb_spec (byte c0) 128) as [L|L].
  { exists (byte c0), s0. split; [left; lia|]. split; [|exact H]. unfold utf8_char. destruct (Z.ltb_spec (byte c0) 128); [rewrite chr_byte; reflexivity|lia]. }
  destruct s0 as [|c1 s1]; [discriminate H|]. pose proof (byte_range c1) as R1.
  destruct (within 194 223 c0) eqn:W.
  { apply andb_true_iff in H. destruct H as [H1 H2]. unfold within, cont, within in *.
    exists (64 * (byte c0 - 192) + (byte c1 - 128)), s1. split; [left; lia|]. split; [|exact H2]. unfold utf8_char.
    destruct (Z.ltb_spec (64 * (byte c0 - 192) + (byte c1 - 128)) 128); [lia|].
    destruct (Z.ltb_spec (64 * (byte c0 - 192) + (byte c1 - 128)) 2048); [|lia].
    rewrite div_val, mod_val by lia. replace (192 + (byte c0 - 192)) with (byte c0) by lia. replace (128 + (byte c1 - 128)) with (byte c1) by lia. rewrite !chr_byte. reflexivity. }
  destruct s1 as [|c2 s2]; [discriminate H|]. pose proof (byte_range c2) as R2.
  destruct (within 224 239 c0) eqn:W2.
  { apply andb_true_iff in H. destruct H as [H H3]. apply andb_true_iff in H. destruct H as [H1 H2].
    unfold within, cont, within in *.
    assert (B1 : 128 <= byte c1 <= 191) by (destruct (byte c0 =? 224); [lia|]; destruct (byte c0 =? 237); lia).
    set (z := 64 * (64 * (byte c0 - 224) + (byte c1 - 128)) + (byte c2 - 128)).
    exists z, s2. split; [|split; [|exact H3]].
    { unfold scalar, z. destruct (Z.eqb_spec (byte c0) 224); [lia|]. destruct (Z.eqb_spec (byte c0) 237); lia. }
    assert (Lo : 2048 <= z).
    { unfold z. destruct (Z.eqb_spec (byte c0) 224); [lia|]. destruct (Z.eqb_spec (byte c0) 237); lia. }
    unfold utf8_char. destruct (Z.ltb_spec z 128); [lia|]. destruct (Z.ltb_spec z 2048); [lia|]. destruct (Z.ltb_spec z 65536); [|unfold z in *; lia].
    replace (z / 4096) with (byte c0 - 224).
    2:{ change 4096 with (64 * 64). rewrite <- Z.div_div by lia. unfold z. rewrite !div_val by lia. reflexivity. }
    replace (z / 64) with (64 * (byte c0 - 224) + (byte c1 - 128)) by (unfold z; rewrite div_val by lia; reflexivity).
    rewrite mod_val by lia. unfold z. rewrite mod_val by lia.
    replace (224 + (byte c0 - 224)) with (byte c0) by lia. replace (128 + (byte c1 - 128)) with (byte c1) by lia. replace (128 + (byte c2 - 128)) with (byte c2) by lia. rewrite !chr_byte. reflexivity. }
  destruct s2 as [|c3 s3]; [discriminate H|]. pose proof (byte_range c3) as R3.
  apply andb_true_iff in H. destruct H as [H H5]. apply andb_true_iff in H. destruct H as [H H4]. apply andb_true_iff in H. destruct H as [H H3].
  apply andb_true_iff in H. destruct H as [H1 H2]. unfold within, cont, within in *.
  assert (B1 : 128 <= byte c1 <= 191) by (destruct (byte c0 =? 240); [lia|]; destruct (byte c0 =? 244); lia).
  set (z := 64 * (64 * (64 * (byte c0 - 240) + (byte c1 - 128)) + (byte c2 - 128)) + (byte c3 - 128)).
  assert (Lo : 65536 <= z <= 1114111).
  { unfold z. destruct (Z.eqb_spec (byte c0) 240); [lia|]. destruct (Z.eqb_spec (byte c0) 244); lia. }
  exists z, s3. split; [right; lia|]. split; [|exact H5].
  unfold utf8_char. destruct (Z.ltb_spec z 128); [lia|]. destruct (Z.ltb_spec z 2048); [lia|]. destruct (Z.ltb_spec z 65536); [lia|].
  replace (z / 262144) with (byte c0 - 240).
  2:{ change 262144 with (64 * 64 * 64). rewrite <- !Z.div_div by lia. unfold z. rewrite !div_val by lia. reflexivity. }
  replace (z / 4096) with (64 * (byte c0 - 240) + (byte c1 - 128)).
  2:{ change 4096 with (64 * 64). rewrite <- Z.div_div by lia. unfold z. rewrite !div_val by lia. reflexivity. }
  replace (z / 64) with (64 * (64 * (byte c0 - 240) + (byte c1 - 128)) + (byte c2 - 128)) by (unfold z; rewrite div_val by lia; reflexivity).
  rewrite !mod_val by lia. unfold z. rewrite mod_val by lia.
  replace (240 + (byte c0 - 240)) with (byte c0) by lia. replace (128 + (byte c1 - 128)) with (byte c1) by lia.
  replace (128 + (byte c2 - 128)) with (byte c2) by lia. replace (128 + (byte c3 - 128)) with (byte c3) by lia. rewrite !chr_byte. reflexivity.
Qed.
Lemma utf8_char_length : forall z, (1 <= String.length (utf8_char z))%nat.
Proof. intro z. unfold utf8_char. destruct (z <? 128), (z <? 2048), (z <? 65536); cbn; lia. Qed.
Lemma length_app : forall a b, String.length (a ++ b) = (String.length a + String.length b)%nat.
Proof. induction a as [|c a IH]; intro b; cbn; [reflexivity|]. rewrite IH. reflexivity. Qed.
Lemma utf8_iff : forall s, utf8_ok s = true <-> exists l, Forall scalar l /\ s = utf8 l.
Proof.
  intro s. split.
  - remember (String.length s) as n eqn:E. assert (L : (String.length s <= n)%nat) by lia. clear E. revert s L.
    induction n as [|n IH]; intros s L H.
    + destruct s; [|cbn in L; lia]. exists nil. split; [constructor|reflexivity].
    + destruct s as [|c s]; [exists nil; split; [constructor|reflexivity]|].
      destruct (utf8_split c s H) as (z & s' & Hz & E & H'). pose proof (utf8_char_length z).
      destruct (IH s') as (l & Hl & El).
      { assert (X : String.length (String c s) = String.length (utf8_char z ++ s')) by (rewrite E; reflexivity).
        rewrite length_app in X. lia. }
      { exact H'. }
      exists (z :: l). split; [constructor; assumption|]. cbn [utf8 fold_right]. rewrite E, El. reflexivity.
  - intros (l & Hl & ->). induction Hl as [|z l Hz Hl IH]; [reflexivity|]. cbn [utf8 fold_right]. rewrite utf8_char_ok by exact Hz. exact IH.
Qed.

(** ** The fuzz target *)
Section Target.
Variable cfg : nom_cfg.
Variable pd : parser isodate.
Variable pdt : parser (isodate * isotime).
Hypothesis Fpd : forall s, fine pd s.
Hypothesis Fpdt : forall s, fine pdt s.
Hypothesis Hpd : forall s r d, pd s = Done r d -> isodate_ok d.
Hypothesis Hpdt : forall s r d t, pdt s = Done r (d, t) -> isodate_ok d /\ isotime_ok t.
Lemma fuzz_no_checks : forall now1 now2 s, dt_valid now1 = true -> dt_valid now2 = true -> fuzz_target Wrapping cfg pd pdt now1 now2 s = Ok tt.
Proof.
  intros now1 now2 s H1 H2. unfold fuzz_target. destruct (utf8_ok s); [|reflexivity].
  destruct (parse_never_panics cfg pd pdt Fpd Fpdt Hpd Hpdt now1 now2 s H1 H2) as [[p ->]|[e ->]]; reflexivity.
Qed.
Lemma fuzz_checks : forall now1 now2 s, dt_valid now1 = true -> dt_valid now2 = true ->
  fuzz_target Checked cfg pd pdt now1 now2 s = Ok tt \/ fuzz_target Checked cfg pd pdt now1 now2 s = Panic PArith.
Proof.
  intros now1 now2 s H1 H2. unfold fuzz_target. destruct (utf8_ok s); [|left; reflexivity].
  pose proof (parse_returns cfg pd pdt Fpd Fpdt Hpd Hpdt Checked now1 now2 s H1 H2) as R. unfold returns in R.
  destruct (parse Checked cfg pd pdt now1 now2 s) as [| |p|]; [left; reflexivity|left; reflexivity| |contradiction R].
  right. destruct R as [_ ->]. reflexivity.
Qed.
End Target.
Lemma ascii_ok : forall s, all (fun c => byte c <? 128) s = true -> utf8_ok s = true.
Proof. induction s as [|c s IH]; intro H; [reflexivity|]. cbn [all] in H. apply andb_true_iff in H. destruct H as [H1 H2]. cbn [utf8_ok]. rewrite H1. exact (IH H2). Qed.
Lemma all_imp : forall (f g : ascii -> bool) s, (forall c, f c = true -> g c = true) -> all f s = true -> all g s = true.
Proof. intros f g s H. induction s as [|c s IH]; intro A; [reflexivity|]. cbn [all] in *. apply andb_true_iff in A. destruct A as [A1 A2]. rewrite (H _ A1), (IH A2). reflexivity. Qed.
Lemma digit_ascii : forall c, digit_char c = true -> (byte c <? 128) = true.
Proof. intros [[] [] [] [] [] [] [] []] H; try discriminate H; reflexivity. Qed.
(** The crash a fuzzer finds. *)
Lemma fuzz_crash : forall cfg pd pdt now1 now2 n, i64_max < 7 * decimal n -> digits n -> decimal n <= i64_max ->
  no_iso cfg pd pdt (n ++ " weeks") -> fuzz_target Checked cfg pd pdt now1 now2 (n ++ " weeks") = Panic PArith.
Proof.
  intros cfg pd pdt now1 now2 n H1 H2 H3 H4. unfold fuzz_target. rewrite ascii_ok.
  - rewrite (weeks_overflow cfg pd pdt now1 now2 n H1 H2 H3 H4). reflexivity.
  - rewrite ParserProofs.all_app. rewrite (all_imp digit_char) by (try exact digit_ascii; apply H2). reflexivity.
Qed.
Lemma fuzz_other : forall md cfg pd pdt now1 now2 s, (forall l, Forall scalar l -> s <> utf8 l) -> fuzz_target md cfg pd pdt now1 now2 s = Ok tt.
Proof.
  intros md cfg pd pdt now1 now2 s H. unfold fuzz_target. destruct (utf8_ok s) eqn:E; [|reflexivity].
  apply utf8_iff in E. destruct E as (l & F & ->). elim (H l F eq_refl).
Qed.
