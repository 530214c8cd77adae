(** Proofs about the command line program. *)
Require Import ZArith Bool List String Ascii Lia ZifyBool.
From Verif Require Import Prelude Spec Chrono TimeType Iter SpecTree Nom ParserTimetype ParserIterator ParserMod Show Cli SpecCli.
Import ListNotations.
Local Open Scope string_scope.
Local Open Scope Z_scope.

(** ** Strings *)
Lemma app_assoc : forall a b c : string, (a ++ b) ++ c = a ++ b ++ c.
Proof. induction a; intros; cbn; [reflexivity|]. f_equal. apply IHa. Qed.
Lemma app_nil : forall a : string, a ++ "" = a.
Proof. induction a; cbn; congruence. Qed.
Lemma app_len : forall a b : string, length (a ++ b) = (length a + length b)%nat.
Proof. induction a; intros; cbn; congruence. Qed.

(** ** White space *)
Lemma byte_lt : forall c, 0 <= byte c < 256.
Proof. intros. unfold byte. pose proof (nat_ascii_bounded c). lia. Qed.
Lemma byte_inj : forall c n, byte c = n -> c = ascii_of_nat (Z.to_nat n).
Proof. intros c n <-. unfold byte. rewrite Nat2Z.id. symmetry. apply ascii_nat_embedding. Qed.
Lemma white_cases : forall w, In w white -> (exists a, w = String a "" /\ ws1 a = true) \/
  (exists a b, w = String a (String b "") /\ ws1 a = false /\ ws2 a b = true) \/
  (exists a b c, w = String a (String b (String c "")) /\ ws1 a = false /\ ws2 a b = false /\ ws3 a b c = true).
Proof.
  intros w H. unfold white in H. cbn [In] in H.
  repeat (destruct H as [<-|H]; [first [left; eexists; split; reflexivity|right; left; do 2 eexists; repeat split; reflexivity|
    right; right; do 3 eexists; repeat split; reflexivity]|]). contradiction.
Qed.
Lemma ws1_white : forall a, ws1 a = true -> In (String a "") white.
Proof.
  intros a H. unfold ws1 in H.
  assert (Q : byte a = 9 \/ byte a = 10 \/ byte a = 11 \/ byte a = 12 \/ byte a = 13 \/ byte a = 32) by lia.
  destruct Q as [Q|[Q|[Q|[Q|[Q|Q]]]]]; apply byte_inj in Q; subst a; cbn; tauto.
Qed.
Lemma ws2_white : forall a b, ws2 a b = true -> In (String a (String b "")) white.
Proof.
  intros a b H. unfold ws2 in H. assert (A : byte a = 194) by lia. assert (B : byte b = 133 \/ byte b = 160) by lia.
  apply byte_inj in A. subst a. destruct B as [B|B]; apply byte_inj in B; subst b; cbn; tauto.
Qed.
Lemma ws3_white : forall a b c, ws3 a b c = true -> In (String a (String b (String c ""))) white.
Proof.
  intros a b c H. unfold ws3 in H.
  assert (Q : byte a = 225 /\ byte b = 154 /\ byte c = 128 \/ byte a = 226 /\ byte b = 129 /\ byte c = 159 \/
    byte a = 227 /\ byte b = 128 /\ byte c = 128 \/ byte a = 226 /\ byte b = 128 /\
      (byte c = 128 \/ byte c = 129 \/ byte c = 130 \/ byte c = 131 \/ byte c = 132 \/ byte c = 133 \/ byte c = 134 \/ byte c = 135 \/
       byte c = 136 \/ byte c = 137 \/ byte c = 138 \/ byte c = 168 \/ byte c = 169 \/ byte c = 175)) by lia.
  destruct Q as [(A & B & C)|[(A & B & C)|[(A & B & C)|(A & B & C)]]].
  4: repeat (destruct C as [C|C]).
  all: apply byte_inj in A; apply byte_inj in B; apply byte_inj in C; subst; cbn; tauto.
Qed.

(** One character of white space in front, or none. *)
Lemma start_split : forall s, (exists w r, In w white /\ s = w ++ r /\ trim_start s = trim_start r) \/
  (trim_start s = s /\ forall w r, In w white -> s <> w ++ r).
Proof.
  intros s. destruct s as [|a r1].
  { right. split; [reflexivity|]. intros w r H E. destruct (white_cases w H) as [(a & -> & _)|[(a & b & -> & _)|(a & b & c & -> & _)]]; discriminate E. }
  destruct (ws1 a) eqn:W1.
  { left. exists (String a ""), r1. split; [apply ws1_white; exact W1|]. split; [reflexivity|]. cbn. rewrite W1. reflexivity. }
  destruct r1 as [|b r2].
  { right. cbn. rewrite W1. split; [reflexivity|]. intros w r H E. destruct (white_cases w H) as [(x & -> & Q)|[(x & y & -> & _)|(x & y & c & -> & _)]]; try discriminate E.
    injection E as -> _. congruence. }
  destruct (ws2 a b) eqn:W2.
  { left. exists (String a (String b "")), r2. split; [apply ws2_white; exact W2|]. split; [reflexivity|]. cbn. rewrite W1, W2. reflexivity. }
  destruct r2 as [|c r3].
  { right. cbn. rewrite W1, W2. split; [reflexivity|]. intros w r H E. destruct (white_cases w H) as [(x & -> & Q)|[(x & y & -> & _ & Q)|(x & y & c & -> & _)]]; try discriminate E.
    - injection E as -> _. congruence.
    - injection E as -> -> _. congruence. }
  destruct (ws3 a b c) eqn:W3.
  { left. exists (String a (String b (String c ""))), r3. split; [apply ws3_white; exact W3|]. split; [reflexivity|]. cbn. rewrite W1, W2, W3. reflexivity. }
  right. cbn. rewrite W1, W2, W3. split; [reflexivity|].
  intros w r H E. destruct (white_cases w H) as [(x & -> & Q)|[(x & y & -> & _ & Q)|(x & y & z & -> & _ & _ & Q)]].
  - injection E as -> _. congruence.
  - injection E as -> -> _. congruence.
  - injection E as -> -> -> _. congruence.
Qed.
Lemma start_white : forall w s, In w white -> trim_start (w ++ s) = trim_start s.
Proof.
  intros w s H. destruct (white_cases w H) as [(a & -> & Q)|[(a & b & -> & Q1 & Q2)|(a & b & c & -> & Q1 & Q2 & Q3)]]; cbn.
  - rewrite Q. reflexivity.
  - rewrite Q1, Q2. reflexivity.
  - rewrite Q1, Q2, Q3. reflexivity.
Qed.
Lemma white_len : forall w, In w white -> (0 < length w)%nat.
Proof. intros w H. destruct (white_cases w H) as [(a & -> & _)|[(a & b & -> & _)|(a & b & c & -> & _)]]; cbn; lia. Qed.
Lemma start_spaces : forall w s, spaces w -> trim_start (w ++ s) = trim_start s.
Proof. intros w s H. induction H as [|w' r Hw H IH]; [reflexivity|]. rewrite app_assoc, start_white by exact Hw. exact IH. Qed.
Lemma start_spec : forall n s, (length s <= n)%nat -> exists w, spaces w /\ s = w ++ trim_start s /\ forall x r, In x white -> trim_start s <> x ++ r.
Proof.
  induction n as [|n IH]; intros s Hn; (destruct (start_split s) as [(w & r & Hw & E & T)|[T N]]).
  - pose proof (white_len w Hw). subst s. rewrite app_len in Hn. lia.
  - exists "". split; [constructor|]. rewrite T. split; [reflexivity|exact N].
  - pose proof (white_len w Hw). assert (L : (length r <= n)%nat) by (subst s; rewrite app_len in Hn; lia).
    destruct (IH r L) as (w' & Hs & E' & N). exists (w ++ w'). rewrite T. split; [constructor; assumption|]. split; [|exact N].
    rewrite app_assoc, <- E'. exact E.
  - exists "". split; [constructor|]. rewrite T. split; [reflexivity|exact N].
Qed.
Lemma spaces_empty : forall s, trim_start s = "" <-> spaces s.
Proof.
  intros s. split; intro H.
  - destruct (start_spec _ s (le_n _)) as (w & Hw & E & _). rewrite H, app_nil in E. subst s. exact Hw.
  - pose proof (start_spaces s "" H) as E. rewrite app_nil in E. exact E.
Qed.
Lemma spaces_app : forall a b, spaces a -> spaces b -> spaces (a ++ b).
Proof. intros a b H Hb. induction H; [exact Hb|]. rewrite app_assoc. constructor; assumption. Qed.

(** White space cannot begin inside a text and end after it. *)
Lemma white_first : forall w, In w white -> exists a r, w = String a r /\ (byte a < 128 \/ 193 < byte a) /\
  forall b r', r = String b r' -> 127 < byte b < 161.
Proof.
  intros w H. unfold white in H. cbn [In] in H.
  repeat (destruct H as [<-|H]; [eexists; eexists; split; [reflexivity|]; split; [vm_compute; first [left; reflexivity|right; reflexivity]|intros b r' E; (discriminate E || (injection E as <- _; split; vm_compute; reflexivity))]|]).
  contradiction.
Qed.
Lemma white_rest : forall w, In w white -> forall a u v, w = String a (u ++ v) -> v <> "" -> forall x r y q, In x white -> v ++ q <> x ++ r ++ y.
Proof.
  intros w H a u v E N x r y q Hx F. destruct v as [|b v]; [congruence|]. clear N.
  destruct (white_first x Hx) as (c & z & -> & C & _). injection F as -> _.
  destruct (white_cases w H) as [(a1 & -> & _)|[(a1 & b1 & -> & _ & Q)|(a1 & b1 & c1 & -> & _ & _ & Q)]].
  - destruct u; discriminate E.
  - destruct u as [|u1 u]; [injection E as -> -> _; unfold ws2 in Q; lia|destruct u; discriminate E].
  - destruct u as [|u1 [|u2 u]]; [injection E as -> -> _|injection E as -> -> -> _|destruct u; discriminate E]; unfold ws3 in Q; lia.
Qed.
Lemma start_app : forall n s w, (length s <= n)%nat -> spaces w -> trim_start s <> "" -> trim_start (s ++ w) = trim_start s ++ w.
Proof.
  intros n s w _ Hw N. destruct (start_spec _ s (le_n _)) as (w' & Hw' & E & F). rewrite E at 1. rewrite app_assoc, start_spaces by exact Hw'.
  set (t := trim_start s) in *. clearbody t. clear E Hw' w' s n.
  destruct (start_split (t ++ w)) as [(x & r & Hx & E & _)|[T _]]; [|exact T]. exfalso.
  destruct Hw as [|y w Hy Hw]. { rewrite app_nil in E. exact (F _ _ Hx E). }
  assert (Q : exists v, v <> "" /\ exists u, x = t ++ v /\ v ++ r = y ++ w /\ u = t).
  { clear N. revert x Hx E F. generalize (y ++ w). intros q x Hx E F.
    assert (P : (exists z, t = x ++ z) \/ exists v, v <> "" /\ x = t ++ v /\ v ++ r = q).
    { clear F Hx. revert x E. induction t as [|c t IH]; intros x E.
      - destruct x as [|c x]; [left; exists ""; reflexivity|]. right. exists (String c x). split; [discriminate|]. split; [reflexivity|]. symmetry. exact E.
      - destruct x as [|d x]; [left; exists (String c t); reflexivity|]. cbn in E. injection E as -> E. destruct (IH x E) as [[z ->]|(v & V & -> & R)].
        + left. exists z. reflexivity.
        + right. exists v. split; [exact V|]. split; [reflexivity|exact R]. }
    destruct P as [[z ->]|(v & V & -> & R)]; [exfalso; exact (F x z Hx eq_refl)|]. exists v. split; [exact V|]. exists t. auto. }
  destruct Q as (v & V & u & Ex & Er & _). destruct t as [|a t]; [congruence|].
  apply (white_rest x Hx a t v Ex V y "" w r Hy). rewrite Er. reflexivity.
Qed.
Lemma end_nil : trim_end "" = "". Proof. reflexivity. Qed.
Lemma end_cons : forall a r, trim_end (String a r) = match trim_start (String a r) with "" => "" | _ => String a (trim_end r) end.
Proof. reflexivity. Qed.
Lemma end_spaces : forall w, spaces w -> trim_end w = "".
Proof. intros w H. apply spaces_empty in H. destruct w; [reflexivity|]. rewrite end_cons, H. reflexivity. Qed.
Lemma end_app : forall s w, spaces w -> trim_end (s ++ w) = trim_end s.
Proof.
  induction s as [|a s IH]; intros w H; [apply end_spaces; exact H|]. cbn [append]. rewrite !end_cons.
  destruct (trim_start (String a s)) eqn:E.
  - apply spaces_empty in E. pose proof (spaces_app _ _ E H) as K. apply spaces_empty in K. cbn [append] in K. rewrite K. reflexivity.
  - pose proof (start_app _ (String a s) w (le_n _) H ltac:(congruence)) as K. cbn [append] in K. rewrite K, E. cbn [append]. rewrite IH by exact H. reflexivity.
Qed.
Lemma end_spec : forall s, exists w, spaces w /\ s = trim_end s ++ w /\ forall x r, In x white -> trim_end s <> r ++ x.
Proof.
  induction s as [|a s (w & Hw & E & F)].
  - exists "". split; [constructor|]. split; [reflexivity|]. intros x r H K. pose proof (white_len x H). cbn in K.
    apply (f_equal length) in K. rewrite app_len in K. cbn in K. lia.
  - rewrite end_cons. destruct (trim_start (String a s)) eqn:T.
    + exists (String a s). split; [apply spaces_empty; exact T|]. split; [reflexivity|]. intros x r H K. pose proof (white_len x H).
      apply (f_equal length) in K. rewrite app_len in K. cbn in K. lia.
    + exists w. split; [exact Hw|]. split; [cbn; congruence|]. intros x r H K. destruct r as [|c r].
      * cbn in K. assert (Sp : spaces (String a s)).
        { rewrite E. change (spaces (String a (trim_end s) ++ w)). rewrite K. constructor; assumption. }
        apply spaces_empty in Sp. congruence.
      * cbn in K. injection K as _ K. exact (F x r H K).
Qed.
Lemma trim_left : forall w s, spaces w -> trim (w ++ s) = trim s.
Proof. intros w s H. unfold trim. rewrite start_spaces by exact H. reflexivity. Qed.
Lemma trim_right : forall w s, spaces w -> trim (s ++ w) = trim s.
Proof.
  intros w s H. unfold trim. destruct (trim_start s) eqn:E.
  - apply spaces_empty in E. pose proof (spaces_app _ _ E H) as K. apply spaces_empty in K. rewrite K. reflexivity.
  - rewrite <- E. rewrite (start_app _ s w (le_n _) H) by congruence. apply end_app. exact H.
Qed.
Lemma trim_spec : forall s, exists w1 w2, spaces w1 /\ spaces w2 /\ s = w1 ++ trim s ++ w2 /\ solid (trim s).
Proof.
  intros s. unfold trim. destruct (start_spec _ s (le_n _)) as (w1 & H1 & E1 & F1). destruct (end_spec (trim_start s)) as (w2 & H2 & E2 & F2).
  exists w1, w2. split; [exact H1|]. split; [exact H2|]. split; [rewrite <- E2; exact E1|]. split; [|intros w r Hw; apply F2; exact Hw].
  intros w r Hw K. apply (F1 w (r ++ w2) Hw). rewrite E2, K, app_assoc. reflexivity.
Qed.
Lemma trim_solid : forall s, solid s -> trim s = s.
Proof.
  intros s [A B]. unfold trim. destruct (start_split s) as [(w & r & Hw & E & _)|[-> _]]; [exfalso; exact (A w r Hw E)|].
  clear A. induction s as [|a s IH]; [reflexivity|]. rewrite end_cons. rewrite IH.
  - destruct (trim_start (String a s)) eqn:T; [|reflexivity]. exfalso. apply spaces_empty in T. remember (String a s) as q eqn:Eq. clear IH.
    assert (N : q <> "") by (subst; discriminate). clear Eq a s.
    induction T as [|w s Hw T IH]; [congruence|]. destruct s as [|b s]; [apply (B w "" Hw); rewrite app_nil; reflexivity|].
    apply IH; [|discriminate]. intros x r Hx K. apply (B x (w ++ r) Hx). rewrite app_assoc, <- K. reflexivity.
  - intros w r Hw K. apply (B w (String a r) Hw). cbn. congruence.
Qed.
Lemma trim_around : forall w1 s w2, spaces w1 -> spaces w2 -> solid s -> trim (w1 ++ s ++ w2) = s.
Proof. intros w1 s w2 H1 H2 Hs. rewrite trim_left by exact H1. rewrite trim_right by exact H2. apply trim_solid. exact Hs. Qed.

(** ** Arguments *)
Lemma join_from : forall args acc, fold_left (fun acc obj => acc ++ " " ++ obj) args acc = acc ++ join args.
Proof.
  unfold join. induction args as [|a args IH]; intros acc; cbn [fold_left]; [rewrite app_nil; reflexivity|].
  rewrite IH. rewrite (IH ("" ++ " " ++ a)). rewrite !app_assoc. reflexivity.
Qed.
Lemma join_cons : forall a args, join (a :: args) = " " ++ a ++ join args.
Proof. intros. unfold join at 1. cbn [fold_left]. rewrite join_from. cbn [append]. reflexivity. Qed.
Lemma join_concat : forall args, args <> [] -> join args = " " ++ concat " " args.
Proof.
  induction args as [|a args IH]; intro N; [congruence|]. rewrite join_cons. destruct args as [|b args]; [cbn [concat]; unfold join; cbn [fold_left]; rewrite app_nil; reflexivity|].
  rewrite IH by discriminate. reflexivity.
Qed.
Lemma blank_space : spaces " ".
Proof. apply (SP_cons " " ""); [cbn; tauto|constructor]. Qed.
Lemma trim_join : forall args, trim (join args) = trim (concat " " args).
Proof. intros [|a args]; [reflexivity|]. rewrite join_concat by discriminate. apply trim_left. exact blank_space. Qed.
