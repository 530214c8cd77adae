(** The two build modes: a computation without overflow checks gives what the one with checks gives,
    unless the latter panics because of an overflow. *)
Require Import ZArith Bool List String Lia.
From Verif Require Import Prelude Chrono Util TimeType Matcher Iter Nom ParserTimetype ParserIterator ParserMod SpecTree SpecMoment SpecIter SpecMode IterProofs.
Import ListNotations.
Local Open Scope Z_scope.

Lemma ag_refl : forall E A (x : outcome E A), agree x x.
Proof. right. reflexivity. Qed.
Lemma ag_bind : forall E A B (x y : outcome E A) (f g : A -> outcome E B),
  agree x y -> (forall a, agree (f a) (g a)) -> agree (bind x f) (bind y g).
Proof. intros E A B x y f g [->| ->] H; [left; reflexivity|]. destruct x; cbn [bind]; try apply ag_refl. apply H. Qed.
Lemma ag_arith : forall E z, agree (@arith E Checked z) (arith Wrapping z).
Proof. intros E z. unfold arith. destruct (in_i64 z); [right|left]; reflexivity. Qed.
Lemma ag_addc : forall E x x' y y', agree x x' -> agree y y' -> agree (@addc E Checked x y) (addc Wrapping x' y').
Proof. intros. unfold addc. apply ag_bind; [assumption|]. intro a. apply ag_bind; [assumption|]. intro b. apply ag_arith. Qed.
Lemma ag_subc : forall E x x' y y', agree x x' -> agree y y' -> agree (@subc E Checked x y) (subc Wrapping x' y').
Proof. intros. unfold subc. apply ag_bind; [assumption|]. intro a. apply ag_bind; [assumption|]. intro b. apply ag_arith. Qed.
Lemma ag_mulc : forall E x x' k, agree x x' -> agree (@mulc E Checked x k) (mulc Wrapping x' k).
Proof. intros. unfold mulc. apply ag_bind; [assumption|]. intro a. apply ag_arith. Qed.
Lemma ag_absc : forall E x x', agree x x' -> agree (@absc E Checked x) (absc Wrapping x').
Proof. intros. unfold absc. apply ag_bind; [assumption|]. intro a. apply ag_arith. Qed.
Lemma ag_divc : forall E x x' k, agree x x' -> agree (@divc E x k) (divc x' k).
Proof. intros. unfold divc. apply ag_bind; [assumption|]. intro a. apply ag_refl. Qed.
Lemma ag_remc : forall E x x' k, agree x x' -> agree (@remc E x k) (remc x' k).
Proof. intros. unfold remc. apply ag_bind; [assumption|]. intro a. apply ag_refl. Qed.

Lemma iter_pos_agree : forall E S p (b1 b2 : S -> S + outcome E S),
  (forall s, b1 s = inr (Panic PArith) \/ b2 s = b1 s) ->
  forall s, iter_pos p b1 s = inr (Panic PArith) \/ iter_pos p b2 s = iter_pos p b1 s.
Proof.
  intros E S p b1 b2 H. induction p as [p IH|p IH|]; intro s; cbn [iter_pos].
  - destruct (H s) as [-> | ->]; [left; reflexivity|]. destruct (b1 s) as [s'|r]; [|right; reflexivity].
    destruct (IH s') as [-> | ->]; [left; reflexivity|]. destruct (iter_pos p b1 s') as [s''|r]; [apply IH|right; reflexivity].
  - destruct (IH s) as [-> | ->]; [left; reflexivity|]. destruct (iter_pos p b1 s) as [s''|r]; [apply IH|right; reflexivity].
  - apply H.
Qed.
Lemma ag_while : forall E S (c : S -> bool) (f g : S -> outcome E S) s, (forall s, agree (f s) (g s)) -> agree (while c f s) (while c g s).
Proof.
  intros E S c f g s H. unfold while.
  match goal with |- agree (match iter_pos _ ?b1 _ with _ => _ end) (match iter_pos _ ?b2 _ with _ => _ end) =>
    destruct (iter_pos_agree E S loop_fuel b1 b2) with (s := s) as [Q|Q] end.
  - intro t. destruct (c t); [|right; reflexivity]. destruct (H t) as [-> | ->]; [left|right]; reflexivity.
  - rewrite Q. left. reflexivity.
  - rewrite Q. apply ag_refl.
Qed.

Create HintDb ag.
#[export] Hint Resolve ag_refl ag_arith ag_addc ag_subc ag_mulc ag_absc ag_divc ag_remc : ag.
Ltac ag := repeat first [apply ag_refl | apply ag_addc | apply ag_subc | apply ag_mulc | apply ag_absc | apply ag_divc | apply ag_remc | apply ag_bind; [|intro] | progress intros].

Lemma ag_fix : forall E b k n, agree (@fix_carry E Checked b k n) (fix_carry Wrapping b k n).
Proof. intros. unfold fix_carry. ag. Qed.
Lemma ag_borrow : forall E l d t n b, agree (@borrow E Checked l d t n b) (borrow Wrapping l d t n b).
Proof. intros. unfold borrow. destruct (b <? l); ag. Qed.
Lemma ag_month_loop : forall E y d mo, agree (@month_loop E Checked y d mo) (month_loop Wrapping y d mo).
Proof. intros. unfold month_loop. apply ag_while. intros [a b]. ag. Qed.
Lemma ag_year_loop : forall E y mo, agree (@year_loop E Checked y mo) (year_loop Wrapping y mo).
Proof. intros. unfold year_loop. apply ag_while. intros [a b]. ag. Qed.
Lemma ag_adjust_add : forall E y mo d h mi s, agree (@adjust_times_add E Checked y mo d h mi s) (adjust_times_add Wrapping y mo d h mi s).
Proof.
  intros. unfold adjust_times_add. apply ag_bind; [apply ag_fix|]. intros [? ?]. apply ag_bind; [apply ag_fix|]. intros [? ?].
  apply ag_bind; [apply ag_fix|]. intros [? ?]. apply ag_bind; [apply ag_month_loop|]. intros [? ?]. apply ag_bind; [apply ag_year_loop|]. intros [? ?]. apply ag_refl.
Qed.
Lemma ag_adjust_sub : forall E y mo d h mi s, agree (@adjust_times_sub E Checked y mo d h mi s) (adjust_times_sub Wrapping y mo d h mi s).
Proof.
  intros. unfold adjust_times_sub. do 5 (apply ag_bind; [apply ag_borrow|]; intros [? ?]). apply ag_refl.
Qed.

Ltac agr H := repeat first [apply H | apply ag_refl | apply ag_adjust_add | apply ag_adjust_sub | apply ag_addc | apply ag_subc | apply ag_mulc | apply ag_bind; [|intro]].
Lemma ag_body : forall r1 r2 c, (forall c, agree (r1 c) (r2 c)) -> agree (body Checked r1 c) (body Wrapping r2 c).
Proof.
  intros r1 r2 c H. destruct c as [t|a b|a b|t|t|t|t|t|n t|n t|n t|n t|n t|n t|m t|n t|n t|n t|n t|n t|n t|m t]; cbn [body].
  - destruct t; cbn [do_calculate]; agr H.
  - destruct a, b; cbn [add]; agr H.
  - destruct a, b; cbn [sub]; agr H.
  - unfold end_of_year. agr H. destruct a; agr H.
  - unfold end_of_month. agr H. destruct a; agr H.
  - unfold end_of_day. agr H. destruct a; agr H.
  - unfold end_of_hour. agr H. destruct a; agr H.
  - unfold end_of_minute. agr H. destruct a; agr H.
  - destruct t; cbn [add_to_seconds]; agr H.
  - destruct t; cbn [add_to_minutes]; agr H.
  - destruct t; cbn [add_to_hours]; agr H.
  - destruct t; cbn [add_to_days]; agr H.
  - destruct t; cbn [add_to_months]; agr H.
  - destruct t; cbn [add_to_years]; agr H.
  - destruct t; cbn [add_to_moment]; agr H.
  - destruct t; cbn [sub_from_seconds]; agr H.
  - destruct t; cbn [sub_from_minutes]; agr H.
  - destruct t; cbn [sub_from_hours]; agr H.
  - destruct t; cbn [sub_from_days]; agr H.
  - destruct t; cbn [sub_from_months]; agr H.
  - destruct t; cbn [sub_from_years]; agr H.
  - destruct t; cbn [sub_from_moment]; agr H.
Qed.
Lemma ag_run : forall n c, agree (run Checked n c) (run Wrapping n c).
Proof. induction n as [|n IH]; intro c; cbn [run]; [apply ag_refl|]. apply ag_body. exact IH. Qed.
Lemma ag_calculate : forall t, agree (calculate Checked t) (calculate Wrapping t).
Proof. intro t. apply ag_run. Qed.
Lemma ag_getters : forall t, agree (get_seconds Checked t) (get_seconds Wrapping t) /\ agree (get_minutes Checked t) (get_minutes Wrapping t) /\
  agree (get_hours Checked t) (get_hours Wrapping t) /\ agree (get_days Checked t) (get_days Wrapping t) /\ agree (get_months Checked t) (get_months Wrapping t).
Proof. intro t. repeat split; destruct t; cbn [get_seconds get_minutes get_hours get_days get_months]; ag. Qed.

(** Iterators *)
Lemma ag_skip : forall it, fst (skip Checked it) = Panic PArith \/ skip Wrapping it = skip Checked it.
Proof.
  intro it. unfold skip, recalculate. cbn [base increment had_first].
  destruct (ag_calculate (op_add_assign (base it) (increment it))) as [Q|Q]; [left|right]; rewrite Q; reflexivity.
Qed.
Lemma ag_rollback : forall it, fst (rollback Checked it) = Panic PArith \/ rollback Wrapping it = rollback Checked it.
Proof.
  intro it. unfold rollback, recalculate. cbn [base increment had_first].
  destruct (ag_calculate (op_sub_assign (base it) (increment it))) as [Q|Q]; [left|right]; rewrite Q; reflexivity.
Qed.
Lemma ag_iter_next : agree_next (iter_next Checked) (iter_next Wrapping).
Proof.
  intro it. unfold iter_next. destruct (negb (had_first it)); [right; reflexivity|].
  destruct (ag_skip it) as [Q|Q]; [left|right].
  - destruct (skip Checked it) as [r it']; cbn [fst] in Q; subst r. reflexivity.
  - rewrite Q. reflexivity.
Qed.
Lemma ag_items : forall S (n1 n2 : next_fn S), agree_next n1 n2 -> forall k s,
  (exists j, (j <= k)%nat /\ nth_item n1 j s = Some (Panic PArith)) \/ nth_item n2 k s = nth_item n1 k s /\ after n2 k s = after n1 k s.
Proof.
  intros S n1 n2 H. induction k as [|k IH]; intro s.
  - unfold nth_item. cbn [after]. destruct (H s) as [Q|Q]; [left; exists O; split; [lia|exact Q]|right; rewrite Q; split; reflexivity].
  - destruct (IH s) as [(j & Hj & Q)|[_ Q]]; [left; exists j; split; [lia|exact Q]|].
    destruct (H (after n1 k s)) as [P|P].
    + left. exists k. split; [lia|]. exact P.
    + assert (A : after n2 (Datatypes.S k) s = after n1 (Datatypes.S k) s) by (rewrite !after_S; rewrite Q, P; reflexivity).
      destruct (H (after n1 (Datatypes.S k) s)) as [P'|P'].
      * left. exists (Datatypes.S k). split; [lia|exact P'].
      * right. split; [|exact A]. unfold nth_item. rewrite A, P'. reflexivity.
Qed.

Lemma ag_times : forall S (n1 n2 : next_fn S), agree_next n1 n2 -> agree_next (times_next Checked n1) (times_next Wrapping n2).
Proof.
  intros S n1 n2 H t. unfold times_next. destruct (times t =? count t); [right; reflexivity|].
  destruct (ag_addc kek (Ok (count t)) (Ok (count t)) (Ok 1) (Ok 1) (ag_refl _ _ _) (ag_refl _ _ _)) as [-> | ->]; [left; reflexivity|].
  destruct (addc Checked (Ok (count t)) (Ok 1)) as [c|e|p|]; try (right; reflexivity).
  destruct (H (inner t)) as [Q|Q]; [left|right].
  - destruct (n1 (inner t)) as [r i']. cbn [fst] in *. exact Q.
  - rewrite Q. reflexivity.
Qed.
Lemma ag_until : forall S (n1 n2 : next_fn S) e, agree_next n1 n2 -> agree_next (until_next Checked n1 e) (until_next Wrapping n2 e).
Proof.
  intros S n1 n2 e H s. unfold until_next. destruct (H s) as [Q|Q].
  - left. destruct (n1 s) as [r s']. cbn [fst] in Q. subst r. reflexivity.
  - rewrite Q. destruct (n1 s) as [[[t|er|p|]|] s']; try (right; reflexivity).
    destruct (ag_calculate t) as [P|P]; rewrite P; [left|right]; reflexivity.
Qed.
Lemma ag_filter : forall S (n1 n2 : next_fn S) m fuel, agree_next n1 n2 -> agree_next (filter_next n1 fuel m) (filter_next n2 fuel m).
Proof.
  intros S n1 n2 m fuel H. induction fuel as [|fuel IH]; intro s; cbn [filter_next]; [right; reflexivity|]. destruct (H s) as [Q|Q].
  - left. destruct (n1 s) as [r s']. cbn [fst] in Q. subst r. reflexivity.
  - rewrite Q. destruct (n1 s) as [[[t|er|p|]|] s']; try (right; reflexivity). destruct (m t) as [[]|er|p|]; try (right; reflexivity). apply IH.
Qed.
Lemma ag_without : forall S (n1 n2 : next_fn S) m fuel, agree_next n1 n2 -> agree_next (without_next n1 fuel m) (without_next n2 fuel m).
Proof.
  intros S n1 n2 m fuel H. induction fuel as [|fuel IH]; intro s; cbn [without_next]; [right; reflexivity|]. destruct (H s) as [Q|Q].
  - left. destruct (n1 s) as [r s']. cbn [fst] in Q. subst r. reflexivity.
  - rewrite Q. destruct (n1 s) as [[[t|er|p|]|] s']; try (right; reflexivity). destruct (m t) as [[]|er|p|]; try (right; reflexivity). apply IH.
Qed.
Lemma ag_weekly : forall t n, agree (weekly Checked t n) (weekly Wrapping t n).
Proof. intros t n. destruct t; cbn [weekly]; ag. Qed.

(** Parsing *)
Lemma ag_weeks : forall n, agree (weeks Checked n) (weeks Wrapping n).
Proof. intro n. unfold weeks. ag. Qed.
Lemma ag_amount : forall a, agree (amount_into Checked a) (amount_into Wrapping a).
Proof. intros [n u]. destruct u; cbn [amount_into]; try apply ag_refl. apply ag_weeks. Qed.
Lemma ag_amountexpr : forall e, agree (amountexpr_into Checked e) (amountexpr_into Wrapping e).
Proof.
  induction e as [a|a op e IH]; cbn [amountexpr_into]; [apply ag_amount|].
  apply ag_bind; [apply ag_amount|]. intro x. apply ag_bind; [exact IH|]. intro y. destruct op; apply ag_refl.
Qed.
Lemma ag_exact : forall now e, agree (exactdate_into Checked now e) (exactdate_into Wrapping now e).
Proof.
  intros now e. destruct e as [| | |d|d t]; cbn [exactdate_into]; try apply ag_refl;
    destruct d; repeat first [apply ag_refl | apply ag_weeks | apply ag_bind; [|intro]].
Qed.
Lemma ag_date : forall now d, agree (date_into Checked now d) (date_into Wrapping now d).
Proof.
  intros now [e o]. cbn [date_into]. apply ag_bind; [apply ag_exact|]. intro b. destruct o as [[[] a]|]; [| |apply ag_refl];
    (apply ag_bind; [apply ag_amountexpr|]; intro; apply ag_refl).
Qed.
Lemma ag_ndt : forall e, agree (into_ndt Checked e) (into_ndt Wrapping e).
Proof. intro e. unfold into_ndt. apply ag_bind; [apply ag_calculate|]. intro. apply ag_refl. Qed.
Lemma ag_recur : forall s, agree (recur_of Checked s) (recur_of Wrapping s).
Proof. intro s. destruct s; cbn [recur_of]; try (destruct u); cbn [unit_to_amount]; first [apply ag_refl | apply ag_weeks]. Qed.
Lemma ag_user : forall n1 n2 it, agree (into_user_iterator Checked n1 n2 it) (into_user_iterator Wrapping n1 n2 it).
Proof.
  intros n1 n2 [d s u]. cbn [into_user_iterator]. apply ag_bind; [apply ag_recur|]. intro r.
  destruct u as [[e|n]|]; repeat first [apply ag_refl | apply ag_date | apply ag_exact | apply ag_ndt | apply ag_bind; [|intro]].
Qed.
Lemma ag_parse : forall cfg pd pdt now1 now2 s, agree (parse Checked cfg pd pdt now1 now2 s) (parse Wrapping cfg pd pdt now1 now2 s).
Proof.
  intros cfg pd pdt now1 now2 s. unfold parse, do_parse, alt_c, alt, complete, pbind, pret.
  assert (A : forall it, agree (lower_iterator Checked now1 now2 it) (lower_iterator Wrapping now1 now2 it)).
  { intro it. unfold lower_iterator. destruct (ag_user now1 now2 it) as [-> | ->]; [left; reflexivity|apply ag_refl]. }
  assert (B : forall t, agree (lower_timetype Checked now1 t) (lower_timetype Wrapping now1 t)).
  { intro t. unfold lower_timetype. apply ag_bind; [|intro; apply ag_refl]. destruct t as [d|a]; cbn [ptimetype_into]; [apply ag_date|apply ag_amountexpr]. }
  destruct (iterator cfg pd pdt s) as [r it| | |]; try apply ag_refl; [apply A| |];
    unfold alt_last; destruct (last_complete cfg); unfold complete; destruct (timetype_parser cfg pd pdt s) as [r t| | |]; try apply ag_refl; apply B.
Qed.
Lemma ag_user_next : agree_next (user_next Checked) (user_next Wrapping).
Proof.
  intro u. destruct u as [i|t|i en]; cbn [user_next].
  - destruct (ag_iter_next i) as [Q|Q]; [left|right; rewrite Q; reflexivity]. destruct (iter_next Checked i) as [r i']. exact Q.
  - destruct (ag_times _ _ _ ag_iter_next t) as [Q|Q]; [left|right; rewrite Q; reflexivity]. destruct (times_next Checked (iter_next Checked) t) as [r i']. exact Q.
  - destruct (ag_until _ _ _ en ag_iter_next i) as [Q|Q]; [left|right; rewrite Q; reflexivity]. destruct (until_next Checked (iter_next Checked) en i) as [r i']. exact Q.
Qed.
Lemma ag_nth : forall S (n1 n2 : next_fn S), agree_next n1 n2 -> forall k s, agree_item n1 n2 k s.
Proof. intros S n1 n2 H k s. destruct (ag_items S n1 n2 H k s) as [Q|[Q _]]; [left|right]; exact Q. Qed.
