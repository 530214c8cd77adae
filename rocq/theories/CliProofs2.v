(** Proofs about the command line program: what it prints and how it ends. *)
Require Import ZArith Bool List String Ascii Lia ZifyBool.
From Verif Require Import Prelude Spec Chrono TimeType Iter SpecTree SpecMoment SpecIter SpecAdapt Nom ParserTimetype ParserIterator ParserMod SpecText Show Cli SpecCli
  PreludeProofs EvalProofs ShapeProofs IterProofs LowerProofs ParserProofs3 CliProofs.
Import ListNotations.
Local Open Scope string_scope.
Local Open Scope Z_scope.

(** Values are printed as such. *)
Definition value_line (x : line) : Prop := exists s, x = Value s.
Lemma print_value : forall v, is_value v = true -> value_line (pretty_print v).
Proof. intros [] H; try discriminate H; eexists; reflexivity. Qed.

Section Main.
Variables (cfg : nom_cfg) (pd : parser isodate) (pdt : parser (isodate * isotime)) (md : mode) (now1 now2 : datetime).
Notation main := (main md cfg pd pdt now1 now2).
Notation parse := (parse md cfg pd pdt now1 now2).

Lemma main_concat : forall n args, main n args = main n [concat " " args].
Proof. intros n args. unfold Cli.main. rewrite !trim_join. reflexivity. Qed.
Lemma main_white : forall n w1 s w2, spaces w1 -> spaces w2 -> main n [w1 ++ s ++ w2] = main n [s].
Proof. intros n w1 s w2 H1 H2. unfold Cli.main. rewrite !trim_join. cbn [concat]. rewrite trim_left, trim_right by assumption. reflexivity. Qed.

(** Exit status. *)
Lemma items_status : forall n ui, snd (print_items md n ui) = Exits 1 <->
  exists k e, (k < n)%nat /\ nth_item (user_next md) k ui = Some (Err e) /\ forall j, (j < k)%nat -> exists v, nth_item (user_next md) j ui = Some (Ok v).
Proof.
  induction n as [|n IH]; intro ui; cbn [print_items].
  - split; [discriminate|]. intros (k & e & K & _). lia.
  - destruct (user_next md ui) as [[[v|e|p|]|] ui'] eqn:E.
    + destruct (print_items md n ui') as [l en] eqn:P. cbn [snd]. specialize (IH ui'). rewrite P in IH. cbn [snd] in IH. rewrite IH.
      assert (N : forall k, nth_item (user_next md) (S k) ui = nth_item (user_next md) k ui') by (intro k; unfold nth_item; cbn [after]; rewrite E; reflexivity).
      split; intros (k & e & K & H & J).
      * exists (S k), e. split; [lia|]. rewrite N. split; [exact H|]. intros [|j] Hj; [exists v; unfold nth_item; cbn [after]; rewrite E; reflexivity|]. rewrite N. apply J. lia.
      * destruct k as [|k]; [unfold nth_item in H; cbn [after] in H; rewrite E in H; discriminate H|]. exists k, e. split; [lia|]. rewrite <- N. split; [exact H|].
        intros j Hj. rewrite <- N. apply J. lia.
    + cbn [snd]. split; [|reflexivity]. intros _. exists 0%nat, e. split; [lia|]. split; [unfold nth_item; cbn [after]; rewrite E; reflexivity|]. intros j Hj. lia.
    + cbn [snd]. split; [discriminate|]. intros (k & e & K & H & J). assert (Z : nth_item (user_next md) 0 ui = Some (Panic p)) by (unfold nth_item; cbn [after]; rewrite E; reflexivity).
      destruct k; [congruence|]. destruct (J 0%nat ltac:(lia)). congruence.
    + cbn [snd]. split; [discriminate|]. intros (k & e & K & H & J). assert (Z : nth_item (user_next md) 0 ui = Some OutOfFuel) by (unfold nth_item; cbn [after]; rewrite E; reflexivity).
      destruct k; [congruence|]. destruct (J 0%nat ltac:(lia)). congruence.
    + cbn [snd]. split; [discriminate|]. intros (k & e & K & H & J). assert (Z : nth_item (user_next md) 0 ui = None) by (unfold nth_item; cbn [after]; rewrite E; reflexivity).
      destruct k; [congruence|]. destruct (J 0%nat ltac:(lia)). congruence.
Qed.
Lemma main_status : forall n args, snd (main n args) = Exits 1 <->
  exists ui k e, parse (trim (join args)) = Ok (PIterator (Ok ui)) /\ (k < n)%nat /\ nth_item (user_next md) k ui = Some (Err e) /\
    forall j, (j < k)%nat -> exists v, nth_item (user_next md) j ui = Some (Ok v).
Proof.
  intros n args. unfold Cli.main. destruct (parse (trim (join args))) as [[[ui|err|p|]|t]|err|p|] eqn:P;
    try (cbn [snd]; split; [discriminate|intros (ui' & k & e & H & _); discriminate H]).
  - rewrite items_status. split; [intros (k & e & H); exists ui, k, e; auto|]. intros (ui' & k & e & [= <-] & H). exists k, e. exact H.
  - assert (K : snd match calculate md t with Ok r => ([pretty_print r], Exits 0) | Err e => ([CalcError e], Exits 0) | Panic p => ([], Panics p) | OutOfFuel => ([], Stuck) end <> Exits 1).
    { destruct (calculate md t); discriminate. }
    split; [intro H; contradiction (K H)|intros (ui' & k & e & H & _); discriminate H].
Qed.

(** Parsed iterators have an evaluated base. *)
Definition base_value (ui : useriterator) : Prop :=
  match ui with
  | UIIterator i | UIUntil i _ => is_value (base i) = true
  | UITimes t => is_value (base (inner t)) = true
  end.
Lemma parsed_user : forall s ui, parse s = Ok (PIterator (Ok ui)) -> exists it, into_user_iterator md now1 now2 it = Ok ui.
Proof.
  intros s ui H. unfold ParserMod.parse in H.
  destruct (do_parse md cfg pd pdt now1 now2 s) as [r p| | |] eqn:E; try discriminate H. subst p.
  unfold do_parse, alt_c, alt, complete at 1 in E. unfold pbind at 1 in E.
  assert (L : alt_last cfg (pdo t <- timetype_parser cfg pd pdt;; pret (lower_timetype md now1 t)) s = Done r (Ok (PIterator (Ok ui))) -> False).
  { intro Hl. unfold alt_last, complete, pbind in Hl.
    destruct (last_complete cfg); destruct (timetype_parser cfg pd pdt s) as [r1 t| | |]; try discriminate Hl;
      injection Hl as _ Hl; unfold lower_timetype in Hl; destruct (ptimetype_into md now1 t); discriminate Hl. }
  destruct (iterator cfg pd pdt s) as [r1 it| | |] eqn:Ei; [|contradiction (L E)|contradiction (L E)|discriminate E].
  injection E as _ E. unfold lower_iterator in E.
  destruct (into_user_iterator md now1 now2 it) as [ui'|e|q|] eqn:Eu; try discriminate E. injection E as ->. exists it. exact Eu.
Qed.
Lemma no_inner_panic : forall s p, parse s <> Ok (PIterator (Panic p)).
Proof.
  intros s q H. unfold ParserMod.parse in H.
  destruct (do_parse md cfg pd pdt now1 now2 s) as [r p| | |] eqn:E; try discriminate H. subst p.
  unfold do_parse, alt_c, alt, complete at 1 in E. unfold pbind at 1 in E.
  assert (L : alt_last cfg (pdo t <- timetype_parser cfg pd pdt;; pret (lower_timetype md now1 t)) s = Done r (Ok (PIterator (Panic q))) -> False).
  { intro Hl. unfold alt_last, complete, pbind in Hl.
    destruct (last_complete cfg); destruct (timetype_parser cfg pd pdt s) as [r1 t| | |]; try discriminate Hl;
      injection Hl as _ Hl; unfold lower_timetype in Hl; destruct (ptimetype_into md now1 t); discriminate Hl. }
  destruct (iterator cfg pd pdt s) as [r1 it| | |] eqn:Ei; [|contradiction (L E)|contradiction (L E)|discriminate E].
  injection E as _ E. unfold lower_iterator in E. destruct (into_user_iterator md now1 now2 it); discriminate E.
Qed.
Lemma no_inner_fuel : forall s, parse s <> Ok (PIterator OutOfFuel).
Proof.
  intros s H. unfold ParserMod.parse in H.
  destruct (do_parse md cfg pd pdt now1 now2 s) as [r p| | |] eqn:E; try discriminate H. subst p.
  unfold do_parse, alt_c, alt, complete at 1 in E. unfold pbind at 1 in E.
  assert (L : alt_last cfg (pdo t <- timetype_parser cfg pd pdt;; pret (lower_timetype md now1 t)) s = Done r (Ok (PIterator OutOfFuel)) -> False).
  { intro Hl. unfold alt_last, complete, pbind in Hl.
    destruct (last_complete cfg); destruct (timetype_parser cfg pd pdt s) as [r1 t| | |]; try discriminate Hl;
      injection Hl as _ Hl; unfold lower_timetype in Hl; destruct (ptimetype_into md now1 t); discriminate Hl. }
  destruct (iterator cfg pd pdt s) as [r1 it| | |] eqn:Ei; [|contradiction (L E)|contradiction (L E)|discriminate E].
  injection E as _ E. unfold lower_iterator in E. destruct (into_user_iterator md now1 now2 it); discriminate E.
Qed.
Lemma into_base : forall it ui, into_user_iterator md now1 now2 it = Ok ui -> base_value ui.
Proof.
  intros [d sp u] ui H. unfold into_user_iterator in H. destruct (recur_of md sp) as [r| | |]; try discriminate H. cbn [bind] in H.
  assert (B : forall b i, build b r = Ok i -> is_value (base i) = true).
  { intros b i K. unfold build in K. destruct (is_a_amount r); [|discriminate K]. injection K as <-. reflexivity. }
  destruct u as [[x|n]|].
  - match type of H with bind ?a _ = _ => destruct a as [b| | |]; try discriminate H end. cbn [bind] in H.
    match type of H with bind ?a _ = _ => destruct a as [en| | |]; try discriminate H end. cbn [bind] in H.
    destruct (build b r) as [i| | |] eqn:K; try discriminate H. injection H as <-. exact (B _ _ K).
  - match type of H with bind ?a _ = _ => destruct a as [b| | |]; try discriminate H end. cbn [bind] in H.
    destruct (build b r) as [i| | |] eqn:K; try discriminate H. injection H as <-. exact (B _ _ K).
  - match type of H with bind ?a _ = _ => destruct a as [b| | |]; try discriminate H end. cbn [bind] in H.
    destruct (build b r) as [i| | |] eqn:K; try discriminate H. injection H as <-. exact (B _ _ K).
Qed.
Lemma next_value : forall it v, is_value (base it) = true -> fst (iter_next md it) = Some (Ok v) ->
  is_value v = true /\ is_value (base (snd (iter_next md it))) = true.
Proof.
  intros it v B H. destruct (had_first it) eqn:F.
  - rewrite next_later in * by exact F. destruct (calculate md (step it)) as [w| | |] eqn:E; try discriminate H. cbn [fst snd base] in *. injection H as ->.
    apply calc_result_value in E. auto.
  - rewrite next_first in * by exact F. cbn [fst snd base] in *. injection H as <-. auto.
Qed.
Lemma user_value : forall ui v ui', base_value ui -> user_next md ui = (Some (Ok v), ui') -> is_value v = true /\ base_value ui'.
Proof.
  intros [i|[i n c]|i en] v ui' B H; cbn [user_next base_value inner] in *.
  - destruct (iter_next md i) as [r i'] eqn:E. injection H as -> <-. pose proof (next_value i v B) as N. rewrite E in N. exact (N eq_refl).
  - unfold times_next in H. cbn [times count inner] in H. destruct (n =? c); [discriminate H|].
    destruct (addc md (Ok c) (Ok 1)) as [c'| | |]; try discriminate H. destruct (iter_next md i) as [r i'] eqn:E. injection H as -> <-.
    pose proof (next_value i v B) as N. rewrite E in N. exact (N eq_refl).
  - unfold until_next in H. destruct (iter_next md i) as [[[t| | |]|] i'] eqn:E; try discriminate H.
    pose proof (next_value i t B) as N. rewrite E in N. destruct (N eq_refl) as [N1 N2].
    destruct (calculate md t) as [w| | |] eqn:C; try discriminate H. apply calc_result_value in C.
    destruct (is_moment w); [|discriminate H]. destruct (get_moment w); [|discriminate H]. destruct (dt_ltb d en); [|discriminate H].
    injection H as <- <-. auto.
Qed.

(** The lines printed for an iterator. *)
Lemma items_lines : forall n ui l e, base_value ui -> print_items md n ui = (l, e) ->
  match e with
  | Exits c => (c = 0 /\ Forall value_line l) \/ (c = 1 /\ exists pre err, l = (pre ++ [CalcError err])%list /\ Forall value_line pre)
  | Running => Forall value_line l /\ List.length l = n
  | _ => Forall value_line l
  end.
Proof.
  induction n as [|n IH]; intros ui l e B H; cbn [print_items] in H.
  - injection H as <- <-. split; [constructor|reflexivity].
  - destruct (user_next md ui) as [[[v|err|p|]|] ui'] eqn:E.
    + destruct (user_value ui v ui' B E) as [V B']. destruct (print_items md n ui') as [l' e'] eqn:P. injection H as <- <-.
      specialize (IH ui' l' e' B' P). pose proof (print_value v V) as VL. destruct e' as [c|p| |].
      * destruct IH as [[-> F]|[-> (pre & err & -> & F)]]; [left|right].
        -- split; [reflexivity|]. constructor; assumption.
        -- split; [reflexivity|]. exists (pretty_print v :: pre), err. split; [reflexivity|]. constructor; assumption.
      * constructor; assumption.
      * destruct IH as [F L]. split; [constructor; assumption|]. cbn. congruence.
      * constructor; assumption.
    + injection H as <- <-. right. split; [reflexivity|]. exists [], err. split; [reflexivity|constructor].
    + injection H as <- <-. constructor.
    + injection H as <- <-. constructor.
    + injection H as <- <-. left. split; [reflexivity|constructor].
Qed.
Lemma main_lines : forall n args l e, main n args = (l, e) ->
  match e with
  | Exits c => (c = 0 /\ (Forall value_line l \/ exists err, l = [ParseError err] \/ l = [CalcError err] \/ l = [BuildError err])) \/
      (c = 1 /\ exists pre err, l = (pre ++ [CalcError err])%list /\ Forall value_line pre)
  | Running => Forall value_line l /\ List.length l = n
  | _ => Forall value_line l
  end.
Proof.
  intros n args l e H. unfold Cli.main in H. destruct (parse (trim (join args))) as [[[ui|err|p|]|t]|err|p|] eqn:P.
  - destruct (parsed_user _ _ P) as [it I]. apply into_base in I. pose proof (items_lines n ui l e I H) as K.
    destruct e as [c|p| |]; try exact K. destruct K as [[-> F]|K]; [left|right; exact K]. split; [reflexivity|]. left. exact F.
  - injection H as <- <-. left. split; [reflexivity|]. right. exists err. auto.
  - injection H as <- <-. constructor.
  - injection H as <- <-. constructor.
  - destruct (calculate md t) as [v|err|p|] eqn:C; injection H as <- <-; try constructor.
    + split; [reflexivity|]. left. constructor; [|constructor]. apply print_value. exact (calc_result_value _ _ _ C).
    + split; [reflexivity|]. right. exists err. auto.
  - injection H as <- <-. left. split; [reflexivity|]. right. exists err. auto.
  - injection H as <- <-. constructor.
  - injection H as <- <-. constructor.
Qed.
Lemma main_printable : forall n args l e t, main n args = (l, e) -> ~ In (CannotPrettyPrint t) l.
Proof.
  intros n args l e t H K. apply main_lines in H.
  assert (V : forall l, Forall value_line l -> ~ In (CannotPrettyPrint t) l).
  { clear. intros l F. rewrite Forall_forall in F. intro K. destruct (F _ K) as [s E]. discriminate E. }
  destruct e as [c|p| |]; try exact (V _ H K).
  - destruct H as [[_ [F|(err & [->|[->| ->]])]]|[_ (pre & err & -> & F)]].
    + exact (V _ F K).
    + destruct K as [K|[]]; discriminate K.
    + destruct K as [K|[]]; discriminate K.
    + destruct K as [K|[]]; discriminate K.
    + apply in_app_or in K. destruct K as [K|[K|[]]]; [exact (V _ F K)|discriminate K].
  - destruct H as [F _]. exact (V _ F K).
Qed.

(** The program panics only by overflow, and never gets stuck. *)
Section Ends.
Hypothesis Fpd : forall s, fine pd s.
Hypothesis Fpdt : forall s, fine pdt s.
Hypothesis Vpd : forall s r d, pd s = Done r d -> isodate_ok d.
Hypothesis Vpdt : forall s r d t, pdt s = Done r (d, t) -> isodate_ok d /\ isotime_ok t.
Hypothesis V1 : dt_valid now1 = true.
Hypothesis V2 : dt_valid now2 = true.
Lemma items_end : forall n k ui, (forall j, item_returns md (nth_item (user_next md) j ui)) ->
  match snd (print_items md n (after (user_next md) k ui)) with Panics p => allowed md p | Stuck => False | _ => True end.
Proof.
  induction n as [|n IH]; intros k ui H; cbn [print_items]; [exact I|].
  pose proof (H k) as R. unfold nth_item in R. pose proof (IH (S k) ui H) as N. rewrite after_S in N.
  destruct (user_next md (after (user_next md) k ui)) as [[[v|err|p|]|] ui'] eqn:E; cbn [fst snd item_returns returns] in *; try exact I.
  - destruct (print_items md n ui') as [l e]. exact N.
  - exact R.
  - exact R.
Qed.
Lemma timetype_returns : forall s t, parse s = Ok (PTimeType t) -> returns md (calculate md t).
Proof.
  intros s t H. unfold ParserMod.parse in H.
  destruct (do_parse md cfg pd pdt now1 now2 s) as [r p| | |] eqn:E; try discriminate H. subst p.
  unfold do_parse, alt_c, alt, complete at 1 in E. unfold pbind at 1 in E.
  assert (L : alt_last cfg (pdo t <- timetype_parser cfg pd pdt;; pret (lower_timetype md now1 t)) s = Done r (Ok (PTimeType t)) -> returns md (calculate md t)).
  { intro Hl.
    assert (T : exists x, timetype_parser cfg pd pdt s = Done r x /\ Ok (PTimeType t) = lower_timetype md now1 x).
    { unfold alt_last, complete, pbind in Hl. destruct (last_complete cfg); destruct (timetype_parser cfg pd pdt s) as [r1 x| | |]; try discriminate Hl;
        injection Hl as <- Hl; exists x; split; try reflexivity; symmetry; exact Hl. }
    destruct T as (x & T & Q). unfold lower_timetype in Q. destruct (ptimetype_into md now1 x) as [y| | |] eqn:Qx; try discriminate Q. injection Q as <-.
    unfold timetype_parser, alt in T. unfold pbind at 1 in T.
    destruct (date cfg pd pdt s) as [r2 d| | |] eqn:E2; [|clear E2|discriminate T|discriminate T].
    - injection T as <- <-. pose proof (date_moment md now1 d V1) as M. cbn [ptimetype_into] in Qx. unfold date_value in M. rewrite Qx in M. cbn [bind] in M.
      assert (Od : date_ok d) by (eapply (date_okv cfg pd pdt Vpd Vpdt); exact E2). specialize (M Od). unfold as_moment in M.
      destruct (calculate md t); cbn [returns]; try exact I; [apply M|exact M].
    - unfold pbind in T. destruct (amount_expr cfg s) as [r2 e| | |] eqn:E2; try discriminate T. injection T as <- <-.
      destruct (expr_sound _ _ _ _ E2) as (t0 & b & S & Te & B). apply expr_text_ok in Te.
      pose proof (expr_good md e Te) as G. cbn [ptimetype_into] in Qx. rewrite Qx in G. destruct G as [G1 G2].
      pose proof (calculate_good md t G1) as G. destruct (calculate md t); cbn in *; try exact I; unfold allowed; tauto. }
  destruct (iterator cfg pd pdt s) as [r1 it| | |] eqn:Ei; [|exact (L E)|exact (L E)|discriminate E].
  injection E as _ E. unfold lower_iterator in E. destruct (into_user_iterator md now1 now2 it); discriminate E.
Qed.
Lemma main_ends : forall n args, match snd (main n args) with Panics p => allowed md p | Stuck => False | _ => True end.
Proof.
  intros n args. unfold Cli.main. pose proof (parse_returns cfg pd pdt Fpd Fpdt Vpd Vpdt md now1 now2 (trim (join args)) V1 V2) as R.
  destruct (parse (trim (join args))) as [[[ui|err|p|]|t]|err|p|] eqn:P; cbn [snd returns] in *; try exact I; try exact R.
  - apply (items_end n 0). intro j. exact (parsed_items_return cfg pd pdt Vpd Vpdt md now1 now2 _ ui j V1 V2 P).
  - exfalso. exact (no_inner_panic _ _ P).
  - exfalso. exact (no_inner_fuel _ P).
  - apply timetype_returns in P. destruct (calculate md t); cbn [snd returns] in *; try exact I; exact P.
Qed.
End Ends.
End Main.
