(** Proofs about the standard output of the command line program. *)
Require Import ZArith Bool List String Ascii Lia ZifyBool.
From Verif Require Import Prelude Spec Chrono TimeType Iter SpecTree SpecMoment SpecWide SpecOver SpecValue SpecAnswer Nom ParserTimetype ParserIterator ParserMod SpecText SpecDoc SpecLong SpecReject Show Cli SpecCli SpecProgram SpecAnswer2
  Stdout SpecStdout CalendarProofs ShapeProofs EvalProofs EndProofs NomProofs ParserProofs CliProofs ShowProofs CliProofs3 CliProofs4 ShowProofs2 ParserProofs3 ParserProofs6 ValueProofs2 ValueProofs3 LowerProofs AnswerProofs AnswerProofs2 AnswerProofs3
  DocProofs LongProofs LongProofs2 RejectProofs.
Import ListNotations.
Local Open Scope string_scope.
Local Open Scope Z_scope.

(** ** Leap seconds *)
(** Errors of the evaluation name no types, and trees without leap seconds. *)
Definition plain (e : kek) : Prop :=
  error_no_leaps e /\ match e with ArgumentErrorNotAMoment _ | CannotCompareDayTo _ | CannotCompareMonthTo _ => False | _ => True end.
Definition leapless (r : result) : Prop := match r with Ok v => no_leaps v | Err e => plain e | _ => True end.

Lemma leapless_bind : forall (r : result) f, leapless r -> (forall v, no_leaps v -> leapless (f v)) -> leapless (do v <- r; f v).
Proof. intros [v|e|p|] f H F; cbn in *; auto. Qed.
Lemma leapless_within : forall md z f, (forall x, leapless (f x)) -> leapless (within md z f).
Proof. intros md z f F. unfold within. destruct (in_i64 z); [apply F|]. destruct md; [exact I|apply F]. Qed.
Lemma dated_leapless : forall f, leapless (dated f).
Proof.
  intros [[[[[y mo] d] h] mi] s]. unfold dated. destruct (representable _ _ _ && _ && _ && _) eqn:E; [|split; exact I].
  cbn [leapless no_leaps]. split; [|cbn [nano]; lia]. apply andb_true_iff in E. destruct E as [E Es]. apply andb_true_iff in E. destruct E as [E Em].
  apply andb_true_iff in E. destruct E as [E Eh]. unfold representable in E.
  assert (L : forall z, 0 <= low32 z) by (intro z; unfold low32; apply Z.mod_pos_bound; lia).
  pose proof (L h). pose proof (L mi). pose proof (L s). unfold dt_valid. cbn [year month day hour minute second nano]. rewrite E. cbn [andb].
  generalize dependent (low32 h). generalize dependent (low32 mi). generalize dependent (low32 s). intros. lia.
Qed.
Lemma forward_leapless : forall md m u n, leapless (forward md m u n).
Proof.
  intros. unfold forward. apply leapless_within. intro x. unfold carried. destruct (numbers_of m u x) as [[[[[y mo] d] h] mi] s].
  destruct (carry_days _ _ _). apply leapless_within. intro mo'. destruct (12 <? mo'); apply dated_leapless.
Qed.
Lemma backward_leapless : forall md m u n, leapless (backward md m u n).
Proof. intros. unfold backward. apply leapless_within. intro x. apply dated_leapless. Qed.
Lemma mk_leapless : forall u n, no_leaps (mk u n).
Proof. intros []; exact (fun _ => I). Qed.
Lemma amount_leapless : forall md t, leapless (amount_of md t).
Proof. intros md t. unfold amount_of. destruct (fits t); [apply mk_leapless|]. destruct md; [exact I|apply mk_leapless]. Qed.
Lemma plus_leapless : forall md v w, no_leaps v -> no_leaps w -> leapless (plus_values md v w).
Proof.
  intros md v w V W. unfold plus_values. destruct v, w; first [apply forward_leapless|apply amount_leapless|split; cbn in *; tauto].
Qed.
Lemma minus_leapless : forall md v w, no_leaps v -> no_leaps w -> leapless (minus_values md v w).
Proof.
  intros md v w V W. unfold minus_values. destruct v, w; first [apply backward_leapless|apply amount_leapless|split; cbn in *; tauto].
Qed.
Lemma ended_leapless : forall k r, leapless r -> leapless (ended k r).
Proof.
  intros k r H. unfold ended. apply leapless_bind; [exact H|]. intros v V. destruct v; try (destruct k; (split; [|exact I]); exact V).
  cbn [leapless no_leaps] in *. destruct V as [V N]. split; [apply end_at_valid; exact V|]. destruct k; cbn; lia.
Qed.
Lemma named_leapless : forall a b, no_leaps a -> no_leaps b -> plain (ends_named CannotAdd a b) /\ plain (ends_named CannotSub a b).
Proof. intros a b A B. unfold ends_named. destruct (coarse b <=? coarse a); cbn; unfold plain; cbn; tauto. Qed.

Ltac leaps :=
  repeat match goal with
  | |- leapless (do _ <- _; _) => apply leapless_bind; [assumption|intros ? ?]
  | |- leapless (if ?c then _ else _) => destruct c
  | |- leapless (moment_or_else ?v _ _) => destruct v; cbn [moment_or_else]
  | |- leapless (plus_values _ _ _) => apply plus_leapless; assumption
  | |- leapless (minus_values _ _ _) => apply minus_leapless; assumption
  | |- leapless (Err _) => cbn [leapless]
  | |- plain (if ?c then _ else _) => destruct c
  | |- plain (moment_or_else ?v _ _) => destruct v; cbn [moment_or_else]
  | |- plain (ends_named _ _ _) => apply named_leapless; assumption
  | |- plain _ => split; [cbn [error_no_leaps no_leaps] in *; tauto|exact I]
  end.
Lemma answer_leaps : forall md t, no_leaps t -> leapless (answer md t) /\ match t with Addition c _ | Subtraction c _ => leapless (answer md c) | _ => True end.
Proof.
  intros md. induction t as [n|n|n|n|n|n|m|a IHa b IHb|a IHa b IHb|a IH|a IH|a IH|a IH|a IH]; intro L; cbn [no_leaps] in L;
    try (split; [cbn [answer leapless]; exact L|exact I]);
    try (split; [cbn [answer]; apply ended_leapless, IH, L|exact I]).
  - destruct L as [La Lb]. destruct (IHa La) as [A A']. destruct (IHb Lb) as [B B']. split; [|exact A]. cbn [answer].
    destruct (is_moment_leaf b); [leaps|]. destruct (is_diff a); [leaps|]. destruct (is_end a); [|leaps].
    destruct b; leaps.
  - destruct L as [La Lb]. destruct (IHa La) as [A A']. destruct (IHb Lb) as [B B']. split; [|exact A]. cbn [answer].
    destruct (is_sum a && is_diff b); [leaps|]. destruct (is_end a); [|leaps].
    destruct b; leaps.
Qed.
Lemma answer_leapless : forall md t, no_leaps t -> leapless (answer md t).
Proof. intros md t H. apply answer_leaps. exact H. Qed.
Lemma calculate_leaps : forall md t, tt_ok t = true -> no_leaps t ->
  match calculate md t with Ok v => no_leaps v | Err e => error_no_leaps e | _ => True end.
Proof.
  intros md t V L. rewrite answer_correct by exact V. pose proof (answer_leapless md t L) as A. destruct (answer md t); cbn in A; try exact I; [exact A|apply A].
Qed.

(** ** The meanings of texts *)
Section Meant.
Variable md : mode.
Lemma units_leapless : forall u n, leapless (counted_units md u n).
Proof. intros. unfold counted_units. apply leapless_within. intro. apply mk_leapless. Qed.
Lemma expr_leapless : forall e, leapless (expr_meant md e).
Proof.
  induction e as [a|a op e IH]; cbn [expr_meant]; [apply units_leapless|]. apply leapless_bind; [apply units_leapless|]. intros x X.
  apply leapless_bind; [exact IH|]. intros y Y. destruct op; cbn; tauto.
Qed.
Lemma calendar_leapless : forall y mo d h mi s, 0 <= h -> 0 <= mi -> 0 <= s -> leapless (calendar y mo d h mi s).
Proof.
  intros y mo d h mi s H M S. unfold calendar. destruct (representable y mo d && (h <? 24) && (mi <? 60) && (s <? 60)) eqn:E; [|split; exact I].
  cbn [leapless no_leaps]. apply andb_true_iff in E. destruct E as [E Es]. apply andb_true_iff in E. destruct E as [E Em].
  apply andb_true_iff in E. destruct E as [E Eh]. split; [|cbn; lia]. unfold dt_valid. unfold representable in E. cbn [year month day hour minute second nano]. rewrite E. cbn [andb]. lia.
Qed.
Lemma day_leapless : forall d h mi s, 0 <= h -> 0 <= mi -> 0 <= s -> leapless (day_meant d h mi s).
Proof.
  intros [y mo d|y w d|y d] h mi s H M S; cbn [day_meant]; [apply calendar_leapless; assumption| |];
    (apply leapless_bind; [apply calendar_leapless; lia|]; intros v V; cbn; tauto).
Qed.
Lemma exact_leapless : forall now x, no_leap now -> exact_ok x -> leapless (exact_meant now x).
Proof.
  intros now [| | |d|d t] N X; cbn [exact_meant]; try (cbn; tauto).
  - apply day_leapless; lia.
  - cbn [exact_ok] in X. destruct X as [_ (Th & Tm & Ts)]. unfold u32 in *.
    destruct d; [apply day_leapless; lia| |]; (apply leapless_bind; [apply day_leapless; lia|]; intros v V; cbn; tauto).
Qed.
Lemma date_leapless : forall now d, no_leap now -> date_ok d -> leapless (date_meant md now d).
Proof.
  intros now [x o] N [X O]. cbn [date_meant]. apply leapless_bind; [apply exact_leapless; assumption|]. intros b B.
  destruct o as [[op e]|]; [|exact B]. apply leapless_bind; [apply expr_leapless|]. intros y Y. destruct op; cbn; tauto.
Qed.
Lemma text_leapless : forall now p, no_leap now -> reading_ok p -> leapless (text_meant md now p).
Proof. intros now [d|e] N P; cbn [text_meant]; [apply date_leapless; assumption|apply expr_leapless]. Qed.
Lemma item_leapless : forall m inc k, no_leap m -> no_leaps inc -> leapless (item_answer md m inc k).
Proof.
  intros m inc k M I0. unfold item_answer. induction k as [|k IH]; [exact M|]. cbn [Nat.iter]. apply leapless_bind; [exact IH|]. intros v V. apply plus_leapless; assumption.
Qed.
End Meant.

(** ** Where leap seconds can be *)
(** A result that is printed: a moment may have a leap second, errors name none. *)
Definition valued (v : timetype) : Prop := match v with Moment m => dt_valid m = true | _ => True end.
Definition printable (r : result) : Prop := match r with Ok v => valued v | Err e => plain e | _ => True end.
Definition unleaped (t : timetype) : Prop := match t with Moment _ => True | _ => no_leaps t end.
(** Only the first moment of an expression may have a leap second. *)
Inductive rooted : timetype -> Prop :=
| R_leaf m : dt_valid m = true -> rooted (Moment m)
| R_other t : no_leaps t -> rooted t
| R_add a b : rooted a -> amount_only b = true -> rooted (Addition a b)
| R_sub a b : rooted a -> amount_only b = true -> rooted (Subtraction a b).
Lemma leaps_valued : forall v, no_leaps v -> valued v.
Proof. intros []; cbn; try tauto. unfold no_leap. tauto. Qed.
Lemma leapless_printable : forall r, leapless r -> printable r.
Proof. intros [v|e|p|]; cbn; try tauto. apply leaps_valued. Qed.
Lemma amount_only_leaps : forall t, amount_only t = true -> no_leaps t.
Proof.
  induction t as [n|n|n|n|n|n|m|a IHa b IHb|a IHa b IHb|a IH|a IH|a IH|a IH|a IH]; cbn; intro H; try exact I; try discriminate H; apply andb_true_iff in H; split; tauto.
Qed.
Lemma amount_only_leaf : forall t, amount_only t = true -> is_moment_leaf t = false /\ is_end t = false.
Proof. intros []; cbn; try discriminate; auto. Qed.
Lemma amount_answer : forall md t, tt_ok t = true -> amount_only t = true -> match answer md t with Ok v => exists u n, v = mk u n | Err _ => False | _ => True end.
Proof.
  intros md t T A. rewrite <- answer_correct, amount_of_correct by assumption. unfold amount_of. destruct (fits t); [eauto|]. destruct md; [exact I|eauto].
Qed.
Lemma answer_rooted : forall md t, rooted t -> tt_ok t = true -> printable (answer md t) /\ (is_moment_leaf t = false -> leapless (answer md t)).
Proof.
  intros md t R. induction R as [m V|t L|a b R IH B|a b R IH B]; intro T.
  - split; [exact V|discriminate].
  - pose proof (answer_leapless md t L) as A. split; [apply leapless_printable; exact A|intros _; exact A].
  - assert (K : leapless (answer md (Addition a b))); [|split; [apply leapless_printable; exact K|intros _; exact K]].
    cbn [tt_ok] in T. apply andb_true_iff in T. destruct T as [Ta Tb]. destruct (IH Ta) as [P L]. destruct (amount_only_leaf b B) as [Bm Be].
    pose proof (amount_only_leaps b B) as Lb. pose proof (amount_answer md b Tb B) as Ab. cbn [answer]. rewrite Bm, Be.
    destruct (is_diff a) eqn:D.
    + assert (La : leapless (answer md a)) by (apply L; destruct a; try discriminate D; reflexivity).
      destruct (is_sum b).
      * destruct (answer md b) as [w|e|p|]; cbn [bind]; try contradiction; try exact I. destruct Ab as (u & n & ->).
        assert (Q : leapless (do v <- answer md a; plus_values md (mk u n) v)) by (apply leapless_bind; [exact La|]; intros v V; apply plus_leapless; [apply mk_leapless|exact V]).
        destruct u; exact Q.
      * apply leapless_bind; [exact La|]. intros v V. destruct v; cbn [moment_or_else]; leaps;
        (destruct (answer md b) as [w|e|p|]; cbn [bind]; try contradiction; try exact I; destruct Ab as (u & k & ->); apply plus_leapless; [exact V|apply mk_leapless]).
    + destruct (is_end a) eqn:E.
      * assert (La : no_leaps a) by (inversion R; subst; try discriminate E; assumption).
        pose proof (answer_leaps md b Lb) as [Lb1 Lb2]. destruct b; leaps; try discriminate B.
      * destruct (answer md a) as [v|e|p|] eqn:Ea; cbn [bind]; try exact I; [|cbn in P; exact P].
        destruct (answer md b) as [w|e|p|]; cbn [bind]; try contradiction; try exact I. destruct Ab as (u & k & ->).
        destruct (is_moment_leaf v) eqn:Mv; [destruct v; try discriminate Mv; unfold plus_values; destruct u; apply forward_leapless|].
        apply plus_leapless; [|apply mk_leapless].
        destruct (is_moment_leaf a) eqn:Ma; [destruct a; try discriminate Ma; cbn in Ea; injection Ea as <-; discriminate Mv|]. specialize (L eq_refl). exact L.
  - assert (K : leapless (answer md (Subtraction a b))); [|split; [apply leapless_printable; exact K|intros _; exact K]].
    cbn [tt_ok] in T. apply andb_true_iff in T. destruct T as [Ta Tb]. destruct (IH Ta) as [P L]. destruct (amount_only_leaf b B) as [Bm Be].
    pose proof (amount_only_leaps b B) as Lb. pose proof (amount_answer md b Tb B) as Ab. cbn [answer]. rewrite Be.
    assert (Q : forall u k, leapless (do v <- answer md a; minus_values md v (mk u k))).
    { intros u k. destruct (answer md a) as [v|e|p|] eqn:Ea; cbn [bind]; try exact I; [|cbn in P; exact P].
      destruct (is_moment_leaf v) eqn:Mv; [destruct v; try discriminate Mv; unfold minus_values; destruct u; apply backward_leapless|].
      apply minus_leapless; [|apply mk_leapless].
      destruct (is_moment_leaf a) eqn:Ma; [destruct a; try discriminate Ma; cbn in Ea; injection Ea as <-; discriminate Mv|]. specialize (L eq_refl). exact L. }
    destruct (is_sum a && is_diff b) eqn:D; [|destruct (is_end a) eqn:E].
    + destruct (answer md b) as [w|e|p|]; cbn [bind]; try contradiction; try exact I. destruct Ab as (u & k & ->). apply Q.
    + assert (La : no_leaps a) by (inversion R; subst; try discriminate E; assumption).
      pose proof (answer_leaps md b Lb) as [Lb1 Lb2]. destruct b; leaps; try discriminate B.
    + destruct (answer md b) as [w|e|p|]; cbn [bind] in *; try contradiction; [destruct Ab as (u & k & ->); apply Q| |];
      (destruct (answer md a); cbn [bind]; try exact I; exact P).
Qed.

Definition rooting (r : result) : Prop := match r with Ok t => rooted t | Err e => plain e | _ => True end.
Lemma leapless_rooting : forall r, leapless r -> rooting r.
Proof. intros [v|e|p|]; cbn; try tauto. apply R_other. Qed.
Section Rooted.
Variable md : mode.
Lemma exact_rooting : forall now x, dt_valid now = true -> exact_ok x -> rooting (exact_meant now x).
Proof.
  intros now x N X. destruct x as [| | |d|d t]; cbn [exact_meant rooting].
  - apply R_leaf, N.
  - apply R_sub; [apply R_leaf, N|reflexivity].
  - apply R_add; [apply R_leaf, N|reflexivity].
  - apply leapless_rooting, day_leapless; lia.
  - apply leapless_rooting. cbn [exact_ok] in X. destruct X as [_ (Th & Tm & Ts)]. unfold u32 in *.
    destruct d; [apply day_leapless; lia| |]; (apply leapless_bind; [apply day_leapless; lia|]; intros v V; cbn; tauto).
Qed.
Lemma date_rooting : forall now d, dt_valid now = true -> date_ok d -> rooting (date_meant md now d).
Proof.
  intros now [x o] N [X O]. cbn [date_meant]. pose proof (exact_rooting now x N X) as R. destruct (exact_meant now x) as [b|e|p|]; cbn [bind]; try exact I; [|exact R].
  destruct o as [[op e]|]; [|exact R]. pose proof (expr_good md e O) as G. rewrite expr_correct in G by exact O.
  destruct (expr_meant md e) as [y|f|p|]; cbn [bind]; cbn in G; try contradiction; try exact I. destruct op; [apply R_add|apply R_sub]; try exact R; apply G.
Qed.
Lemma text_rooting : forall now p, dt_valid now = true -> reading_ok p -> rooting (text_meant md now p).
Proof. intros now [d|e] N P; cbn [text_meant]; [apply date_rooting; assumption|apply leapless_rooting, expr_leapless]. Qed.
Lemma item_printable : forall m inc k, dt_valid m = true -> no_leaps inc -> is_moment_leaf inc = false -> printable (item_answer md m inc k).
Proof.
  intros m inc k M L I0.
  assert (K : item_answer md m inc k = Ok (Moment m) \/ leapless (item_answer md m inc k)); [|destruct K as [->|K]; [exact M|apply leapless_printable; exact K]].
  induction k as [|k [IH|IH]]; [left; reflexivity| |]; right; change (leapless (do v <- item_answer md m inc k; plus_values md v inc)).
  - rewrite IH. cbn [bind]. unfold plus_values. destruct inc; try discriminate I0; apply forward_leapless.
  - apply leapless_bind; [exact IH|]. intros v V. apply plus_leapless; assumption.
Qed.
End Rooted.

(** ** Lines *)
(** Values begin with a digit or a sign and have no line end. *)
Definition value_start (c : ascii) : bool := digit_char c || Ascii.eqb c "-" || Ascii.eqb c "+".
Definition no_end (c : ascii) : bool := negb (Ascii.eqb c "010").
Definition value_text (s : string) : Prop := starts value_start s = true /\ all no_end s = true.
Fixpoint printed (l : list line) : Prop :=
  match l with
  | [] => True
  | Value s :: r => value_text s /\ printed r
  | [ParseError e] | [CalcError e] | [BuildError e] => plain e
  | _ => False
  end.
Lemma digit_no_end : forall s, all digit_char s = true -> all no_end s = true.
Proof.
  induction s as [|c s IH]; [reflexivity|]. cbn [all]. intro H. apply andb_true_iff in H. destruct H as [C H]. rewrite (IH H), andb_true_r.
  unfold no_end. destruct (Ascii.eqb_spec c "010"); [subst; discriminate C|reflexivity].
Qed.
Lemma digit_value : forall s, starts digit_char s = true -> starts value_start s = true.
Proof. intros [|c s]; [discriminate|]. cbn. unfold value_start. intros ->. reflexivity. Qed.
Lemma show_nat_text : forall n, 0 <= n -> starts digit_char (show_nat n) = true /\ all no_end (show_nat n) = true.
Proof. intros n H. destruct (show_nat_ok n H) as [[D Ne] _]. split; [apply all_starts; assumption|apply digit_no_end; exact D]. Qed.
Lemma pad_text : forall w n, 0 <= n -> starts digit_char (pad w (show_nat n)) = true /\ all no_end (pad w (show_nat n)) = true.
Proof. intros w n H. destruct (pad_ends w n H) as [D Ne]. split; [apply all_starts; assumption|apply digit_no_end; exact D]. Qed.
Lemma starts_app : forall f a b, starts f a = true -> starts f (a ++ b) = true.
Proof. intros f [|c a] b H; [discriminate H|exact H]. Qed.
Lemma show_int_text : forall n, value_text (show_int n).
Proof.
  intro n. unfold show_int. destruct (n <? 0) eqn:E.
  - destruct (show_nat_text (- n) ltac:(lia)) as [_ A]. split; [reflexivity|]. cbn [append all]. rewrite A. reflexivity.
  - destruct (show_nat_text n ltac:(lia)) as [S A]. split; [apply digit_value; exact S|exact A].
Qed.
Lemma date_text : forall y mo d, 0 <= mo -> 0 <= d -> value_text (show_date y mo d).
Proof.
  intros y mo d M D. unfold show_date. destruct (pad_text 2 mo M) as [_ Am]. destruct (pad_text 2 d D) as [_ Ad].
  assert (T : all no_end ("-" ++ pad 2 (show_nat mo) ++ "-" ++ pad 2 (show_nat d)) = true).
  { cbn [append all]. rewrite ParserProofs.all_app, Am. cbn [append all]. rewrite Ad. reflexivity. }
  destruct ((0 <=? y) && (y <=? 9999)) eqn:E.
  - destruct (pad_text 4 y ltac:(lia)) as [S A]. split; [apply starts_app, digit_value; exact S|]. rewrite ParserProofs.all_app, A, T. reflexivity.
  - destruct (pad_text 4 (Z.abs y) ltac:(lia)) as [_ A]. destruct (y <? 0); (split; [reflexivity|]); rewrite ParserProofs.all_app, T, ParserProofs.all_app, A; reflexivity.
Qed.
Lemma time_text : forall h mi s n, 0 <= h -> 0 <= mi -> 0 <= s -> 0 <= n -> all no_end (show_time h mi s n) = true.
Proof.
  intros h mi s n H M S N. unfold show_time.
  assert (T : forall s n, 0 <= s -> 0 <= n -> all no_end (pad 2 (show_nat h) ++ ":" ++ pad 2 (show_nat mi) ++ ":" ++ pad 2 (show_nat s) ++
    (if n =? 0 then "" else if n mod 1000000 =? 0 then "." ++ pad 3 (show_nat (n / 1000000))
     else if n mod 1000 =? 0 then "." ++ pad 6 (show_nat (n / 1000)) else "." ++ pad 9 (show_nat n))) = true).
  { clear s n S N. intros s n S N. rewrite !ParserProofs.all_app. rewrite (proj2 (pad_text 2 h H)), (proj2 (pad_text 2 mi M)), (proj2 (pad_text 2 s S)). cbn [all andb].
    change (no_end ":") with true. cbn [andb].
    destruct (n =? 0); [reflexivity|].
    destruct (n mod 1000000 =? 0); [|destruct (n mod 1000 =? 0)]; cbn [append all]; change (no_end ".") with true; cbn [andb].
    all: apply pad_text; first [exact N|apply Z.div_pos; lia]. }
  destruct (1000000000 <=? n) eqn:E; apply T; lia.
Qed.
Lemma moment_parts : forall m, dt_valid m = true -> 0 <= month m /\ 0 <= day m /\ 0 <= hour m /\ 0 <= minute m /\ 0 <= second m /\ 0 <= nano m.
Proof. intros m V. destruct (proj1 (dt_valid_iff m) V) as (_ & D & H & Mi & Se & Na). apply date_exists_iff in D. lia. Qed.
Lemma moment_text : forall m, dt_valid m = true -> value_text (show_moment m) /\ all no_end (debug_moment m) = true.
Proof.
  intros m V. destruct (moment_parts m V) as (Mo & D & H & Mi & S & N). destruct (date_text (year m) (month m) (day m) Mo D) as [D1 D2].
  pose proof (time_text (hour m) (minute m) (second m) (nano m) H Mi S N) as T. unfold show_moment, debug_moment.
  split; [split; [apply starts_app; exact D1|]|]; rewrite !ParserProofs.all_app, D2, T; reflexivity.
Qed.
Lemma value_line_text : forall v, valued v -> exists s, value_line v = Value s /\ value_text s.
Proof.
  assert (X : forall v, exists s, Value (show_int (secs v / unit_secs (finest v)) ++ " " ++ word (finest v)) = Value s /\ value_text s).
  { intro v. eexists. split; [reflexivity|]. destruct (show_int_text (secs v / unit_secs (finest v))) as [S A].
    split; [apply starts_app; exact S|]. rewrite !ParserProofs.all_app, A. destruct (finest v); reflexivity. }
  intros v V. destruct v; try apply X. eexists. split; [reflexivity|]. cbn in V. destruct (moment_text m V) as [[S A] _].
  split; [apply starts_app; exact S|]. rewrite ParserProofs.all_app, A. reflexivity.
Qed.
Lemma debug_no_end : forall t, no_leaps t -> all no_end (debug_tt t) = true.
Proof.
  induction t as [n|n|n|n|n|n|m|a IHa b IHb|a IHa b IHb|a IH|a IH|a IH|a IH|a IH]; intro L; cbn [no_leaps] in L; cbn [debug_tt]; rewrite !ParserProofs.all_app;
    try (rewrite (proj2 (show_int_text n)); reflexivity); try (rewrite IH by exact L; reflexivity);
    try (destruct L as [La Lb]; rewrite IHa, IHb by assumption; reflexivity).
  rewrite (proj2 (moment_text m (proj1 L))). reflexivity.
Qed.
Lemma error_no_end : forall e, plain e -> all no_end (debug_error e) = true.
Proof.
  intros e [L P]. destruct e; try contradiction; try reflexivity; cbn [error_no_leaps] in L; cbn [debug_error]; rewrite !ParserProofs.all_app;
    try (rewrite ?(debug_no_end a), ?(debug_no_end b), ?(debug_no_end t) by tauto; reflexivity).
  rewrite !(proj2 (show_int_text _)). reflexivity.
Qed.

(** ** Errors can be told apart, whatever follows *)
Lemma debug_error_inj : forall e e' r r', plain e -> plain e' -> e <> NomError -> e' <> NomError -> debug_error e ++ r = debug_error e' ++ r' -> e = e'.
Proof.
  intros a b r r' [A PA] [B PB] NA NB E.
  destruct a, b; try contradiction; try congruence; cbn [debug_error] in E; rewrite ?app_assoc in E; try discriminate E; try reflexivity; try injection E as E; cbn [error_no_leaps] in A, B;
    try (destruct A; destruct B; apply debug_inj in E; try assumption; destruct E as [-> E]; injection E as E; apply debug_inj in E; try assumption; destruct E as [-> E]; reflexivity);
    try (apply debug_inj in E; try assumption; destruct E as [-> E]; reflexivity).
  do 5 (apply show_int_inj in E; [|reflexivity|reflexivity]; destruct E as [-> E]; injection E as E).
  apply show_int_inj in E; [|reflexivity|reflexivity]. destruct E as [-> _]. reflexivity.
Qed.
Lemma error_text_inj : forall nom nom' bt bt' e e' r r', foreign nom -> foreign nom' -> plain e -> plain e' ->
  error_text nom bt e ++ r = error_text nom' bt' e' ++ r' -> e = e'.
Proof.
  intros nom nom' bt bt' e e' r r' F F' P P' E. unfold error_text in E. rewrite !app_assoc in E.
  assert (D : forall e, e = NomError \/ e <> NomError) by (intros []; (left; reflexivity) || (right; discriminate)).
  destruct (D e) as [->|N], (D e') as [->|N']; try reflexivity.
  - exfalso. apply (F e' (bt ++ r) (bt' ++ r') N'). rewrite E. destruct e'; congruence.
  - exfalso. apply (F' e (bt' ++ r') (bt ++ r) N). rewrite <- E. destruct e; congruence.
  - apply (debug_error_inj e e' (bt ++ r) (bt' ++ r') P P' N N'). destruct e, e'; try congruence; exact E.
Qed.

(** ** The whole output *)
Lemma cut_line : forall a b r r', all no_end a = true -> all no_end b = true -> a ++ String "010" r = b ++ String "010" r' -> a = b /\ r = r'.
Proof.
  induction a as [|x a IH]; intros [|y b] r r' A B E.
  - injection E as ->. split; reflexivity.
  - injection E as <- _. discriminate B.
  - injection E as -> _. discriminate A.
  - cbn [all] in A, B. apply andb_true_iff in A. apply andb_true_iff in B. injection E as -> E. destruct (IH b r r' (proj2 A) (proj2 B) E) as [-> ->]. split; reflexivity.
Qed.
Lemma stdout_inj : forall nom nom' bt bt' l l', foreign nom -> foreign nom' -> printed l -> printed l' -> stdout nom bt l = stdout nom' bt' l' -> l = l'.
Proof.
  intros nom nom' bt bt' l. induction l as [|x l IH]; intros [|y l'] F F' P P' E.
  - reflexivity.
  - exfalso. cbn [stdout] in E. destruct (line_text nom' bt' y); discriminate E.
  - exfalso. cbn [stdout] in E. destruct (line_text nom bt x); discriminate E.
  - assert (V : forall s q c t, value_text s -> value_start c = false -> s ++ q <> String c t).
    { intros [|a s] q c t [S _] C K; [discriminate S|]. injection K as -> _. cbn in S. congruence. }
    cbn [stdout] in E.
    destruct x as [s|t|e|e|e], y as [s'|t'|e'|e'|e']; cbn [line_text] in E; try contradiction P; try contradiction P';
      try (exfalso; cbn [printed] in P; rewrite ?app_assoc in E; eapply V in E; [exact E|apply P|reflexivity]);
      try (exfalso; cbn [printed] in P'; rewrite ?app_assoc in E; symmetry in E; eapply V in E; [exact E|apply P'|reflexivity]);
      try (rewrite ?app_assoc in E; discriminate E).
    + destruct P as [[_ S] P]. destruct P' as [[_ S'] P']. destruct (cut_line _ _ _ _ S S' E) as [-> E']. rewrite (IH l' F F' P P' E'). reflexivity.
    + cbn [printed] in P, P'. destruct l, l'; try contradiction. rewrite !app_assoc in E. injection E as E. rewrite (error_text_inj nom nom' bt bt' e e' _ _ F F' P P' E). reflexivity.
    + cbn [printed] in P, P'. destruct l, l'; try contradiction. rewrite !app_assoc in E. injection E as E. rewrite (error_text_inj nom nom' bt bt' e e' _ _ F F' P P' E). reflexivity.
    + cbn [printed] in P, P'. destruct l, l'; try contradiction. rewrite !app_assoc in E. injection E as E. rewrite (error_text_inj nom nom' bt bt' e e' _ _ F F' P P' E). reflexivity.
Qed.
Lemma ends_app : forall a b, line_ends (a ++ b) = (line_ends a + line_ends b)%nat.
Proof. induction a as [|c a IH]; intro b; [reflexivity|]. cbn [append line_ends]. rewrite IH. lia. Qed.
Lemma ends_none : forall s, all no_end s = true -> line_ends s = O.
Proof.
  induction s as [|c s IH]; [reflexivity|]. cbn [all line_ends]. intro H. apply andb_true_iff in H. destruct H as [C H]. rewrite (IH H). unfold no_end in C. destruct (Ascii.eqb c "010"); [discriminate C|reflexivity].
Qed.
Lemma stdout_ends : forall nom bt l, line_ends nom = O -> line_ends bt = O -> printed l -> line_ends (stdout nom bt l) = List.length l.
Proof.
  intros nom bt l N B. induction l as [|x l IH]; intro P; [reflexivity|].
  assert (X : forall e, plain e -> line_ends (error_text nom bt e) = O).
  { intros e Pe. unfold error_text. rewrite ends_app, B. destruct e; rewrite ?N; try reflexivity; rewrite (ends_none _ (error_no_end _ Pe)); reflexivity. }
  cbn [stdout List.length]. rewrite ends_app. cbn [line_ends]. change (Ascii.eqb "010" "010") with true. cbv iota.
  destruct x as [s|t|e|e|e]; cbn [printed] in P; try contradiction.
  - destruct P as [[_ S] P]. cbn [line_text]. rewrite (ends_none s S), (IH P). reflexivity.
  - destruct l; [|contradiction]. cbn [line_text]. rewrite ends_app, (X e P). reflexivity.
  - destruct l; [|contradiction]. cbn [line_text]. rewrite ends_app, (X e P). reflexivity.
  - destruct l; [|contradiction]. cbn [line_text]. rewrite ends_app, (X e P). reflexivity.
Qed.

Lemma listing_printed : forall w, (forall k r, w k = Some r -> printable r) -> forall n k, printed (fst (listing n k w)).
Proof.
  intros w W. induction n as [|n IH]; intro k; [exact I|]. cbn [listing]. destruct (w k) as [[v|e|p|]|] eqn:E; try exact I.
  - pose proof (W k _ E) as V. cbn in V. destruct (value_line_text v V) as (s & -> & T). cbn [fst printed]. split; [exact T|apply IH].
  - exact (W k _ E).
Qed.
Lemma with_moment_printed : forall r f, printable r -> (forall m, dt_valid m = true -> printed (fst (f m))) -> printed (fst (with_moment r f)).
Proof. intros [v|e|p|] f L F; cbn in *; try exact I; [|exact L]. destruct v; cbn; try (split; exact I). apply F. exact L. Qed.
Lemma rooting_answer : forall md r, rooting r -> (forall t, r = Ok t -> tt_ok t = true) -> printable (do t <- r; answer md t).
Proof. intros md [t|e|p|] R T; cbn in *; try exact I; [|exact R]. apply answer_rooted; [exact R|apply T; reflexivity]. Qed.
Lemma meant_ok : forall md now p t, dt_valid now = true -> reading_ok p -> text_meant md now p = Ok t -> tt_ok t = true.
Proof. intros md now p t N P E. pose proof (meant_good md now p N P) as G. rewrite E in G. exact G. Qed.
Lemma text_printed : forall md now p, dt_valid now = true -> reading_ok p -> printed (fst (text_output md now p)).
Proof.
  intros md now p N P. unfold text_output. pose proof (text_rooting md now p N P) as T. pose proof (meant_ok md now p) as O. destruct (text_meant md now p) as [t|e|q|]; cbn in T; try exact I; [|exact T].
  pose proof (proj1 (answer_rooted md t T (O t N P eq_refl))) as A. destruct (answer md t) as [v|e|q|]; cbn in A; try exact I; [|exact A].
  destruct (value_line_text v A) as (s & -> & X). cbn. auto.
Qed.
Lemma iterator_printed : forall md now1 now2 n it, dt_valid now1 = true -> dt_valid now2 = true -> iterator_ok it -> printed (fst (iterator_output md now1 now2 n it)).
Proof.
  intros md now1 now2 n [d sp u] N1 N2 (D & S & U). cbn [iterator_output].
  assert (Un : match counted_units md (step_unit sp) (step_count sp) with Ok inc => exists k n, inc = mk k n | _ => True end).
  { unfold counted_units, within. destruct (in_i64 (step_count sp)); [eauto|]. destruct md; [exact I|eauto]. }
  destruct (counted_units md (step_unit sp) (step_count sp)) as [inc|e|p|]; try exact I. destruct Un as (k0 & c0 & ->).
  apply with_moment_printed; [apply rooting_answer; [apply date_rooting; assumption|intros t E; exact (meant_ok md now1 (PTDate d) t N1 D E)]|]. intros m M.
  assert (It : forall k, printable (item_answer md m (mk k0 c0) k)) by (intro k; apply item_printable; [exact M|apply mk_leapless|destruct k0; reflexivity]).
  cbv zeta. destruct u as [[x|c]|].
  - apply with_moment_printed; [apply rooting_answer; [apply exact_rooting; assumption|intros t E; apply (meant_ok md now2 (PTDate (Date x None)) t N2 (conj U I)); cbn [text_meant date_meant]; rewrite E; reflexivity]|]. intros en _.
    apply listing_printed. intros k r. pose proof (It k) as K. destruct (item_answer md m (mk k0 c0) k) as [[]|e|p|]; try (destruct (sooner m0 en)); intro Q; try discriminate Q; injection Q as <-; exact K.
  - apply listing_printed. intros k r. destruct (Z.of_nat k <? c); intro Q; [|discriminate Q]. injection Q as <-. apply It.
  - apply listing_printed. intros k r Q. injection Q as <-. apply It.
Qed.

Section Program.
Variable cfg : nom_cfg.
Variable pd : parser isodate.
Variable pdt : parser (isodate * isotime).
Hypothesis Fpd : forall s, fine pd s.
Hypothesis Fpdt : forall s, fine pdt s.
Hypothesis Hpd : forall s r d, pd s = Done r d -> isodate_ok d.
Hypothesis Hpdt : forall s r d t, pdt s = Done r (d, t) -> isodate_ok d /\ isotime_ok t.
Lemma main_printed : forall md now1 now2 n args, dt_valid now1 = true -> dt_valid now2 = true -> printed (fst (main md cfg pd pdt now1 now2 n args)).
Proof.
  intros md now1 now2 n args N1 N2.
  destruct (program_total cfg pd pdt Fpd Fpdt Hpd Hpdt md now1 now2 n args N1 N2) as (w1 & s & w2 & _ & _ & _ & _ & [(x & r & R & ->)|[[_ ->]|(_ & _ & ->)]]); [|split; exact I|split; exact I].
  destruct x as [it|p]; cbn [exact_program].
  - apply iterator_printed; try assumption. inversion R; subst. eapply iterator_read_ok; eassumption.
  - apply text_printed; [exact N1|]. eapply reads_ok; eassumption.
Qed.
Lemma output_ends : forall md now1 now2 n args nom bt, dt_valid now1 = true -> dt_valid now2 = true -> line_ends nom = O -> line_ends bt = O ->
  line_ends (stdout nom bt (fst (main md cfg pd pdt now1 now2 n args))) = List.length (fst (main md cfg pd pdt now1 now2 n args)).
Proof. intros. apply stdout_ends; try assumption. apply main_printed; assumption. Qed.
End Program.

(** ** Two runs *)
Section Runs.
Variable cfg : nom_cfg.
Variable pd : parser isodate.
Variable pdt : parser (isodate * isotime).
Hypothesis H : iso_parsers pd pdt.
Lemma same_lines : forall md md' now1 now2 now1' now2' n n' args args' nom nom' bt bt', dt_valid now1 = true -> dt_valid now2 = true -> dt_valid now1' = true -> dt_valid now2' = true ->
  foreign nom -> foreign nom' ->
  stdout nom bt (fst (main md cfg pd pdt now1 now2 n args)) = stdout nom' bt' (fst (main md' cfg pd pdt now1' now2' n' args')) ->
  fst (main md cfg pd pdt now1 now2 n args) = fst (main md' cfg pd pdt now1' now2' n' args').
Proof.
  destruct H as (F1 & F2 & P1 & P2). intros. eapply stdout_inj; [| | | |eassumption]; try assumption; apply main_printed; assumption.
Qed.
Lemma text_lines : forall md md' now now' p p', no_leap now -> no_leap now' -> reading_ok p -> reading_ok p' -> fst (text_output md now p) = fst (text_output md' now' p') ->
  (do t <- text_meant md now p; answer md t) = (do t <- text_meant md' now' p'; answer md' t).
Proof.
  intros md md' now now' p p' N N' R R'. unfold text_output.
  pose proof (meant_good md now p (proj1 N) R) as G. pose proof (meant_good md' now' p' (proj1 N') R') as G'.
  pose proof (text_leapless md now p N R) as L. pose proof (text_leapless md' now' p' N' R') as L'.
  assert (A : forall md t, tt_ok t = true -> no_leaps t -> match answer md t with Ok v => is_value v = true /\ no_leaps v | Err _ => True | Panic q => q = PArith | OutOfFuel => False end).
  { clear. intros md t V L. pose proof (answer_good md t V) as G. pose proof (answer_leapless md t L) as K. destruct (answer md t); cbn in *; try tauto. }
  assert (I : forall v v', is_value v = true /\ no_leaps v -> is_value v' = true /\ no_leaps v' -> value_line v = value_line v' -> v = v').
  { clear. intros v v' [V L] [V' L'] E. rewrite <- !pretty_correct in E by assumption. apply print_inj; assumption. }
  assert (X : forall v c, is_value v = true /\ no_leaps v -> value_line v = c -> exists s, c = Value s).
  { intros v c [V L0] <-. destruct (value_line_text v (leaps_valued v L0)) as (s & -> & _). eexists. reflexivity. }
  destruct (text_meant md now p) as [t|e|q|], (text_meant md' now' p') as [t'|e'|q'|]; cbn [bind] in *; try contradiction; try subst q; try subst q';
    try (pose proof (A md t G L) as B); try (pose proof (A md' t' G' L') as B');
    try destruct (answer md t) as [v|f|q|]; try destruct (answer md' t') as [v'|f'|q'|]; try contradiction; try subst q; try subst q'; cbn [fst]; intro E;
    try discriminate E; try reflexivity;
    try (injection E as E);
    try (apply I in E; [|assumption|assumption]; subst; reflexivity); try (subst; reflexivity);
    try (exfalso; apply X in E; [|assumption]; destruct E as [? E]; discriminate E);
    try (exfalso; symmetry in E; apply X in E; [|assumption]; destruct E as [? E]; discriminate E).
Qed.
Lemma same_answer : forall md md' now1 now2 now1' now2' n n' args args' w1 s w2 w1' s' w2' p p' r r' nom nom' bt bt',
  no_leap now1 -> no_leap now2 -> no_leap now1' -> no_leap now2' -> foreign nom -> foreign nom' ->
  concat " " args = w1 ++ s ++ w2 -> spaces w1 -> spaces w2 -> solid s -> reads cfg pd pdt (AsTimeType p) s r ->
  concat " " args' = w1' ++ s' ++ w2' -> spaces w1' -> spaces w2' -> solid s' -> reads cfg pd pdt (AsTimeType p') s' r' ->
  stdout nom bt (fst (main md cfg pd pdt now1 now2 n args)) = stdout nom' bt' (fst (main md' cfg pd pdt now1' now2' n' args')) ->
  (do t <- text_meant md now1 p; answer md t) = (do t <- text_meant md' now1' p'; answer md' t).
Proof.
  intros md md' now1 now2 now1' now2' n n' args args' w1 s w2 w1' s' w2' p p' r r' nom nom' bt bt' N1 N2 N1' N2' F F' C S1 S2 So R C' S1' S2' So' R' E.
  apply same_lines in E; try assumption; [|apply N1|apply N2|apply N1'|apply N2']. destruct H as (F1 & F2 & P1 & P2).
  rewrite (exact_program_correct cfg pd pdt F1 F2 P1 P2 md now1 now2 n args w1 s w2 (AsTimeType p) r) in E by (assumption || apply N1 || apply N2).
  rewrite (exact_program_correct cfg pd pdt F1 F2 P1 P2 md' now1' now2' n' args' w1' s' w2' (AsTimeType p') r') in E by (assumption || apply N1' || apply N2').
  cbn [exact_program] in E. apply text_lines; try assumption; eapply reads_ok; eassumption.
Qed.
Lemma counted_lines : forall md now1 now2 n args nom bt, dt_valid now1 = true -> dt_valid now2 = true -> line_ends nom = O -> line_ends bt = O ->
  line_ends (stdout nom bt (fst (main md cfg pd pdt now1 now2 n args))) = List.length (fst (main md cfg pd pdt now1 now2 n args)).
Proof. destruct H as (F1 & F2 & P1 & P2). intros. apply output_ends; assumption. Qed.
End Runs.
