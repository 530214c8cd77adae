(** Lemmas about the lines of the program. *)
Require Import ZArith Bool List String Ascii Lia.
From Verif Require Import Prelude Spec Chrono TimeType Iter SpecTree SpecMoment SpecIter Nom ParserTimetype ParserIterator ParserMod SpecText Show Cli SpecCli SpecFormat Stdout SpecDerive CliProofs CliProofs3.
Import ListNotations.
Local Open Scope string_scope.

Lemma app_end : forall s, s ++ "" = s.
Proof. induction s as [|c s IH]; [reflexivity|cbn [append]; rewrite IH; reflexivity]. Qed.
Lemma app_text : forall a b c : string, (a ++ b) ++ c = a ++ b ++ c.
Proof. induction a as [|x a IH]; intros b c; [reflexivity|cbn [append]; rewrite IH; reflexivity]. Qed.
Lemma debug_derived : forall e, e <> NomError -> debug_error e = derived (case_of e) (fields_of e).
Proof. intros e H. destruct e; try congruence; cbn [debug_error derived case_of fields_of map String.concat]; unfold debug_str; rewrite ?app_text; reflexivity. Qed.
Lemma value_line : forall nom bt v, line_text nom bt (pretty_print v) = fill (value_format v) [value_part v].
Proof. intros nom bt v. destruct v; cbn -[show_int debug_tt show_moment]; rewrite ?app_end; reflexivity. Qed.
Lemma line_written : forall nom bt l r, stdout nom bt (l :: r) = line_text nom bt l ++ String "010" (stdout nom bt r).
Proof. reflexivity. Qed.
Lemma newline : forall s t, (s ++ String "010" "") ++ t = s ++ String "010" t.
Proof. intros s t. rewrite app_text. reflexivity. Qed.
Lemma error_line : forall nom bt e, e <> NomError -> error_text nom bt e = derived (case_of e) (fields_of e) ++ bt.
Proof. intros nom bt e H. unfold error_text. rewrite <- debug_derived by exact H. destruct e; congruence. Qed.
Lemma fill_one : forall a, fill "Error -> {:?}" [a] = "Error -> " ++ a /\ fill "Error calculating: {:?}" [a] = "Error calculating: " ++ a /\
  fill "Failed building iterator: {:?}" [a] = "Failed building iterator: " ++ a.
Proof. intro a. cbn. rewrite !app_end. auto. Qed.

Section Program.
Variables (cfg : nom_cfg) (pd : parser isodate) (pdt : parser (isodate * isotime)) (md : mode) (now1 now2 : datetime).
Variables (nom bt : string).
Variables (args : list string) (w1 s w2 : string).
Hypothesis Ha : concat " " args = w1 ++ s ++ w2.
Hypothesis H1 : spaces w1.
Hypothesis H2 : spaces w2.
Hypothesis Hs : solid s.
Lemma run_eq : trim (join args) = s.
Proof. exact (main_trimmed args w1 s w2 Ha H1 H2 Hs). Qed.
Lemma program_value : forall n t v, parse md cfg pd pdt now1 now2 s = Ok (PTimeType t) -> calculate md t = Ok v ->
  stdout nom bt (fst (main md cfg pd pdt now1 now2 n args)) = value_written v.
Proof.
  intros n t v P C. unfold main. rewrite run_eq, P, C. cbn [fst stdout]. rewrite value_line. reflexivity.
Qed.
Lemma program_trouble : forall n e, e <> NomError ->
  (parse md cfg pd pdt now1 now2 s = Err e -> stdout nom bt (fst (main md cfg pd pdt now1 now2 n args)) = trouble_written bt Parsing e) /\
  (forall t, parse md cfg pd pdt now1 now2 s = Ok (PTimeType t) -> calculate md t = Err e ->
    stdout nom bt (fst (main md cfg pd pdt now1 now2 n args)) = trouble_written bt Calculating e) /\
  (parse md cfg pd pdt now1 now2 s = Ok (PIterator (Err e)) -> stdout nom bt (fst (main md cfg pd pdt now1 now2 n args)) = trouble_written bt Building e).
Proof.
  intros n e N. destruct (fill_one (derived (case_of e) (fields_of e) ++ bt)) as (F1 & F2 & F3). unfold trouble_written, written. cbn [trouble_format].
  rewrite F1, F2, F3. split; [|split].
  - intro P. unfold main. rewrite run_eq, P. cbn [fst stdout line_text]. rewrite (error_line nom bt e N). reflexivity.
  - intros t P C. unfold main. rewrite run_eq, P, C. cbn [fst stdout line_text]. rewrite (error_line nom bt e N). reflexivity.
  - intro P. unfold main. rewrite run_eq, P. cbn [fst stdout line_text]. rewrite (error_line nom bt e N). reflexivity.
Qed.
Lemma items_written : forall vs n ui, items (user_next md) (List.length vs) ui = map (fun v => Some (Ok v)) vs -> (List.length vs < n)%nat ->
  (nth_item (user_next md) (List.length vs) ui = None ->
    stdout nom bt (fst (print_items md n ui)) = String.concat "" (map value_written vs) /\ snd (print_items md n ui) = Exits 0) /\
  (forall e, e <> NomError -> nth_item (user_next md) (List.length vs) ui = Some (Err e) ->
    stdout nom bt (fst (print_items md n ui)) = String.concat "" (map value_written vs ++ [trouble_written bt Calculating e]) /\ snd (print_items md n ui) = Exits 1).
Proof.
  assert (CC : forall a l, String.concat "" (a :: l) = a ++ String.concat "" l).
  { intros a l. destruct l; [cbn; rewrite app_end|]; reflexivity. }
  induction vs as [|v vs IH]; intros n ui I L; (destruct n as [|n]; [cbn in L; lia|]).
  - cbn [List.length] in *. split.
    + intro N. cbn [print_items]. unfold nth_item in N. cbn [after] in N. destruct (user_next md ui) as [x u] eqn:E. cbn [fst] in N. subst x. auto.
    + intros e Ne N. cbn [print_items]. unfold nth_item in N. cbn [after] in N. destruct (user_next md ui) as [x u] eqn:E. cbn [fst] in N. subst x. cbn [fst snd stdout line_text map app]. rewrite CC.
      cbn [String.concat]. rewrite app_end, (error_line nom bt e Ne). unfold trouble_written, written. cbn [trouble_format].
      rewrite (proj1 (proj2 (fill_one _))). auto.
  - cbn [List.length items map] in I. cbn [List.length] in L |- *. unfold nth_item in *. cbn [after print_items]. destruct (user_next md ui) as [x u] eqn:E. cbn [fst snd] in *.
    injection I as Ix I. subst x. destruct (IH n u I ltac:(lia)) as [A B]. destruct (print_items md n u) as [l en] eqn:Pn. cbn [fst snd] in *. split.
    + intro N. destruct (A N) as [A1 A2]. split; [|exact A2]. rewrite line_written, value_line, A1. cbn [map]. rewrite CC. unfold value_written at 2, written. rewrite newline. reflexivity.
    + intros e Ne N. destruct (B e Ne N) as [A1 A2]. split; [|exact A2]. rewrite line_written, value_line, A1. cbn [map app]. rewrite CC. unfold value_written at 2, written.
      rewrite newline. reflexivity.
Qed.
Lemma program_items : forall n ui vs, parse md cfg pd pdt now1 now2 s = Ok (PIterator (Ok ui)) ->
  items (user_next md) (List.length vs) ui = map (fun v => Some (Ok v)) vs -> (List.length vs < n)%nat ->
  (nth_item (user_next md) (List.length vs) ui = None ->
    stdout nom bt (fst (main md cfg pd pdt now1 now2 n args)) = String.concat "" (map value_written vs)) /\
  (forall e, e <> NomError -> nth_item (user_next md) (List.length vs) ui = Some (Err e) ->
    stdout nom bt (fst (main md cfg pd pdt now1 now2 n args)) = String.concat "" (map value_written vs ++ [trouble_written bt Calculating e])).
Proof.
  intros n ui vs P I L. destruct (items_written vs n ui I L) as [A B]. unfold main. rewrite run_eq, P. split.
  - intro N. exact (proj1 (A N)).
  - intros e Ne N. exact (proj1 (B e Ne N)).
Qed.
End Program.
