(** The text on the standard output (C132). *)
Require Import ZArith Bool List String Ascii Lia.
From Verif Require Import Prelude Spec Chrono TimeType Iter SpecTree SpecMoment SpecIter Nom ParserTimetype ParserIterator ParserMod SpecText SpecLong Show Cli SpecCli SpecFormat Stdout SpecDerive CliProofs3 DeriveProofs.
Import ListNotations.
Local Open Scope string_scope.

(** C132. A value is printed with the format string for its kind. *)
Theorem C132_value : forall cfg pd pdt md now1 now2 nom bt args w1 s w2, concat " " args = w1 ++ s ++ w2 -> spaces w1 -> spaces w2 -> solid s ->
  forall n t v, parse md cfg pd pdt now1 now2 s = Ok (PTimeType t) -> calculate md t = Ok v ->
  stdout nom bt (fst (main md cfg pd pdt now1 now2 n args)) = value_written v.
Proof. exact program_value. Qed.
Print Assumptions C132_value.
(** An error of the library is printed with the name of its case, its fields and the backtrace, after the words for the call that failed. *)
Theorem C132_trouble : forall cfg pd pdt md now1 now2 nom bt args w1 s w2, concat " " args = w1 ++ s ++ w2 -> spaces w1 -> spaces w2 -> solid s ->
  forall n e, e <> NomError ->
  (parse md cfg pd pdt now1 now2 s = Err e -> stdout nom bt (fst (main md cfg pd pdt now1 now2 n args)) = trouble_written bt Parsing e) /\
  (forall t, parse md cfg pd pdt now1 now2 s = Ok (PTimeType t) -> calculate md t = Err e ->
    stdout nom bt (fst (main md cfg pd pdt now1 now2 n args)) = trouble_written bt Calculating e) /\
  (parse md cfg pd pdt now1 now2 s = Ok (PIterator (Err e)) -> stdout nom bt (fst (main md cfg pd pdt now1 now2 n args)) = trouble_written bt Building e).
Proof. exact program_trouble. Qed.
Print Assumptions C132_trouble.
(** The items of an iterator are printed one per line, up to its end or its first error. *)
Theorem C132_items : forall cfg pd pdt md now1 now2 nom bt args w1 s w2, concat " " args = w1 ++ s ++ w2 -> spaces w1 -> spaces w2 -> solid s ->
  forall n ui vs, parse md cfg pd pdt now1 now2 s = Ok (PIterator (Ok ui)) ->
  items (user_next md) (List.length vs) ui = map (fun v => Some (Ok v)) vs -> (List.length vs < n)%nat ->
  (nth_item (user_next md) (List.length vs) ui = None ->
    stdout nom bt (fst (main md cfg pd pdt now1 now2 n args)) = String.concat "" (map value_written vs)) /\
  (forall e, e <> NomError -> nth_item (user_next md) (List.length vs) ui = Some (Err e) ->
    stdout nom bt (fst (main md cfg pd pdt now1 now2 n args)) = String.concat "" (map value_written vs ++ [trouble_written bt Calculating e])).
Proof. exact program_items. Qed.
Print Assumptions C132_items.

Definition C132_noon : datetime := mkdt 2016 2 29 12 0 0 0.
Definition C132_out (args : list string) : string := stdout "Alt" "!" (fst (main Checked (mkcfg true true) toy_dates toy_times C132_noon C132_noon 5 args)).
Definition C132_parse (s : string) : outcome kek parsed := parse Checked (mkcfg true true) toy_dates toy_times C132_noon C132_noon s.
(** Texts as they come from the command line. *)
Example C132_value_case : let s := "1 hour + 30 min" in
  concat " " [" 1 hour"; "+ 30 min"] = " " ++ s ++ "" /\ spaces " " /\ spaces "" /\ solid s /\
  (exists t, C132_parse s = Ok (PTimeType t) /\ calculate Checked t = Ok (Minutes 90)) /\
  C132_out [" 1 hour"; "+ 30 min"] = "90 Minutes" ++ String "010" "" /\ value_written (Minutes 90) = "90 Minutes" ++ String "010" "".
Proof.
  cbv zeta. split; [reflexivity|]. split; [apply (SP_cons " "); [vm_compute; tauto|constructor]|]. split; [constructor|].
  split; [apply (solid_visible "1" " hour + 30 min" "n" "1 hour + 30 mi"); try reflexivity; vm_compute; split; congruence|].
  split; [eexists; split; [vm_compute; reflexivity|vm_compute; reflexivity]|]. vm_compute. repeat split.
Qed.
Example C132_trouble_case : 
  (exists e, C132_parse "2016-02-30" = Err e /\ e <> NomError /\ C132_out ["2016-02-30"] = "Error -> OutOfBounds(2016, 2, 30, 0, 0, 0)!" ++ String "010" "") /\
  (exists t e, C132_parse "yesterday + 1 day" = Ok (PTimeType t) /\ calculate Checked t = Err e /\ e <> NomError /\
    C132_out ["yesterday"; "+ 1 day"] = "Error calculating: CannotAdd(Days(1), Moment(2016-02-28T12:00:00))!" ++ String "010" "") /\
  (exists e, C132_parse "2016-02-30 daily" = Ok (PIterator (Err e)) /\ e <> NomError /\
    C132_out ["2016-02-30 daily"] = "Failed building iterator: OutOfBounds(2016, 2, 30, 0, 0, 0)!" ++ String "010" "") /\
  trouble_written "!" Calculating (ArgumentErrorNotAMoment "Days") = "Error calculating: ArgumentErrorNotAMoment(""Days"")!" ++ String "010" "" /\
  trouble_written "" Parsing UnknownParserError = "Error -> UnknownParserError" ++ String "010" "".
Proof.
  split; [eexists; split; [vm_compute; reflexivity|split; [discriminate|vm_compute; reflexivity]]|].
  split; [eexists; eexists; split; [vm_compute; reflexivity|split; [vm_compute; reflexivity|split; [discriminate|vm_compute; reflexivity]]]|].
  split; [eexists; split; [vm_compute; reflexivity|split; [discriminate|vm_compute; reflexivity]]|].
  vm_compute. repeat split.
Qed.
Example C132_items_case :
  (exists ui, C132_parse "today every 12 hours 2 times" = Ok (PIterator (Ok ui)) /\
    items (user_next Checked) 2 ui = map (fun v => Some (Ok v)) [Moment C132_noon; Moment (mkdt 2016 3 1 0 0 0 0)] /\ nth_item (user_next Checked) 2 ui = None) /\
  C132_out ["today every"; "12 hours 2 times"] = "2016-02-29 12:00:00 " ++ String "010" "2016-03-01 00:00:00 " ++ String "010" "" /\
  (exists ui e, C132_parse "2015-12-31 + 260128 years every 1 year" = Ok (PIterator (Ok ui)) /\
    items (user_next Checked) 1 ui = map (fun v => Some (Ok v)) [Moment (mkdt 262143 12 31 0 0 0 0)] /\ nth_item (user_next Checked) 1 ui = Some (Err e) /\ e <> NomError) /\
  C132_out ["2015-12-31 + 260128 years every 1 year"] =
    "+262143-12-31 00:00:00 " ++ String "010" "Error calculating: OutOfBounds(262144, 12, 0, 0, 0, 0)!" ++ String "010" "".
Proof.
  split; [eexists; split; [vm_compute; reflexivity|vm_compute; repeat split]|]. split; [vm_compute; reflexivity|].
  split; [eexists; eexists; split; [vm_compute; reflexivity|split; [vm_compute; reflexivity|split; [vm_compute; reflexivity|discriminate]]]|vm_compute; reflexivity].
Qed.
