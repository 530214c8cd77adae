(** Properties C46-C49 and C55: units, numbers, amount expressions, termination of the parsers.
    [cfg] is any of the nom behaviours of Nom.v; [pd], [pdt] are any ISO 8601 parsers. *)
Require Import ZArith Bool List String Ascii Lia.
From Verif Require Import Prelude Spec Chrono TimeType SpecTree Nom ParserTimetype ParserIterator ParserMod SpecText
  NomProofs ParserProofs ParserProofs2 ParserProofs3 ParserProofs6.
Import ListNotations.
Local Open Scope string_scope.
Local Open Scope Z_scope.

(** For examples: both nom behaviours, and ISO 8601 parsers that recognise nothing. *)
Definition cfgs : list nom_cfg := [mkcfg true true; mkcfg true false; mkcfg false true; mkcfg false false].
Definition none {A} : parser A := fun _ => PError.

(** C46. Units. *)
Theorem C46_unit : forall cfg s t v, In (t, v) spellings -> longest spellings t s -> exists r, s = t ++ r /\ unit_parser cfg s = Done r v.
Proof. exact unit_complete. Qed.
Print Assumptions C46_unit.
Theorem C46_unit_only : forall cfg s r v, unit_parser cfg s = Done r v -> exists t, In (t, v) spellings /\ s = t ++ r /\ longest spellings t s.
Proof. exact unit_sound. Qed.
Print Assumptions C46_unit_only.
Theorem C46_unit_followed : forall cfg t v rest, In (t, v) spellings -> starts letter_char rest = false -> unit_parser cfg (t ++ rest) = Done rest v.
Proof. exact unit_ok. Qed.
Print Assumptions C46_unit_followed.
Theorem C46_adverb : forall cfg s t v, In (t, v) adverbs -> longest adverbs t s -> exists r, s = t ++ r /\ unit_alias cfg s = Done r v.
Proof. exact alias_complete. Qed.
Print Assumptions C46_adverb.
Theorem C46_adverb_only : forall cfg s r v, unit_alias cfg s = Done r v -> exists t, In (t, v) adverbs /\ s = t ++ r /\ longest adverbs t s.
Proof. exact alias_sound. Qed.
Print Assumptions C46_adverb_only.
Example C46_case : length "seconds" = 7%nat /\
  map (fun cfg => unit_parser cfg "secondsx") cfgs = repeat (Done "x" PSecond) 4 /\
  map (fun cfg => unit_parser cfg "months") cfgs = repeat (Done "" PMonth) 4 /\
  map (fun cfg => unit_parser cfg "mi") cfgs = repeat PError 4 /\
  map (fun cfg => unit_alias cfg "monthly!") cfgs = repeat (Done "!" AMonthly) 4 /\ List.length spellings = 24%nat.
Proof. vm_compute. repeat split. Qed.

(** C47. Numbers. *)
Theorem C47_number : forall cfg b1 ds b2 rest, blanks b1 -> digits ds -> blanks b2 -> starts blank_char rest = false ->
  (b2 = "" -> starts digit_char rest = false) ->
  integer cfg (b1 ++ ds ++ b2 ++ rest) = if decimal ds <=? i64_max then Done rest (decimal ds) else PError.
Proof. exact integer_ok. Qed.
Print Assumptions C47_number.
Theorem C47_number_only : forall cfg s r n, integer cfg s = Done r n ->
  exists b1 ds b2, s = b1 ++ ds ++ b2 ++ r /\ blanks b1 /\ digits ds /\ blanks b2 /\ decimal ds = n /\ 0 <= n /\ n <= i64_max.
Proof. exact integer_sound. Qed.
Print Assumptions C47_number_only.
Theorem C47_no_number : forall cfg b1 rest, blanks b1 -> starts blank_char rest = false -> starts digit_char rest = false ->
  integer cfg (b1 ++ rest) = if match rest with "" => digit_incomplete cfg | _ => false end then Incomplete else PError.
Proof. exact integer_none. Qed.
Print Assumptions C47_no_number.
Example C47_case :
  map (fun cfg => integer cfg "  007	 d") cfgs = repeat (Done "d" 7) 4 /\
  map (fun cfg => integer cfg "9223372036854775807") cfgs = repeat (Done "" 9223372036854775807) 4 /\
  map (fun cfg => integer cfg "9223372036854775808") cfgs = repeat PError 4 /\ decimal "9223372036854775808" = 9223372036854775808.
Proof. vm_compute. repeat split. Qed.

(** C48. Printing then parsing. *)
Theorem C48_roundtrip : forall cfg e s, expr_text e s -> amount_expr cfg s = Done "" e.
Proof. exact expr_roundtrip. Qed.
Print Assumptions C48_roundtrip.
Theorem C48_followed : forall cfg e s rest, expr_text e s -> stop rest -> amount_expr cfg (s ++ rest) = Done (drop_blanks rest) e.
Proof. exact expr_followed. Qed.
Print Assumptions C48_followed.
Theorem C48_only : forall cfg s r e, amount_expr cfg s = Done r e -> exists t b, s = t ++ b ++ r /\ expr_text e t /\ blanks b.
Proof. exact expr_sound. Qed.
Print Assumptions C48_only.
Theorem C48_unambiguous : forall e e' s, expr_text e s -> expr_text e' s -> e = e'.
Proof. exact expr_unambiguous. Qed.
Print Assumptions C48_unambiguous.
Definition C48_expr : amountexpr := AENext (Amount 5 PDay) Minus (AENext (Amount 1 PWeek) Plus (AELast (Amount 90 PMinute))).
Example C48_case : expr_text C48_expr " 5days -weekly+ 90  mins" /\
  map (fun cfg => amount_expr cfg " 5days -weekly+ 90  mins") cfgs = repeat (Done "" C48_expr) 4.
Proof.
  split; [|vm_compute; reflexivity].
  apply (ET_next (Amount 5 PDay) " 5days" " " Minus "" _ "weekly+ 90  mins"); [apply (AT_number " " "5" "" "days" PDay)|..]; try (vm_compute; tauto).
  { split; [reflexivity|discriminate]. } { vm_compute. discriminate. }
  apply (ET_next (Amount 1 PWeek) "weekly" "" Plus " " _ "90  mins"); [apply (AT_adverb "weekly" AWeekly)|..]; try (vm_compute; tauto).
  apply ET_last. apply (AT_number "" "90" "  " "mins" PMinute); try (vm_compute; tauto).
  { split; [reflexivity|discriminate]. } { vm_compute. discriminate. }
Qed.

(** C49. The value of a parsed amount expression is the left-to-right value of its text.
    Missing: the code reads everything after an operator as its right operand, so the statement holds
    only if no operator follows a minus (second theorem); the value in general is [right_value]. *)
Theorem C49_value_partial : forall cfg pd pdt md now1 now2 e s rest, expr_text e s -> stop rest ->
  no_iso cfg pd pdt (s ++ rest) -> no_iso cfg pd pdt (drop_blanks (s ++ rest)) -> total e <= i64_max ->
  exists t v, parse md cfg pd pdt now1 now2 (s ++ rest) = Ok (PTimeType t) /\
    calculate md t = Ok (mk (expr_unit e) v) /\ v * unit_secs (expr_unit e) = right_value e.
Proof. exact parse_amounts. Qed.
Print Assumptions C49_value_partial.
Theorem C49_left_to_right_partial : forall cfg pd pdt md now1 now2 e s rest, expr_text e s -> stop rest ->
  no_iso cfg pd pdt (s ++ rest) -> no_iso cfg pd pdt (drop_blanks (s ++ rest)) -> total e <= i64_max -> minus_last e = true ->
  exists t v, parse md cfg pd pdt now1 now2 (s ++ rest) = Ok (PTimeType t) /\
    calculate md t = Ok (mk (expr_unit e) v) /\ v * unit_secs (expr_unit e) = left_value e.
Proof. exact parse_amounts_left. Qed.
Print Assumptions C49_left_to_right_partial.
Definition C49_expr : amountexpr := AENext (Amount 3 PDay) Minus (AENext (Amount 2 PDay) Plus (AELast (Amount 1 PDay))).
Theorem C49_left_to_right_refuted : forall cfg md now1 now2, expr_text C49_expr "3 days - 2 days + 1 day" /\ left_value C49_expr = 2 * 86400 /\
  exists t, parse md cfg none none now1 now2 "3 days - 2 days + 1 day" = Ok (PTimeType t) /\ calculate md t = Ok (Days 0).
Proof.
  intros cfg md now1 now2. split; [|split; [reflexivity|]].
  - apply (ET_next (Amount 3 PDay) "3 days" " " Minus " " _ "2 days + 1 day"); [apply (AT_number "" "3" " " "days" PDay)|..]; try (vm_compute; tauto).
    { split; [reflexivity|discriminate]. } { vm_compute. discriminate. }
    apply (ET_next (Amount 2 PDay) "2 days" " " Plus " " _ "1 day"); [apply (AT_number "" "2" " " "days" PDay)|..]; try (vm_compute; tauto).
    { split; [reflexivity|discriminate]. } { vm_compute. discriminate. }
    apply ET_last. apply (AT_number "" "1" " " "day" PDay); try (vm_compute; tauto).
    { split; [reflexivity|discriminate]. } { vm_compute. discriminate. }
  - exists (Subtraction (Days 3) (Addition (Days 2) (Days 1))). destruct cfg as [[] []], md; vm_compute; split; reflexivity.
Qed.
Print Assumptions C49_left_to_right_refuted.
Example C49_case : minus_last C49_expr = false /\ minus_last (AENext (Amount 2 PWeek) Plus (AENext (Amount 1 PDay) Minus (AELast (Amount 3 PHour)))) = true /\
  total C49_expr = 6 * 86400 /\ no_iso (mkcfg false true) none none "2 weeks" /\
  exists t, parse Checked (mkcfg false true) none none (mkdt 2016 1 1 0 0 0 0) (mkdt 2016 1 1 0 0 0 0) "2 weeks + 1 day - 3 hrs, then" = Ok (PTimeType t) /\
    calculate Checked t = Ok (Hours (15 * 24 - 3)).
Proof.
  split; [reflexivity|]. split; [reflexivity|]. split; [reflexivity|]. split; [split; left; reflexivity|].
  exists (Addition (Days 14) (Subtraction (Days 1) (Hours 3))). vm_compute. repeat split.
Qed.

(** C55. Termination and consumption. *)
Theorem C55_amounts : forall cfg s, eats (amount_expr cfg) s.
Proof. exact eats_expr. Qed.
Print Assumptions C55_amounts.
Theorem C55_fuel_irrelevant : forall cfg f1 f2 s, (length s < f1)%nat -> (length s < f2)%nat -> amount_expr_fuel cfg f1 s = amount_expr_fuel cfg f2 s.
Proof. exact fuel_irrelevant. Qed.
Print Assumptions C55_fuel_irrelevant.
Theorem C55_iterators : forall cfg pd pdt, (forall s, fine pd s) -> (forall s, fine pdt s) -> forall s, eats (iterator cfg pd pdt) s.
Proof. exact eats_iterator. Qed.
Print Assumptions C55_iterators.
Theorem C55_dates : forall cfg pd pdt, (forall s, fine pd s) -> (forall s, fine pdt s) -> forall s, fine (timetype_parser cfg pd pdt) s.
Proof. exact fine_timetype. Qed.
Print Assumptions C55_dates.
Theorem C55_parse : forall cfg pd pdt, (forall s, fine pd s) -> (forall s, fine pdt s) ->
  forall md now1 now2 s, fine (do_parse md cfg pd pdt now1 now2) s.
Proof. exact fine_do_parse. Qed.
Print Assumptions C55_parse.
Example C55_case : (forall s, fine (@none isodate) s) /\ suffix "d" "5 d" /\
  map (fun cfg => amount_expr cfg "5 d + 3 x") cfgs = repeat (Done "+ 3 x" (AELast (Amount 5 PDay))) 4.
Proof. split; [intro s; exact I|]. split; [exists "5 "; reflexivity|]. vm_compute. reflexivity. Qed.
