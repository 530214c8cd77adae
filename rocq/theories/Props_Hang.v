(** Property C96: filtered iterations return, and when they do not. *)
Require Import ZArith Bool List Lia.
From Verif Require Import Prelude Spec Chrono TimeType Matcher Iter SpecTree SpecMoment SpecIter SpecAdapt SpecHang SpecAnswer IterProofs IterProofs2 AdapterProofs AdapterProofs3 HangProofs.
Import ListNotations.
Local Open Scope Z_scope.

(** C96. An iteration whose step moves yields finitely many moments [l] and then one error for ever. A filter by weekday or month yields those of
    them that match (or do not match) and then the same error; every call returns. *)
Theorem C96_returns : forall md m u n it, build m (mk u n) = Ok it -> dt_valid m = true -> moving u n ->
  exists l e, Forall (fun x => dt_valid x = true) l /\ (forall j, items (iter_next md) (length l + j) it = listed l ++ failing e j) /\
  forall j fuel, (length l + j <= fuel)%nat ->
  (forall d, items (filter_next (iter_next md) fuel (day_matches d)) (length (filter (on_day d) l) + j) it = listed (filter (on_day d) l) ++ failing e j /\
     items (without_next (iter_next md) fuel (day_matches d)) (length (filter (fun x => negb (on_day d x)) l) + j) it = listed (filter (fun x => negb (on_day d x)) l) ++ failing e j) /\
  (forall mo, items (filter_next (iter_next md) fuel (month_matches mo)) (length (filter (in_ymonth mo) l) + j) it = listed (filter (in_ymonth mo) l) ++ failing e j /\
     items (without_next (iter_next md) fuel (month_matches mo)) (length (filter (fun x => negb (in_ymonth mo x)) l) + j) it = listed (filter (fun x => negb (in_ymonth mo x)) l) ++ failing e j).
Proof. exact filtered_ends. Qed.
Print Assumptions C96_returns.
(** A step of zero: the first call never returns, unless the start is what is asked for. *)
Theorem C96_zero : forall md m u it, build m (mk u 0) = Ok it -> dt_valid m = true ->
  (forall d, if on_day d m then hangs (fun f => without_next (iter_next md) f (day_matches d)) it else hangs (fun f => filter_next (iter_next md) f (day_matches d)) it) /\
  (forall mo, if in_ymonth mo m then hangs (fun f => without_next (iter_next md) f (month_matches mo)) it else hangs (fun f => filter_next (iter_next md) f (month_matches mo)) it).
Proof. exact zero_hangs. Qed.
Print Assumptions C96_zero.
(** For all steps and all matchers: the call hangs exactly if all items are moments that are passed over. *)
Theorem C96_every_hangs : forall md mt m inc it, build m inc = Ok it -> dt_valid m = true -> tt_ok inc = true -> (forall v, mt v <> OutOfFuel) ->
  (hangs (fun f => filter_next (iter_next md) f mt) it <-> forall k, exists v, call_answer md m inc k = Ok v /\ mt v = Ok false).
Proof. exact every_hangs. Qed.
Print Assumptions C96_every_hangs.
Theorem C96_without_hangs : forall md mt m inc it, build m inc = Ok it -> dt_valid m = true -> tt_ok inc = true -> (forall v, mt v <> OutOfFuel) ->
  (hangs (fun f => without_next (iter_next md) f mt) it <-> forall k, exists v, call_answer md m inc k = Ok v /\ mt v = Ok true).
Proof. exact without_hangs. Qed.
Print Assumptions C96_without_hangs.
(** Over an iteration with a bound, every call returns: times(n) over anything that returns, until(end) over a step that moves. *)
Theorem C96_times : forall md S (nx : next_fn S) n s mt, in_i64 n = true -> 0 <= n -> (forall k, nth_item nx k s <> Some OutOfFuel) -> (forall v, mt v <> OutOfFuel) ->
  forall j fuel, (Z.to_nat n + j < fuel)%nat ->
  nth_item (filter_next (times_next md nx) fuel mt) j (times_new s n) <> Some OutOfFuel /\ nth_item (without_next (times_next md nx) fuel mt) j (times_new s n) <> Some OutOfFuel.
Proof. exact filter_times. Qed.
Print Assumptions C96_times.
Theorem C96_until : forall md m u n it ending mt, build m (mk u n) = Ok it -> dt_valid m = true -> moving u n -> (forall v, mt v <> OutOfFuel) ->
  exists K, forall j fuel, (K + j < fuel)%nat ->
  nth_item (filter_next (until_next md (iter_next md) ending) fuel mt) j it <> Some OutOfFuel /\ nth_item (without_next (until_next md (iter_next md) ending) fuel mt) j it <> Some OutOfFuel.
Proof. exact filter_until. Qed.
Print Assumptions C96_until.

Definition C96_late : datetime := mkdt max_year 12 29 10 0 0 0.
Definition C96_it : iter := mkiter (Moment C96_late) (Days 1) false.
Example C96_case : build C96_late (mk UDay 1) = Ok C96_it /\ dt_valid C96_late = true /\ moving UDay 1 /\ moving UMonth (-3) /\
  let l := [C96_late; mkdt max_year 12 30 10 0 0 0; mkdt max_year 12 31 10 0 0 0] in
  let e := OutOfBounds (max_year + 1) 1 10 10 0 0 in
  items (iter_next Checked) 5 C96_it = listed l ++ failing e 2 /\
  filter (on_day Tuesday) l = [mkdt max_year 12 31 10 0 0 0] /\ filter (in_ymonth May) l = [] /\
  items (filter_next (iter_next Checked) 5 (day_matches Tuesday)) 3 C96_it = listed [mkdt max_year 12 31 10 0 0 0] ++ failing e 2 /\
  items (filter_next (iter_next Checked) 5 (month_matches May)) 2 C96_it = failing e 2.
Proof.
  split; [reflexivity|]. split; [reflexivity|]. split; [left; vm_compute; split; [reflexivity|discriminate]|]. split; [right; split; [discriminate|reflexivity]|].
  cbv zeta. refine (conj _ (conj _ (conj _ (conj _ _)))); vm_compute; reflexivity.
Qed.
Example C96_bounded_case : let nx := iter_next Checked in let end_ := mkdt max_year 12 30 10 0 0 1 in
  (forall v, day_matches Tuesday v <> OutOfFuel) /\
  items (filter_next (times_next Checked nx) 6 (day_matches Tuesday)) 3 (times_new C96_it 3) = listed [mkdt max_year 12 31 10 0 0 0] ++ [None; None] /\
  items (filter_next (until_next Checked nx end_) 6 (day_matches Tuesday)) 2 C96_it = None :: failing (OutOfBounds (max_year + 1) 1 10 10 0 0) 1.
Proof. cbv zeta. split; [intros []; discriminate|]. split; vm_compute; reflexivity. Qed.
(** A Friday for ever: `daily(0)` filtered by Saturday. *)
Example C96_zero_case : let m := mkdt 2016 1 29 10 0 0 5 in exists it, build m (mk UDay 0) = Ok it /\ dt_valid m = true /\ on_day Friday m = true /\ on_day Saturday m = false /\
  hangs (fun f => filter_next (iter_next Checked) f (day_matches Saturday)) it /\
  fst (filter_next (iter_next Checked) 1 (day_matches Friday) it) = Some (Ok (Moment m)).
Proof.
  cbv zeta. eexists. split; [reflexivity|]. split; [reflexivity|]. split; [reflexivity|]. split; [reflexivity|]. split; [|reflexivity].
  exact (proj1 (C96_zero Checked (mkdt 2016 1 29 10 0 0 5) UDay _ eq_refl eq_refl) Saturday).
Qed.
(** So does a step of 2^32 years, which is not a moving one. *)
Example C96_large_case : let m := mkdt 2016 1 29 10 0 0 0 in let it := mkiter (Moment m) (Years 4294967296) false in
  build m (Years 4294967296) = Ok it /\ (forall v, day_matches Saturday v <> OutOfFuel) /\
  forall md, hangs (fun f => filter_next (iter_next md) f (day_matches Saturday)) it.
Proof.
  cbv zeta. split; [reflexivity|]. split; [intros []; discriminate|]. intros md fuel. apply every_diverges. clear fuel.
  assert (A : forall j, after (iter_next md) (S j) (mkiter (Moment (mkdt 2016 1 29 10 0 0 0)) (Years 4294967296) false) = mkiter (Moment (mkdt 2016 1 29 10 0 0 0)) (Years 4294967296) true).
  { induction j as [|j IH]; [reflexivity|]. rewrite after_S, IH. destruct md; vm_compute; reflexivity. }
  intros [|i]; [vm_compute; reflexivity|]. unfold nth_item. rewrite A. destruct md; vm_compute; reflexivity.
Qed.
