(** Properties C108-C109: parts of seconds have no influence; the calendar repeats every 400 years. *)
Require Import ZArith Bool List.
From Verif Require Import Prelude Spec Chrono TimeType Matcher Iter SpecTree SpecMoment SpecIter SpecShift ShiftProofs3.
Import ListNotations.
Local Open Scope Z_scope.

(** C108. Cutting off the parts of seconds of all moments before an evaluation is the same as cutting them off afterwards. *)
Theorem C108_values : forall md t, tt_ok t = true -> calculate md (over whole_second t) = result_over whole_second (calculate md t).
Proof. exact whole_calc. Qed.
Print Assumptions C108_values.
Definition C108_now : datetime := mkdt 2016 2 29 12 34 56 789000000.
Example C108_values_case : let now := Moment C108_now in let m := Moment (whole_second C108_now) in
  tt_ok now = true /\ over whole_second now = m /\ calculate Checked now = Ok now /\ calculate Checked m = Ok m /\
  calculate Checked (Addition now (Hours 36)) = Ok (Moment (mkdt 2016 3 2 0 34 56 0)) /\
  calculate Checked (Addition m (Hours 36)) = Ok (Moment (mkdt 2016 3 2 0 34 56 0)) /\
  calculate Checked (Addition (Days 1) now) = Err (CannotAdd (Days 1) now) /\ calculate Checked (Addition (Days 1) m) = Err (CannotAdd (Days 1) m).
Proof. cbv zeta. repeat split; vm_compute; reflexivity. Qed.
(** Items after the first do not depend on them at all, errors and panics included. *)
Theorem C108_items : forall md m inc it it' k, dt_valid m = true -> tt_ok inc = true -> build m inc = Ok it -> build (whole_second m) inc = Ok it' ->
  nth_item (iter_next md) (S k) it' = nth_item (iter_next md) (S k) it.
Proof. exact whole_items. Qed.
Print Assumptions C108_items.
Example C108_items_case : forall md,
  items (iter_next md) 3 (mkiter (Moment C108_now) (Days 1) false) =
    [Some (Ok (Moment C108_now)); Some (Ok (Moment (mkdt 2016 3 1 12 34 56 0))); Some (Ok (Moment (mkdt 2016 3 2 12 34 56 0)))] /\
  build C108_now (Days 1) = Ok (mkiter (Moment C108_now) (Days 1) false) /\
  items (iter_next md) 3 (mkiter (Moment (whole_second C108_now)) (Days 1) false) =
    [Some (Ok (Moment (whole_second C108_now))); Some (Ok (Moment (mkdt 2016 3 1 12 34 56 0))); Some (Ok (Moment (mkdt 2016 3 2 12 34 56 0)))].
Proof. intros []; repeat split; vm_compute; reflexivity. Qed.
(** Of the parts of seconds of an end, items at full seconds only see whether there are any. *)
Theorem C108_until : forall md St (nx : next_fn St) e s k, 0 <= nano e ->
  (forall t, nth_item nx k s = Some (Ok t) -> exists m, t = Moment m /\ nano m = 0) ->
  nth_item (until_next md nx e) k s = nth_item (until_next md nx (rounded e)) k s.
Proof. exact until_rounded. Qed.
Print Assumptions C108_until.
Definition C108_last (ns : Z) : datetime := mkdt 2018 1 1 11 0 0 ns.
Example C108_until_case : forall md, let it := mkiter (Moment (mkdt 2018 1 1 10 0 0 0)) (Hours 1) false in
  rounded (C108_last 500000000) = C108_last 1 /\ rounded (C108_last 0) = C108_last 0 /\
  items (until_next md (iter_next md) (C108_last 500000000)) 3 it = [Some (Ok (Moment (mkdt 2018 1 1 10 0 0 0))); Some (Ok (Moment (C108_last 0))); None] /\
  items (until_next md (iter_next md) (C108_last 1)) 3 it = [Some (Ok (Moment (mkdt 2018 1 1 10 0 0 0))); Some (Ok (Moment (C108_last 0))); None] /\
  items (until_next md (iter_next md) (C108_last 0)) 3 it = [Some (Ok (Moment (mkdt 2018 1 1 10 0 0 0))); None; None].
Proof. intros []; cbv zeta; repeat split; vm_compute; reflexivity. Qed.

(** C109. If all moments are moved by [400 * k] years, the value is moved too. The only other outcomes: the moved value of some part
    is outside the calendar, or the number of a year does not fit 64 bits. *)
Theorem C109_values : forall md k t v, tt_ok t = true -> tt_ok (over (later k) t) = true -> calculate md t = Ok v ->
  match calculate md (over (later k) t) with
  | Ok v' => v' = over (later k) v
  | Err e => (exists y mo d h mi s, e = OutOfBounds y mo d h mi s) /\
      exists s x, part s t /\ calculate md s = Ok (Moment x) /\ ~ (min_year <= year x + 400 * k <= max_year)
  | Panic p => md = Checked /\ p = PArith
  | OutOfFuel => False
  end.
Proof. exact later_leaves. Qed.
Print Assumptions C109_values.
Definition C109_leap (y : Z) : timetype := Moment (mkdt y 2 29 12 0 0 5).
Example C109_values_case : forall md, let t := fun y => EndOfMonth (Subtraction (Addition (C109_leap y) (Days 1)) (Months 1)) in
  over (later 1) (t 2016) = t 2416 /\ calculate md (t 2016) = Ok (Moment (mkdt 2016 2 29 0 0 0 0)) /\ calculate md (t 2416) = Ok (Moment (mkdt 2416 2 29 0 0 0 0)) /\
  over (later (-7)) (t 2016) = t (-784) /\ calculate md (t (-784)) = Ok (Moment (mkdt (-784) 2 29 0 0 0 0)).
Proof. intros []; cbv zeta; repeat split; vm_compute; reflexivity. Qed.
(** A part that leaves the calendar on the way. *)
Example C109_leaves_case : forall md, let t := fun y => Subtraction (Addition (C109_leap y) (Years 30000)) (Years 30000) in
  over (later 600) (t 2016) = t 242016 /\ calculate md (t 2016) = Ok (Moment (mkdt 2016 2 29 12 0 0 0)) /\
  calculate md (t 242016) = Err (OutOfBounds 272016 2 12 12 0 0).
Proof. intros []; cbv zeta; repeat split; vm_compute; reflexivity. Qed.
(** A count of years that is cut to 32 bits, and the same count 400 years later. *)
Example C109_panic_case : let t := fun y => Addition (C109_leap y) (Years (i64_max - 2016)) in
  over (later 1) (t 2016) = t 2416 /\ tt_ok (t 2016) = true /\ tt_ok (t 2416) = true /\
  calculate Checked (t 2016) = Ok (Moment (mkdt (-1) 3 1 12 0 0 0)) /\ calculate Checked (t 2416) = Panic PArith /\
  calculate Wrapping (t 2416) = Ok (Moment (mkdt 399 3 1 12 0 0 0)).
Proof. cbv zeta. repeat split; vm_compute; reflexivity. Qed.
(** If the moved values of all parts are inside the calendar, there is no error. *)
Theorem C109_stays : forall md k t v, tt_ok t = true -> tt_ok (over (later k) t) = true -> calculate md t = Ok v ->
  (forall s x, part s t -> calculate md s = Ok (Moment x) -> min_year <= year x + 400 * k <= max_year) ->
  calculate md (over (later k) t) = Ok (over (later k) v) \/ (md = Checked /\ calculate md (over (later k) t) = Panic PArith).
Proof. exact later_stays. Qed.
Print Assumptions C109_stays.
Example C109_stays_case : let t := Addition (C109_leap 2016) (Years 1) in
  forall s x, part s t -> calculate Checked s = Ok (Moment x) -> min_year <= year x + 400 * 1 <= max_year.
Proof.
  cbv zeta. intros s x H. inversion H; subst; try (match goal with E : end_of ?q _ = _ |- _ => destruct q; discriminate E end);
    try (match goal with P : part s _ |- _ => inversion P; subst; try (match goal with E : end_of ?q _ = _ |- _ => destruct q; discriminate E end) end);
    vm_compute; intros [= <-]; split; discriminate.
Qed.
(** Iterations. *)
Theorem C109_items : forall md k m inc it it' j v v', dt_valid m = true -> dt_valid (later k m) = true -> tt_ok inc = true ->
  build m inc = Ok it -> build (later k m) inc = Ok it' ->
  nth_item (iter_next md) j it = Some (Ok v) -> nth_item (iter_next md) j it' = Some (Ok v') -> v' = over (later k) v.
Proof. exact later_items. Qed.
Print Assumptions C109_items.
Theorem C109_items_stay : forall md k m inc it it' j x, dt_valid m = true -> dt_valid (later k m) = true -> tt_ok inc = true ->
  build m inc = Ok it -> build (later k m) inc = Ok it' -> nth_item (iter_next md) j it = Some (Ok (Moment x)) ->
  (forall i y, (i <= j)%nat -> nth_item (iter_next md) i it = Some (Ok (Moment y)) -> min_year <= year y + 400 * k <= max_year) ->
  nth_item (iter_next md) j it' = Some (Ok (Moment (later k x))) \/ (md = Checked /\ nth_item (iter_next md) j it' = Some (Panic PArith)).
Proof. exact later_items_stay. Qed.
Print Assumptions C109_items_stay.
Example C109_items_case : forall md, let start := fun y => mkdt y 1 31 8 0 0 0 in
  later 2 (start 2016) = start 2816 /\ build (start 2016) (Months 1) = Ok (mkiter (Moment (start 2016)) (Months 1) false) /\
  items (iter_next md) 3 (mkiter (Moment (start 2016)) (Months 1) false) =
    [Some (Ok (Moment (start 2016))); Some (Ok (Moment (mkdt 2016 3 2 8 0 0 0))); Some (Ok (Moment (mkdt 2016 4 2 8 0 0 0)))] /\
  items (iter_next md) 3 (mkiter (Moment (start 2816)) (Months 1) false) =
    [Some (Ok (Moment (start 2816))); Some (Ok (Moment (mkdt 2816 3 2 8 0 0 0))); Some (Ok (Moment (mkdt 2816 4 2 8 0 0 0)))].
Proof. intros []; cbv zeta; repeat split; vm_compute; reflexivity. Qed.
(** Weekdays, months and the order stay the same; every step of 400 years is 146097 days long. *)
Theorem C109_queries : forall k t,
  (forall d, is_a (over (later k) t) d = is_a t d /\ day_matches d (over (later k) t) = day_matches d t /\ day_filter d (over (later k) t) = day_filter d t) /\
  (forall mo, is_in (over (later k) t) mo = is_in t mo /\ month_matches mo (over (later k) t) = month_matches mo t /\ month_filter mo (over (later k) t) = month_filter mo t).
Proof. exact queries_later. Qed.
Print Assumptions C109_queries.
Theorem C109_order : forall k x y, tt_compare (over (later k) x) (over (later k) y) = tt_compare x y.
Proof. exact order_later. Qed.
Print Assumptions C109_order.
Theorem C109_elapsed : forall k m, inst (later k m) = inst m + k * 146097 * 86400.
Proof. exact elapsed_later. Qed.
Print Assumptions C109_elapsed.
Example C109_queries_case : over (later 1) (C109_leap 2016) = C109_leap 2416 /\ is_a (C109_leap 2016) Monday = Ok true /\ is_a (C109_leap 2416) Monday = Ok true /\
  is_in (C109_leap 2416) February = Ok true /\ tt_compare (C109_leap 2016) (Moment (mkdt 2016 3 1 0 0 0 0)) = Lt /\
  tt_compare (C109_leap 2416) (Moment (mkdt 2416 3 1 0 0 0 0)) = Lt /\ inst (mkdt 2416 2 29 12 0 0 5) - inst (mkdt 2016 2 29 12 0 0 5) = 146097 * 86400.
Proof. repeat split; vm_compute; reflexivity. Qed.
