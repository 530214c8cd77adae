(** Sanity tests of the model against the unit tests of /repo (tests, not proofs). *)
Require Import ZArith Bool String List.
From Verif Require Import Prelude Spec Chrono Util TimeType Matcher Iter Nom ParserTimetype ParserIterator ParserMod.
Import ListNotations.
Local Open Scope Z_scope.

Definition D y m d := mkdt y m d 0 0 0 0.
Definition DT y m d h mi s := mkdt y m d h mi s 0.
Definition c := calculate Checked.

(** src/timetype.rs 2000-01-01 family of tests *)
Example t1 : c (op_add (Moment (D 2000 10 31)) (Months 4)) = Ok (Moment (D 2001 3 1)). Proof. vm_compute. reflexivity. Qed.
Example t2 : c (op_add (Moment (D 2000 10 31)) (Months 5)) = Ok (Moment (D 2001 4 1)). Proof. vm_compute. reflexivity. Qed.
Example t3 : c (op_add (Moment (D 2000 1 1)) (Days 80)) = Ok (Moment (D 2000 3 21)). Proof. vm_compute. reflexivity. Qed.
Example t4 : c (op_add (Moment (D 2000 1 1)) (Days 120)) = Ok (Moment (D 2000 4 30)). Proof. vm_compute. reflexivity. Qed.
Example t5 : c (op_add (Moment (D 2000 1 1)) (Days 150)) = Ok (Moment (D 2000 5 30)). Proof. vm_compute. reflexivity. Qed.
Example t6 : c (op_sub (Moment (D 2000 1 1)) (Seconds 1)) = Ok (Moment (DT 1999 12 31 23 59 59)). Proof. vm_compute. reflexivity. Qed.
Example t7 : c (op_sub (Moment (D 2000 1 1)) (Months 12)) = Ok (Moment (D 1999 1 1)). Proof. vm_compute. reflexivity. Qed.
Example t8 : c (op_add (Moment (D 2000 1 1)) (op_add (Months 1) (Days 1))) = Ok (Moment (D 2000 2 1)). Proof. vm_compute. reflexivity. Qed.
Example t9 : adjust_times_sub (E := kek) Checked 1 0 1 0 0 0 = Ok (0, 12, 1, 0, 0, 0). Proof. vm_compute. reflexivity. Qed.
Example t10 : is_a (Moment (D 2000 1 1)) Saturday = Ok true. Proof. vm_compute. reflexivity. Qed.
Example t11 : c (op_add (Moment (D 2000 12 31)) (Days 31)) = Ok (Moment (D 2001 2 1)). Proof. vm_compute. reflexivity. Qed.
Example t12 : c (op_add (Moment (D 2000 1 1)) (Years 4294967296)) = Ok (Moment (D 2000 1 1)). Proof. vm_compute. reflexivity. Qed.
Example t13 : c (op_sub (Moment (DT 2000 1 1 0 5 0)) (Seconds 60)) = Ok (Moment (DT 2000 1 1 0 3 0)). Proof. vm_compute. reflexivity. Qed.

Definition cfg0 := mkcfg false true.
Definition no_iso {A} : parser A := fun _ => PError.
Definition prs := parse Checked cfg0 no_iso no_iso (D 2000 1 1) (D 2000 1 1).
Example p1 : prs "5min + 12min" = Ok (PTimeType (op_add (Minutes 5) (Minutes 12))). Proof. vm_compute. reflexivity. Qed.
Example p2 : prs "today + 10 weeks - 2 days" = Ok (PTimeType (op_add (Moment (D 2000 1 1)) (op_sub (Days 70) (Days 2)))). Proof. vm_compute. reflexivity. Qed.
Example p3 : exists it, prs "today every 5min 10 times" = Ok (PIterator (Ok (UITimes (times_new it 10)))). Proof. eexists. vm_compute. reflexivity. Qed.
Example p4 : prs "2000000000000000000 weeks" = Panic PArith. Proof. vm_compute. reflexivity. Qed.
