(** Model of /repo/fuzz/fuzz_targets/parse.rs. *)
Require Import ZArith Bool String Ascii.
From Verif Require Import Prelude Chrono TimeType Nom ParserTimetype ParserIterator ParserMod.
Local Open Scope Z_scope.

(** A byte as a number (fuzz/fuzz_targets/parse.rs 5: `data: &[u8]`). *)
Definition byte (c : ascii) : Z := Z.of_nat (nat_of_ascii c).
(** Range test used below (fuzz/fuzz_targets/parse.rs 6). *)
Definition within (lo hi : Z) (c : ascii) : bool := (lo <=? byte c) && (byte c <=? hi).
(** Is a byte a continuation byte (fuzz/fuzz_targets/parse.rs 6). *)
Definition cont : ascii -> bool := within 128 191.

(** `std::str::from_utf8(data).is_ok()` (fuzz/fuzz_targets/parse.rs 6): the validation of the Rust standard
    library, which is not part of /repo; the table of first and second bytes is that of its source. *)
Fixpoint utf8_ok (s : string) : bool :=
  match s with
  | EmptyString => true
  | String c0 s0 =>
      if byte c0 <? 128 then utf8_ok s0
      else match s0 with
      | EmptyString => false
      | String c1 s1 =>
          if within 194 223 c0 then cont c1 && utf8_ok s1
          else match s1 with
          | EmptyString => false
          | String c2 s2 =>
              if within 224 239 c0 then
                (if byte c0 =? 224 then within 160 191 c1
                 else if byte c0 =? 237 then within 128 159 c1 else cont c1) && cont c2 && utf8_ok s2
              else match s2 with
              | EmptyString => false
              | String c3 s3 =>
                  within 240 244 c0 &&
                  (if byte c0 =? 240 then within 144 191 c1
                   else if byte c0 =? 244 then within 128 143 c1 else cont c1) && cont c2 && cont c3 && utf8_ok s3
              end
          end
      end
  end.

Section Target.
Variable md : mode.
Variable cfg : nom_cfg.
Variable parse_date : parser isodate.
Variable parse_datetime : parser (isodate * isotime).
Variables now1 now2 : datetime.

(** fuzz/fuzz_targets/parse.rs 5-9: the fuzzer reports a crash if this panics. *)
Definition fuzz_target (data : string) : outcome kek unit :=
  if utf8_ok data then
    match parse md cfg parse_date parse_datetime now1 now2 data with
    | Ok _ | Err _ => Ok tt
    | Panic p => Panic p
    | OutOfFuel => OutOfFuel
    end
  else Ok tt.
End Target.
