(** f64 and f32 values: the standard library's executable IEEE-754 model
    (Coq.Floats.SpecFloat).  Rust's f64 arithmetic is IEEE binary64, round to
    nearest even; NaN payloads are not represented. *)
From Coq Require Import Floats.SpecFloat.
From Verif Require Import Model.Base.
Export SpecFloat.

Notation f64 := spec_float (only parsing).

(** [a + b], [a * b] on f64 *)
Definition f64_add (a b : f64) : f64 := SFadd 53 1024 a b.
Definition f64_mul (a b : f64) : f64 := SFmul 53 1024 a b.

(** [i as f64] for an integer type: round to nearest even *)
Definition f64_of_Z (z : Z) : f64 := binary_normalize 53 1024 z 0 false.

(** [f64::from(f32::from_le_bytes(..))] given the 32 bit pattern:
    crates/m-bus-application-layer/src/data_information.rs:631-633.  Every f32 is
    representable as f64; [binary_normalize] brings the mantissa into the
    canonical 53 bit form. *)
Definition f64_of_f32_bits (w : N) : f64 :=
  let sign := N.testbit w 31 in
  let e := N.land (N.shiftr w 23) 0xFF in
  let m := N.land w 0x7FFFFF in
  let signed (m : N) := if sign then (- Z.of_N m)%Z else Z.of_N m in
  if e =? 255 then (if m =? 0 then S754_infinity sign else S754_nan)
  else if e =? 0 then
    (if m =? 0 then S754_zero sign
     else binary_normalize 53 1024 (signed m) (-149) sign)
  else binary_normalize 53 1024 (signed (m + 0x800000)) (Z.of_N e - 150) sign.
