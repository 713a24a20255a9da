(** Specification of f64 results, over Coq's real numbers and Flocq's rounding. *)
From Coq Require Import Reals.
From Flocq Require Import Core IEEE754.BinarySingleNaN IEEE754.Bits.
From Verif Require Import Model.Base Model.F64 Model.DataInfo.

(** the f64 nearest to a real number, ties to even *)
Definition nearest (r : R) : R := round radix2 (FLT_exp (-1074) 53) ZnearestE r.

(** [x] is a well-formed finite f64 with value [r] *)
Definition is_f64 (x : f64) (r : R) : Prop :=
  valid_binary 53 1024 x = true /\ is_finite_SF x = true /\ SF2R radix2 x = r.

(** the number in little-endian bytes *)
Fixpoint le_number (l : list N) : N :=
  match l with [] => 0 | b :: l => b + 256 * le_number l end.
(** ... read as two's complement *)
Definition twos_complement (l : list N) : Z :=
  let n := Z.of_N (le_number l) in
  let modulus := (2 ^ (8 * Z.of_nat (length l)))%Z in
  if (2 * n <? modulus)%Z then n else (n - modulus)%Z.

(** packed decimal digits, least significant byte first, low nibble first *)
Definition nibbles (l : list N) : list N := flat_map (fun b => [b mod 16; b / 16]) l.
Fixpoint decimal (digits : list N) : N :=
  match digits with [] => 0 | d :: l => d + 10 * decimal l end.
Definition all_decimal (l : list N) : Prop := Forall (fun d => d < 10) (nibbles l).
(** [ordered lsb body]: the bytes in the order in which they are read *)
Definition ordered (lsb : bool) (body : list N) : list N := if lsb then rev body else body.

(** [x] is the double with the value of the single precision number [b] *)
Definition same_number (b : binary32) (x : f64) : Prop :=
  match b with
  | Binary.B754_zero _ _ s => x = S754_zero s
  | Binary.B754_infinity _ _ s => x = S754_infinity s
  | Binary.B754_nan _ _ _ _ _ => x = S754_nan
  | Binary.B754_finite _ _ s m e _ =>
      is_f64 x (F2R (Float radix2 (cond_Zopp s (Zpos m)) e)) /\ sign_SF x = s
  end.

(** a number whose value is the real [r] rounded to the nearest f64 *)
Definition is_number (r : R) (x : data_type) : Prop := exists f, x = Number f /\ is_f64 f r.
