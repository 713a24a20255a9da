(** CRC of EN 13757-4 as a remainder of polynomials over GF(2), written without
    reference to the code.  A polynomial is a number: bit i is the coefficient of x^i. *)
From Coq Require Import List NArith.
Import ListNotations.
Open Scope N_scope.

(** x^16+x^13+x^12+x^11+x^10+x^8+x^6+x^5+x^2+1 *)
Definition crc_poly : N := 2^16 + 2^13 + 2^12 + 2^11 + 2^10 + 2^8 + 2^6 + 2^5 + 2^2 + 1.

(** product of polynomials; [q] lists its coefficients from x^0 upwards *)
Fixpoint gf2_mul (q : list bool) (p : N) : N :=
  match q with
  | [] => 0
  | b :: q' => N.lxor (if b then p else 0) (2 * gf2_mul q' p)
  end.

(** the message as one polynomial, first byte most significant *)
Definition message_poly (data : list N) : N := fold_left (fun acc b => 256 * acc + b) data 0.

(** [c] is the CRC of [data]: the complement of the remainder of
    message * x^16 divided by [crc_poly] *)
Definition is_crc (data : list N) (c : N) : Prop :=
  c < 2 ^ 16 /\
  exists quotient, message_poly data * 2 ^ 16 =
    N.lxor (gf2_mul quotient crc_poly) (N.lxor c 0xFFFF).
