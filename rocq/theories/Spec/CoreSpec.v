(** Codings of EN 13757-3 / EN 62056-21 for meter identities, written without
    reference to the decoder. *)
From Coq Require Import List NArith.
Import ListNotations.
Open Scope N_scope.

(** capital ASCII letter *)
Definition capital (c : N) : Prop := 65 <= c <= 90.

(** the 15-bit id of the three letter code [a b c]: 'A' counts 1, five bits each *)
Definition flag_id (a b c : N) : N := (a - 64) * 32 * 32 + (b - 64) * 32 + (c - 64).

(** [spells digits bytes]: the packed BCD bytes hold the decimal digits, least
    significant first, low nibble first *)
Fixpoint spells (digits bytes : list N) : Prop :=
  match digits, bytes with
  | [], [] => True
  | lo :: hi :: digits', b :: bytes' =>
      lo <= 9 /\ hi <= 9 /\ b = 16 * hi + lo /\ spells digits' bytes'
  | _, _ => False
  end.

(** the number with these decimal digits, least significant first *)
Fixpoint decimal (digits : list N) : N :=
  match digits with [] => 0 | d :: digits' => d + 10 * decimal digits' end.
