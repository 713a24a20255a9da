(** When and why an encrypted message is not decrypted, written without reference to the code. *)
From Coq Require Import List NArith String.
Import ListNotations.
From Verif Require Import Model.Base Model.Text Model.Core Model.Wireless Spec.CoreSpec.
Open Scope N_scope.
Open Scope list_scope.

(** [transport payload mode maker block]: the transport header of [payload] announces the security
    mode [mode] for [block]; a long header also has the manufacturer id [maker] *)
Inductive transport : list N -> N -> option N -> list N -> Prop :=
| TransportLong ci i0 i1 i2 i3 m0 m1 v d acc st c0 c1 block : ci = 0x72 \/ ci = 0x76 ->
    transport ([ci; i0; i1; i2; i3; m0; m1; v; d; acc; st; c0; c1] ++ block) (c1 mod 32) (Some (m0 + 256 * m1)) block
| TransportShort ci acc st c0 c1 block : ci = 0x7A \/ 0xA1 <= ci <= 0xAF ->
    transport ([ci; acc; st; c0; c1] ++ block) (c1 mod 32) None block
| TransportShortA0 x acc st c0 c1 block : transport ([0xA0; x; acc; st; c0; c1] ++ block) (c1 mod 32) None block
| TransportEll cc acc rest mode maker block : transport rest mode maker block -> transport ([0x8C; cc; acc] ++ rest) mode maker block.

(** the meter that sealed the message is known: from the manufacturer id in the long header, if it
    spells three letters, or else from the link layer *)
Definition sender_known (maker : option N) (id : option manufacturer_id) : Prop :=
  match maker with
  | Some m => exists a b c, capital a /\ capital b /\ capital c /\ m = flag_id a b c
  | None => id <> None
  end.
(** AES-128 in cipher block chaining mode, with the vector from the address (5) or zero (7) *)
Definition aes_mode (mode : N) : Prop := mode = 5 \/ mode = 7.
Definition unsupported_code : text := txt "security.unsupported_mode".
Definition failed_code : text := txt "security.decryption_failed".
