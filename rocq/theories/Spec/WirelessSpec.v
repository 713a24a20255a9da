(** Wireless M-Bus frames of EN 13757-4, written without reference to the parser. *)
From Coq Require Import List NArith.
Import ListNotations.
From Verif Require Import Model.Core Model.Wireless Spec.CoreSpec Spec.CrcSpec Spec.WiredSpec.
Open Scope N_scope.

(** [identity m0 m1 i0 i1 i2 i3 v d ci id]: the eight address bytes of the link header
    followed by the byte [ci] name the meter [id].  The device byte is shared with
    other information when [ci] is manufacturer specific (0xA0-0xAF): only its upper
    half is the device type then. *)
Definition identity (m0 m1 i0 i1 i2 i3 v d ci : N) (id : manufacturer_id) : Prop :=
  let code := mi_manufacturer_code id in
  capital (mc1 code) /\ capital (mc2 code) /\ capital (mc3 code) /\
  m0 + 256 * m1 = flag_id (mc1 code) (mc2 code) (mc3 code) /\
  (exists digits, spells digits [i0; i1; i2; i3] /\ mi_identification_number id = decimal digits) /\
  mi_version id = v /\
  mi_device_type id =
    device_type_from_u8 (if andb (0xA0 <=? ci) (ci <=? 0xAF) then d / 16 else d) /\
  mi_is_unique_globally id = false.

(** the payload of a frame: what follows the header, without a trailing CRC over
    the whole frame when there is one *)
Definition payload_of (header rest payload : list N) : Prop :=
  (exists hi lo, rest = payload ++ [hi; lo] /\ is_crc (header ++ payload) (256 * hi + lo)) \/
  (payload = rest /\
   forall p hi lo, rest = p ++ [hi; lo] -> ~ is_crc (header ++ p) (256 * hi + lo)).

(** the bytes have a decodable header: L, C, the address bytes and at least one more *)
Definition header_decodes (data : list N) : Prop :=
  exists l c m0 m1 i0 i1 i2 i3 v d ci rest id,
    data = l :: c :: m0 :: m1 :: i0 :: i1 :: i2 :: i3 :: v :: d :: ci :: rest /\
    identity m0 m1 i0 i1 i2 i3 v d ci id.

(** the bytes are a wireless frame with this content *)
Definition wireless_meaning (data : list N) (fr : wireless_frame) : Prop :=
  exists l c m0 m1 i0 i1 i2 i3 v d ci rest,
    data = [l; c; m0; m1; i0; i1; i2; i3; v; d] ++ ci :: rest /\
    l + 1 = N.of_nat (length data) /\
    wf_control_field fr = c /\
    (forall f, wf_function fr = Some f <-> In (c, f) function_codes) /\
    identity m0 m1 i0 i1 i2 i3 v d ci (wf_manufacturer_id fr) /\
    payload_of [l; c; m0; m1; i0; i1; i2; i3; v; d] (ci :: rest) (wf_data fr).

(** Format A: after the first block, content in blocks of 16 bytes (the last one may
    be shorter), each followed by its CRC, high byte first *)
Inductive format_a_rest : list N -> list N -> Prop :=
| FNone : format_a_rest [] []
| FLast c hi lo :
    (1 <= length c <= 16)%nat -> is_crc c (256 * hi + lo) ->
    format_a_rest c (c ++ [hi; lo])
| FFull c hi lo content encoded :
    length c = 16%nat -> is_crc c (256 * hi + lo) -> format_a_rest content encoded ->
    format_a_rest (c ++ content) (c ++ [hi; lo] ++ encoded).

(** Format A encoding of a frame: first block of 10 bytes, then the rest *)
Inductive format_a : list N -> list N -> Prop :=
| FFrame head hi lo content encoded :
    length head = 10%nat -> is_crc head (256 * hi + lo) -> format_a_rest content encoded ->
    format_a (head ++ content) (head ++ [hi; lo] ++ encoded).

(** [strips encoded content]: [content] is [encoded] with some byte pairs taken out, each
    the CRC of the 1 to 16 bytes before it *)
Inductive strips : list N -> list N -> Prop :=
| StripsKeep tail : strips tail tail
| StripsBlock c hi lo encoded content :
    (1 <= length c <= 16)%nat -> is_crc c (256 * hi + lo) -> strips encoded content ->
    strips (c ++ [hi; lo] ++ encoded) (c ++ content).

(** the frame with its length byte recomputed *)
Definition with_length (frame : list N) : list N :=
  match frame with
  | [] => []
  | _ :: rest => N.of_nat (length rest) mod 256 :: rest
  end.
