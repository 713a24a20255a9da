(** C133: wireless frames give back what the sender put in. *)
From Coq Require Import List NArith Lia.
Import ListNotations.
From Verif Require Import Model.Base Model.Core Model.Wireless Spec.CoreSpec Spec.CrcSpec
  Spec.WirelessSpec Spec.SenderSpec Proof.BaseFacts Proof.WirelessFacts Proof.SenderProps.
Open Scope N_scope.

(** with a CRC over the whole frame at its end: the header and the payload come back *)
Theorem C133_with_crc : forall s ci payload hi lo, sender_ok s ->
  bytes_ok (ci :: payload ++ [hi; lo]) -> len (ci :: payload ++ [hi; lo]) <= 246 ->
  is_crc (link_header s (len (ci :: payload ++ [hi; lo])) ++ ci :: payload) (256 * hi + lo) ->
  exists fr, wireless_try_from (link_header s (len (ci :: payload ++ [hi; lo])) ++ ci :: payload ++ [hi; lo]) = Ok fr /\
    comes_from s ci fr /\ wf_data fr = ci :: payload.
Proof. exact with_crc. Qed.
Print Assumptions C133_with_crc.

Example C133_with_crc_example : sender_ok ex_sender /\ exists hi lo,
  is_crc (link_header ex_sender 6 ++ [0x78; 0x0D; 0xFD; 0x11]) (256 * hi + lo).
Proof. split; [exact ex_sender_ok|]. do 2 eexists. exact ex_is_crc. Qed.

(** without one the whole payload should come back, but one that happens to end like
    such a CRC loses its last two bytes *)
Theorem C133_without_crc_refuted : exists s ci rest fr, sender_ok s /\ bytes_ok (ci :: rest) /\
  len (ci :: rest) <= 246 /\
  wireless_try_from (link_header s (len (ci :: rest)) ++ ci :: rest) = Ok fr /\ wf_data fr <> ci :: rest.
Proof. exact lost_refuted. Qed.
Print Assumptions C133_without_crc_refuted.

(** every other payload comes back whole; missing: the payloads of the theorem above *)
Theorem C133_without_crc_partial : forall s ci rest, sender_ok s -> bytes_ok (ci :: rest) ->
  len (ci :: rest) <= 246 ->
  (forall p hi lo, ci :: rest = p ++ [hi; lo] ->
     ~ is_crc (link_header s (len (ci :: rest)) ++ p) (256 * hi + lo)) ->
  exists fr, wireless_try_from (link_header s (len (ci :: rest)) ++ ci :: rest) = Ok fr /\
    comes_from s ci fr /\ wf_data fr = ci :: rest.
Proof. exact without_crc. Qed.
Print Assumptions C133_without_crc_partial.

Example C133_without_crc_example : exists fr,
  wireless_try_from (link_header ex_sender 4 ++ [0x78; 0x0D; 0xFD; 0x11]) = Ok fr /\
  comes_from ex_sender 0x78 fr /\ wf_data fr = [0x78; 0x0D; 0xFD; 0x11].
Proof. exact without_crc_example. Qed.

(** no frame with bytes missing or added at its end is a frame too *)
Theorem C133_delimited : forall data ext fr fr',
  wireless_try_from data = Ok fr -> wireless_try_from (data ++ ext) = Ok fr' -> ext = [].
Proof. exact delimits. Qed.
Print Assumptions C133_delimited.

Example C133_delimited_example :
  is_ok (wireless_try_from (link_header ex_sender 4 ++ [0x78; 0x0D; 0xFD; 0x11])) /\
  wireless_try_from (link_header ex_sender 4 ++ [0x78; 0x0D; 0xFD; 0x11; 0]) = Err (WlWrongLength 14 15).
Proof. split; [eexists; vm_compute; reflexivity|vm_compute; reflexivity]. Qed.

(** a frame whose content no longer fits its CRC should be refused *)
Theorem C133_damage_refuted : exists s ci pre b post hi lo b' fr, sender_ok s /\ b' <> b /\
  is_crc (link_header s (len (ci :: pre ++ b :: post ++ [hi; lo])) ++ ci :: pre ++ b :: post) (256 * hi + lo) /\
  wireless_try_from (link_header s (len (ci :: pre ++ b :: post ++ [hi; lo])) ++ ci :: pre ++ b' :: post ++ [hi; lo]) = Ok fr.
Proof. exact damage_refuted. Qed.
Print Assumptions C133_damage_refuted.

(** what happens instead, for every changed payload byte: the frame is accepted, and its
    payload is two bytes longer, the CRC *)
Theorem C133_damage_partial : forall s ci pre b post hi lo b', sender_ok s ->
  bytes_ok (ci :: pre ++ b :: post ++ [hi; lo]) ->
  len (ci :: pre ++ b :: post ++ [hi; lo]) <= 246 -> b' < 256 -> b' <> b ->
  is_crc (link_header s (len (ci :: pre ++ b :: post ++ [hi; lo])) ++ ci :: pre ++ b :: post) (256 * hi + lo) ->
  exists fr,
    wireless_try_from (link_header s (len (ci :: pre ++ b :: post ++ [hi; lo])) ++ ci :: pre ++ b' :: post ++ [hi; lo]) = Ok fr /\
    comes_from s ci fr /\ wf_data fr = ci :: pre ++ b' :: post ++ [hi; lo].
Proof. exact damaged. Qed.
Print Assumptions C133_damage_partial.

(** C57, what happens to damage behind the first block, whatever it is: the frame is
    accepted and named after its sender, and every byte that is not the CRC of a block
    before it becomes payload *)
Theorem C57_later_blocks_partial : forall s n hi lo enc output, sender_ok s -> n <= 246 ->
  hi < 256 -> lo < 256 ->
  is_crc (link_header s n) (256 * hi + lo) -> bytes_ok enc -> 1 <= len enc <= 246 ->
  12 + len enc <= len output ->
  exists ci content output' fr,
    strips enc (ci :: content) /\
    strip_format_a_crcs (link_header s n ++ [hi; lo] ++ enc) output =
      Ok (Some (link_header s (len (ci :: content)) ++ ci :: content), output') /\
    wireless_try_from (link_header s (len (ci :: content)) ++ ci :: content) = Ok fr /\
    comes_from s ci fr.
Proof. exact later_blocks. Qed.
Print Assumptions C57_later_blocks_partial.

Example C57_later_blocks_example :
  is_crc (link_header ex_sender 4) (256 * (ex_first / 256) + ex_first mod 256) /\
  bytes_ok [0x78; 0x0D; 0xFD; 0x11] /\ ~ is_crc [0x78; 0x0D] 0xFD11 /\
  exists output', strip_format_a_crcs
    (link_header ex_sender 4 ++ [ex_first / 256; ex_first mod 256] ++ [0x78; 0x0D; 0xFD; 0x11]) (repeat 0 40) =
    Ok (Some (link_header ex_sender 4 ++ [0x78; 0x0D; 0xFD; 0x11]), output').
Proof. exact later_example. Qed.
