(** C10-C13: the wireless link layer. *)
From Coq Require Import List NArith Lia.
Import ListNotations.
From Verif Require Import Model.Base Model.Core Model.Wireless Spec.CoreSpec Spec.CrcSpec Spec.WiredSpec
  Spec.WirelessSpec Proof.CrcFacts Proof.WirelessFacts Proof.FormatAFacts Proof.FormatAProps.
Open Scope N_scope.

Theorem C10_wireless_acceptance_exact : forall data fr, bytes_ok data ->
  wireless_try_from data = Ok fr <-> wireless_meaning data fr.
Proof. exact wireless_ok_iff. Qed.
Print Assumptions C10_wireless_acceptance_exact.

Theorem C10_wireless_errors : forall data, bytes_ok data ->
  ~ is_panic (wireless_try_from data) /\
  (wireless_try_from data = Err WlEmptyData <-> data = []) /\
  (wireless_try_from data = Err WlTooShort <-> data <> [] /\ ~ header_decodes data) /\
  (forall e a, wireless_try_from data = Err (WlWrongLength e a) <->
     header_decodes data /\ a = len data /\ e <> a /\ exists l, get data 0 = Some l /\ e = l + 1).
Proof. exact wireless_errors. Qed.
Print Assumptions C10_wireless_errors.

(** a frame of 14 bytes from meter ABB 12345678, version 1, water meter *)
Definition ex_wireless : list N :=
  [13; 0x44; 0x42; 0x04; 0x78; 0x56; 0x34; 0x12; 1; 7; 0x78; 0x0D; 0xFD; 0x11].

Example C10_example : exists fr,
  wireless_try_from ex_wireless = Ok fr /\ wf_data fr = [0x78; 0x0D; 0xFD; 0x11] /\
  mi_identification_number (wf_manufacturer_id fr) = 12345678 /\
  wireless_meaning ex_wireless fr.
Proof.
  eexists. split; [vm_compute; reflexivity|]. split; [reflexivity|]. split; [reflexivity|].
  apply wireless_ok_iff; [|vm_compute; reflexivity].
  repeat (apply Forall_cons; [reflexivity|]); apply Forall_nil.
Qed.

(** whatever the output buffer held *)
Theorem C11_format_a_inverse : forall frame encoded output,
  format_a frame encoded -> bytes_ok encoded -> len encoded <= len output ->
  strip_format_a_crcs encoded output =
    Ok (Some (with_length frame), with_length frame ++ skipn (length frame) output).
Proof. exact strip_format_a. Qed.
Print Assumptions C11_format_a_inverse.

(** every frame of at least ten bytes has a Format A encoding *)
Theorem C11_encoding_exists : forall frame, bytes_ok frame -> 10 <= len frame ->
  exists encoded, format_a frame encoded /\ bytes_ok encoded.
Proof. exact format_a_exists. Qed.
Print Assumptions C11_encoding_exists.

(** stripping then gives back the frame itself when its length byte was right *)
Theorem C11_strip_then_parse : forall frame encoded output,
  format_a frame encoded -> bytes_ok encoded -> len encoded <= len output ->
  get frame 0 = Some (len frame - 1) -> len frame <= 256 ->
  exists output', strip_format_a_crcs encoded output = Ok (Some frame, output').
Proof. exact strip_identity. Qed.
Print Assumptions C11_strip_then_parse.

Example C11_example : exists encoded output',
  format_a ex_wireless encoded /\ len encoded = 18 /\
  strip_format_a_crcs encoded (repeat 0xAA 20) = Ok (Some ex_wireless, output').
Proof. exact format_a_example. Qed.

Theorem C12_format_a_safe : forall data output, bytes_ok data ->
  (strip_format_a_crcs data output = Ok (None, output) /\
   (len data < 12 \/ len output < len data \/
    exists head hi lo enc, data = head ++ [hi; lo] ++ enc /\ len head = 10 /\ ~ is_crc head (256 * hi + lo))) \/
  (exists head hi lo enc content,
     data = head ++ [hi; lo] ++ enc /\ len head = 10 /\ is_crc head (256 * hi + lo) /\
     len data <= len output /\ strips enc content /\
     strip_format_a_crcs data output =
       Ok (Some (with_length (head ++ content)),
           with_length (head ++ content) ++ skipn (length (head ++ content)) output)).
Proof. exact strip_cases. Qed.
Print Assumptions C12_format_a_safe.

(** removing CRCs never makes the content longer *)
Theorem C12_strips_shrinks : forall encoded content, strips encoded content -> len content <= len encoded.
Proof. exact strips_len. Qed.
Print Assumptions C12_strips_shrinks.

Example C12_example :
  strip_format_a_crcs (repeat 0 20) (repeat 7 30) = Ok (None, repeat 7 30).
Proof. vm_compute. reflexivity. Qed.

(** any burst of at most 16 bits, at whatever bit position *)
Theorem C13_crc_detects_bursts : forall m m' d k, bytes_ok m -> bytes_ok m' ->
  N.lxor (message_poly m) (message_poly m') = d * 2 ^ N.of_nat k -> 0 < d < 2 ^ 16 ->
  crc16_en13757 m <> crc16_en13757 m'.
Proof. exact crc_burst. Qed.
Print Assumptions C13_crc_detects_bursts.

Theorem C13_crc_detects_two_adjacent_bytes : forall pre a b a' b' post,
  bytes_ok (pre ++ [a; b] ++ post) -> a' < 256 -> b' < 256 -> (a, b) <> (a', b') ->
  crc16_en13757 (pre ++ [a; b] ++ post) <> crc16_en13757 (pre ++ [a'; b'] ++ post).
Proof. exact crc_two_bytes. Qed.
Print Assumptions C13_crc_detects_two_adjacent_bytes.

Theorem C13_crc_detects_one_byte : forall pre a a' post,
  bytes_ok (pre ++ a :: post) -> a' < 256 -> a <> a' ->
  crc16_en13757 (pre ++ a :: post) <> crc16_en13757 (pre ++ a' :: post).
Proof. exact crc_one_byte. Qed.
Print Assumptions C13_crc_detects_one_byte.

Example C13_example :
  crc16_en13757 ([1; 2] ++ [3; 4] ++ [5]) <> crc16_en13757 ([1; 2] ++ [3; 5] ++ [5]) /\
  N.lxor (message_poly [1; 2; 3]) (message_poly [1; 0x82; 3]) = 1 * 2 ^ N.of_nat 15.
Proof. split; [vm_compute; discriminate|reflexivity]. Qed.

(** the CRC is the remainder EN 13757-4 defines *)
Theorem C56_crc_is_polynomial_remainder : forall data c, bytes_ok data ->
  c = crc16_en13757 data <-> is_crc data c.
Proof. exact crc_iff. Qed.
Print Assumptions C56_crc_is_polynomial_remainder.

Example C56_example : is_crc [0x31; 0x32; 0x33; 0x34; 0x35; 0x36; 0x37; 0x38; 0x39] 0xC2B7.
Proof.
  apply crc_iff; [|vm_compute; reflexivity].
  repeat (apply Forall_cons; [reflexivity|]); apply Forall_nil.
Qed.

(** a corrupted later block is not reported: its bytes and its CRC are passed on as
    content, and the frame is accepted by the next layer *)
Theorem C57_format_a_corruption_refuted : exists frame encoded i b content output' fr,
  bytes_ok encoded /\ format_a frame encoded /\ (i < length encoded)%nat /\ b < 256 /\
  nth_error encoded i <> Some b /\
  strip_format_a_crcs (replace_byte encoded i b) (repeat 0 100) = Ok (Some content, output') /\
  content <> frame /\ wireless_try_from content = Ok fr.
Proof. exact format_a_corruption_refuted. Qed.
Print Assumptions C57_format_a_corruption_refuted.

(** what holds: a change of one byte in the first block or its CRC is always noticed *)
Theorem C57_format_a_corruption_partial : forall frame encoded output i b,
  format_a frame encoded -> bytes_ok encoded -> (i < 12)%nat -> b < 256 ->
  nth_error encoded i <> Some b ->
  strip_format_a_crcs (replace_byte encoded i b) output = Ok (None, output).
Proof. exact format_a_first_block. Qed.
Print Assumptions C57_format_a_corruption_partial.

Example C57_example : exists encoded, format_a ex_wireless encoded /\ bytes_ok encoded.
Proof.
  apply format_a_exists; [|vm_compute; discriminate].
  repeat (apply Forall_cons; [reflexivity|]); apply Forall_nil.
Qed.
