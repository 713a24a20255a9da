(** C40, C41, C62-C65: the labelled byte ranges of a frame. *)
From Coq Require Import List NArith Lia.
Import ListNotations.
From Verif Require Import Model.Base Model.Core Model.Wired Model.Wireless Model.DataInfo Model.ValueInfo Model.Record
  Model.MbusData Model.Annotate Spec.CrcSpec Spec.WiredSpec Spec.WirelessSpec Spec.RecordSpec Spec.AnnotateSpec Spec.OutputSpec
  Proof.WirelessFacts Proof.AnnotateFacts Proof.AnnotateFormatA Proof.AnnotateRecords Proof.AnnotateApp Proof.AnnotateProps Proof.AnnotatePanic.
Open Scope N_scope.

(** C40 as stated fails for the single character with bytes after it: the frame is
    accepted, and only its first byte is labelled *)
Theorem C40_tiling_refuted : forall cf, exists data segs i,
  bytes_ok data /\ annotate_frame cf data = Ok segs /\ i < len data /\
  forall s, In s segs -> ~ covers s i.
Proof. exact tiling_refuted. Qed.
Print Assumptions C40_tiling_refuted.

(** ... but for every other input: non-empty ranges, in order, contiguous, from the first
    byte to the last *)
Theorem C40_tiling_partial : forall cf data segs, annotate_frame cf data = Ok segs ->
  (forall rest, data = 0xE5 :: rest -> rest = []) -> tiles 0 segs (len data).
Proof. exact tiling_partial. Qed.
Print Assumptions C40_tiling_partial.

(** hence each byte has exactly one label *)
Theorem C40_one_label_per_byte_partial : forall cf data segs, annotate_frame cf data = Ok segs ->
  (forall rest, data = 0xE5 :: rest -> rest = []) ->
  forall i, i < len data -> exists! s, In s segs /\ covers s i.
Proof. exact one_label_partial. Qed.
Print Assumptions C40_one_label_per_byte_partial.

(** labelling the records of a decrypted payload keeps this *)
Theorem C40_decrypted_view_tiles : forall cf segs display out n,
  tiles 0 segs n -> n <= len display -> replace_encrypted cf segs display = Ok out -> tiles 0 out n.
Proof. exact replace_keeps_tiling. Qed.
Print Assumptions C40_decrypted_view_tiles.

Example C40_example : exists segs, annotate_frame debug ex_wired_clear = Ok segs /\
  length segs = 23%nat /\ tiles 0 segs 32.
Proof. exact wired_clear_example. Qed.

(** no part of an encrypted payload is presented as record fields: it is one range *)
Theorem C41_encrypted_payload : forall cf data start p block,
  bytes_ok data -> carries data start p -> encrypted_message p block ->
  exists segs, annotate_frame cf data = Ok segs /\
    (forall s, In s segs -> record_kind (s_kind s) = false) /\
    filter (fun s => match s_kind s with KEncryptedPayload => true | _ => false end) segs =
      match block with
      | [] => []
      | _ => [seg (start + len p - len block) (start + len p) KEncryptedPayload None LRecordField]
      end /\
    slice data (start + len p - len block) (start + len p) = block.
Proof. exact encrypted_annotation. Qed.
Print Assumptions C41_encrypted_payload.

(** in Format A input the range is interrupted by the CRCs only *)
Theorem C41_encrypted_payload_format_a : forall cf frame fr encoded block,
  bytes_ok encoded -> bytes_ok frame -> format_a frame encoded -> wireless_meaning frame fr ->
  not_wired frame -> no_first_crc frame -> not_wired encoded ->
  encrypted_message (wf_data fr) block ->
  exists segs, annotate_frame cf encoded = Ok segs /\
    (forall i k g l, i < len encoded -> label_at segs i = Some (k, g, l) -> record_kind k = false) /\
    (forall j, 10 + len (wf_data fr) - len block <= j < 10 + len (wf_data fr) ->
       label_at segs (format_a_position j) = Some (KEncryptedPayload, None, LRecordField)).
Proof. exact encrypted_format_a. Qed.
Print Assumptions C41_encrypted_payload_format_a.

Example C41_example : bytes_ok ex_wired_encrypted /\ carries ex_wired_encrypted 6 ex_encrypted_message /\
  encrypted_message ex_encrypted_message (repeat 0x2F 16).
Proof. exact encrypted_example. Qed.
Example C41_format_a_example : exists fr,
  bytes_ok ex_air_encoded /\ bytes_ok ex_air /\ format_a ex_air ex_air_encoded /\ wireless_meaning ex_air fr /\
  not_wired ex_air /\ no_first_crc ex_air /\ not_wired ex_air_encoded /\
  encrypted_message (wf_data fr) (repeat 0x2F 16).
Proof. exact air_example. Qed.

(** annotation fails exactly for the inputs no link layer accepts, with one error *)
Theorem C62_errors : forall cf data e, bytes_ok data -> annotate_frame cf data = Err e ->
  e = AError (MFrameError InvalidStartByte) /\ not_wired data /\
  (forall fr, wireless_try_from data <> Ok fr) /\
  (forall s out, strip_format_a_crcs data (repeat 0 512) = Ok (Some s, out) -> forall fr, wireless_try_from s <> Ok fr).
Proof. exact annotate_errors. Qed.
Print Assumptions C62_errors.
Theorem C62_success : forall cf data segs, bytes_ok data -> annotate_frame cf data = Ok segs ->
  (exists fr, wired_meaning data fr) \/ (exists fr, wireless_try_from data = Ok fr) \/
  (exists s out fr, strip_format_a_crcs data (repeat 0 512) = Ok (Some s, out) /\ wireless_try_from s = Ok fr).
Proof. exact annotate_success. Qed.
Print Assumptions C62_success.
Example C62_success_example : exists segs, bytes_ok ex_air_encoded /\ annotate_frame debug ex_air_encoded = Ok segs.
Proof. eexists. split; [repeat constructor|vm_compute; reflexivity]. Qed.

(** ... and it panics only for a wired frame of 4 or 5 bytes with overflow checks, or for one of the records whose reading
    panics (C20) *)
Theorem C62_panics : forall cf data, bytes_ok data -> is_panic (annotate_frame cf data) ->
  (overflow_checks cf = true /\ get data 0 = Some 0x68 /\ 4 <= len data <= 5) \/
  exists w pre suf post, normalized data w /\ w = pre ++ suf ++ post /\ panic_cause cf suf.
Proof. exact annotate_panic. Qed.
Print Assumptions C62_panics.

Example C62_panics_example :
  is_panic (annotate_frame debug (long_frame ([0x78] ++ [0x01; 0x7D; 5]))) /\ panic_cause debug [0x01; 0x7D; 5].
Proof. exact annotate_panic_example. Qed.
Example C62_example : annotate_frame debug [1; 2; 3] = Err (AError (MFrameError InvalidStartByte)).
Proof. vm_compute. reflexivity. Qed.

(** Format A input has the labels of the frame it encodes, moved to where the bytes are,
    and the label CRC on every other byte *)
Theorem C63_format_a_labels : forall cf frame fr encoded plain, bytes_ok encoded -> bytes_ok frame ->
  format_a frame encoded -> wireless_meaning frame fr ->
  not_wired frame -> no_first_crc frame -> not_wired encoded ->
  annotate_frame cf frame = Ok plain ->
  exists segs, annotate_frame cf encoded = Ok segs /\
    (forall j, j < len frame -> label_at segs (format_a_position j) = label_at plain j) /\
    (forall i, i < len encoded -> (forall j, j < len frame -> i <> format_a_position j) ->
       label_at segs i = Some (KCrc, None, LFrame)).
Proof. exact format_a_labels. Qed.
Print Assumptions C63_format_a_labels.

Example C63_example : exists segs plain, annotate_frame debug ex_air = Ok plain /\
  annotate_frame debug ex_air_encoded = Ok segs /\ label_at segs 10 = Some (KCrc, None, LFrame) /\
  label_at segs 12 = label_at plain 10 /\ label_at plain 10 = Some (KCiField, None, LAppHeader).
Proof. exact air_labels_example. Qed.

(** C64 as stated fails: the global readout request is a record to the parser and not to
    the annotator; and with the text-first setting the extension and text labels are swapped *)
Theorem C64_record_groups_refuted : forall cf, exists data p block segs items r,
  bytes_ok data /\ carries data 6 p /\ clear_message p block /\ annotate_frame cf data = Ok segs /\
  records_all cf block None = Some items /\ nth_error items 0 = Some (Ok r) /\ group segs 0 = [].
Proof. exact groups_refuted. Qed.
Print Assumptions C64_record_groups_refuted.
Theorem C64_text_first_refuted : exists data p block segs items r,
  bytes_ok data /\ carries data 6 p /\ clear_message p block /\
  annotate_frame text_first data = Ok segs /\ records_all text_first block None = Some items /\
  nth_error items 0 = Some (Ok r) /\ fields data (group segs 0) <> record_parts r.
Proof. exact groups_text_first_refuted. Qed.
Print Assumptions C64_text_first_refuted.

(** otherwise the ranges of group number [k] are the parts of the [k]-th decoded record,
    and there are no other groups *)
Theorem C64_record_groups_partial : forall cf data start p block segs items,
  bytes_ok data -> carries data start p -> clear_message p block ->
  annotate_frame cf data = Ok segs -> records_all cf block None = Some items -> Forall (item_ok cf) items ->
  (forall k r, nth_error items k = Some (Ok r) -> fields data (group segs (N.of_nat k)) = record_parts r) /\
  (forall g, (forall k r, nth_error items k = Some (Ok r) -> g <> N.of_nat k) -> group segs g = []).
Proof. exact record_groups. Qed.
Print Assumptions C64_record_groups_partial.

Example C64_example : exists segs items r0 r1,
  bytes_ok ex_wired_clear /\ carries ex_wired_clear 6 ex_clear_message /\ clear_message ex_clear_message ex_clear_block /\
  annotate_frame debug ex_wired_clear = Ok segs /\ records_all debug ex_clear_block None = Some items /\
  Forall (item_ok debug) items /\ items = [Ok r0; Ok r1] /\
  record_parts r1 = [(KDif, [0x01]); (KVif, [0xFD]); (KVife, [0x17]); (KDataPayload, [5])].
Proof. exact groups_example. Qed.

(** the labels of the header bytes *)
Theorem C65_frame_header : forall cf data start p segs,
  bytes_ok data -> carries data start p -> annotate_frame cf data = Ok segs ->
  labels_from segs 0 (if start =? 6 then wired_labels else wireless_labels) LFrame /\
  (start = 6 -> labels_from segs (6 + len p) [KChecksum; KStopByte] LFrame).
Proof. exact frame_header_labels. Qed.
Print Assumptions C65_frame_header.
Theorem C65_long_header : forall cf data start ci i0 i1 i2 i3 m0 m1 v d acc st c0 c1 block segs,
  bytes_ok data -> ci = 0x72 \/ ci = 0x76 ->
  carries data start ([ci; i0; i1; i2; i3; m0; m1; v; d; acc; st; c0; c1] ++ block) ->
  annotate_frame cf data = Ok segs -> labels_from segs start long_header_labels LAppHeader.
Proof. exact long_header_labelled. Qed.
Print Assumptions C65_long_header.
Theorem C65_short_header : forall cf data start ci acc st c0 c1 block segs,
  bytes_ok data -> ci = 0x7A \/ 0xA1 <= ci <= 0xAF ->
  carries data start ([ci; acc; st; c0; c1] ++ block) ->
  annotate_frame cf data = Ok segs -> labels_from segs start short_header_labels LAppHeader.
Proof. exact short_header_labelled. Qed.
Print Assumptions C65_short_header.
Example C65_short_example : exists segs,
  bytes_ok ex_air /\ carries ex_air 10 ([0x7A; 9; 0; 0; 5] ++ repeat 0x2F 16) /\ annotate_frame debug ex_air = Ok segs /\
  label_at segs 11 = Some (KAccessNumber, None, LAppHeader).
Proof.
  destruct air_example as (fr & _ & B & _ & W & NW & NC & _ & E). eexists. split; [exact B|]. split.
  - replace ([0x7A; 9; 0; 0; 5] ++ repeat 0x2F 16) with (wf_data fr); [now constructor|].
    apply (WirelessFacts.wireless_ok_iff _ _ B) in W. vm_compute in W. injection W as <-. reflexivity.
  - split; vm_compute; reflexivity.
Qed.

Example C65_example : exists segs, annotate_frame debug ex_wired_clear = Ok segs /\
  labels_from segs 6 long_header_labels LAppHeader.
Proof. exact header_example. Qed.
