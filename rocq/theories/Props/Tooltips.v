(** Property theorems about the text shown over each byte range of a frame. *)
From Coq Require Import List NArith ZArith Bool String.
Import ListNotations.
From Verif Require Import Model.Base Model.Text Model.Core Model.F64 Model.Wired Model.Wireless Model.DataInfo Model.ValueInfo
  Model.Record Model.MbusData Model.Hex Model.Show Model.Legacy Model.Annotate Model.AnnotateText Model.Output
  Spec.CoreSpec Spec.WiredSpec Spec.CrcSpec Spec.WirelessSpec Spec.RecordSpec Spec.AnnotateSpec Spec.LegacySpec Spec.TooltipSpec
  Proof.AnnotateProps Proof.OutputProps Proof.LegacyProps Proof.IterFacts
  Proof.TooltipFacts Proof.TooltipFrames Proof.TooltipFormatA Proof.TooltipProps.
Open Scope N_scope.
Open Scope list_scope.

(** ** C119: the text over a byte range says what these bytes hold *)

(** the texts are those of the ranges of the annotation, one each *)
Theorem C119_one_text_each cf display data : ranges (frame_told cf display data) = annotate_frame cf data.
Proof. exact (frame_ranges cf display data). Qed.
Print Assumptions C119_one_text_each.

(** Wired frames.  Missing: the second start byte of a long frame, if it is not 0x68, and the text of a VIF with the
    text-first setting; both are refuted below. *)
Theorem C119_wired_partial cf display data fr l : bytes_ok data -> wired_meaning data fr ->
  frame_told cf display data = Ok l -> Forall (right_text cf false data) l.
Proof. exact (tooltips_wired cf display data fr l). Qed.
Print Assumptions C119_wired_partial.
Example C119_wired_example : exists fr l, bytes_ok ex_wired_clear /\ wired_meaning ex_wired_clear fr /\
  frame_told debug ex_display ex_wired_clear = Ok l /\ length l = 23%nat /\ get ex_wired_clear 3 = Some 0x68 /\
  plaintext_before_extension debug = false /\
  text_at l 4 = Some (txt "C Field: RSP_UD (ACD: false, DFC: false)") /\ text_at l 15 = Some (txt "Access Number: 9").
Proof. exact wired_tooltips_example. Qed.

(** wireless frames *)
Theorem C119_wireless_partial cf display data l : bytes_ok data -> not_wired data -> no_first_crc data ->
  frame_told cf display data = Ok l -> Forall (right_text cf true data) l.
Proof. exact (tooltips_wireless cf display data l). Qed.
Print Assumptions C119_wireless_partial.

(** wireless frames with the checksums of Format A: the same texts over the bytes of the frame, and over the checksums these *)
Theorem C119_format_a cf display frame fr encoded plain :
  bytes_ok encoded -> bytes_ok frame -> format_a frame encoded -> wireless_meaning frame fr ->
  not_wired frame -> no_first_crc frame -> not_wired encoded -> frame_told cf display frame = Ok plain ->
  exists l, frame_told cf display encoded = Ok l /\
    (forall j, j < len frame -> text_at l (format_a_position j) = text_at plain j) /\
    (forall i, i < len encoded -> (forall j, j < len frame -> i <> format_a_position j) ->
       exists c a b, (i = c \/ i = c + 1) /\ slice encoded c (c + 2) = [a; b] /\
         (forall j, j < len frame -> c <> format_a_position j /\ c + 1 <> format_a_position j) /\
         text_at l i = Some (txt "CRC: 0x" ++ hex_of [a; b])).
Proof. exact (tooltips_format_a cf display frame fr encoded plain). Qed.
Print Assumptions C119_format_a.
Example C119_air_example : exists fr l plain,
  bytes_ok ex_air_encoded /\ bytes_ok ex_air /\ format_a ex_air ex_air_encoded /\ wireless_meaning ex_air fr /\
  not_wired ex_air /\ no_first_crc ex_air /\ not_wired ex_air_encoded /\
  frame_told debug ex_display ex_air = Ok plain /\ frame_told debug ex_display ex_air_encoded = Ok l /\
  text_at l 12 = Some (txt "CI: 0x7A (Short TPL)") /\ text_at plain 10 = Some (txt "CI: 0x7A (Short TPL)").
Proof. exact air_tooltips_example. Qed.

(** the text over the data of record [k] is the value that decoding the message gives to record [k] *)
Theorem C119_values cf display data start p block l items :
  bytes_ok data -> carries data start p -> clear_message p block -> frame_told cf display data = Ok l ->
  records_all cf block None = Some items -> Forall not_readout items ->
  forall s t, In (s, t) l -> s_kind s = KDataPayload ->
  exists k r, nth_error items k = Some (Ok r) /\ s_group s = Some (N.of_nat k) /\ value_told display r t.
Proof. exact (frame_values cf display data start p block l items). Qed.
Print Assumptions C119_values.
Example C119_values_example : exists l items,
  bytes_ok ex_wired_clear /\ carries ex_wired_clear 6 ex_clear_message /\ clear_message ex_clear_message ex_clear_block /\
  frame_told debug ex_display ex_wired_clear = Ok l /\ records_all debug ex_clear_block None = Some items /\
  Forall not_readout items /\ text_at l 22 = Some (txt "1.5") /\ label_at (map fst l) 22 = Some (KDataPayload, Some 0, LRecordField).
Proof. exact values_example. Qed.

(** In the view of a decrypted message a text is one of the frame as received, or it is right for the bytes shown and lies
    in a range that was encrypted. *)
Theorem C119_decrypted_view cf display radio shown l out : bytes_ok shown ->
  replace_encrypted_told cf display l shown = Ok out -> forall s t, In (s, t) out -> In (s, t) l \/
    (right_text cf radio shown (s, t) /\
     exists e x, In (e, x) l /\ s_kind e = KEncryptedPayload /\ s_start e <= s_start s /\ s_end s <= s_end e).
Proof. exact (fun Hb => view_texts cf display radio shown Hb l out). Qed.
Print Assumptions C119_decrypted_view.
Example C119_view_example : exists l out, bytes_ok (long_frame (sealed_head ++ ex_clear_block)) /\
  frame_told debug ex_display (long_frame (sealed_head ++ repeat 0x2F 11)) = Ok l /\
  replace_encrypted_told debug ex_display l (long_frame (sealed_head ++ ex_clear_block)) = Ok out /\
  text_at l 19 = Some (txt "Encrypted variable data") /\ text_at out 19 = Some (txt "DIF: 0x0C").
Proof. exact view_example. Qed.

(** In that view the text over the data of record [k] of a range that was encrypted is the value that decoding the bytes
    shown there gives to record [k]. *)
Theorem C119_decrypted_values cf display shown l out : replace_encrypted_told cf display l shown = Ok out ->
  forall s t, In (s, t) out -> s_kind s = KDataPayload -> In (s, t) l \/
    exists e x, In (e, x) l /\ s_kind e = KEncryptedPayload /\ s_start e <= s_start s /\ s_end s <= s_end e /\
    forall items, records_all cf (slice shown (s_start e) (s_end e)) None = Some items -> Forall not_readout items ->
    exists k r, nth_error items k = Some (Ok r) /\ s_group s = Some (N.of_nat k) /\ value_told display r t.
Proof. exact (view_values cf display shown l out). Qed.
Print Assumptions C119_decrypted_values.
Example C119_decrypted_values_example : exists l out items,
  frame_told debug ex_display (long_frame (sealed_head ++ repeat 0x2F 11)) = Ok l /\
  replace_encrypted_told debug ex_display l (long_frame (sealed_head ++ ex_clear_block)) = Ok out /\
  records_all debug ex_clear_block None = Some items /\ Forall not_readout items /\
  text_at out 22 = Some (txt "1.5") /\ label_at (map fst out) 22 = Some (KDataPayload, Some 0, LRecordField) /\
  exists e x, In (e, x) l /\ s_kind e = KEncryptedPayload /\
  slice (long_frame (sealed_head ++ ex_clear_block)) (s_start e) (s_end e) = ex_clear_block.
Proof. exact view_values_example. Qed.

(** ** What is not so *)

(** the second start byte of a long frame is said to be 0x68 whatever it is *)
Theorem C119_second_start_refuted cf display : exists data fr l t x,
  bytes_ok data /\ wired_meaning data fr /\ frame_told cf display data = Ok l /\
  slice data 3 4 = [x] /\ x <> 0x68 /\ text_at l 3 = Some t /\ t = txt "Start: 0x68 (repeated)".
Proof. exact (second_start_refuted cf display). Qed.
Print Assumptions C119_second_start_refuted.

(** with the text-first setting the text of a VIF is shown over bytes that do not hold it *)
Theorem C119_text_first_refuted display : exists data fr l t s,
  bytes_ok data /\ wired_meaning data fr /\ frame_told text_first display data = Ok l /\
  In (s, t) l /\ s_kind s = KPlaintextVif /\ slice data (s_start s) (s_end s) = [0x41; 0x74] /\
  t = txt "Plaintext VIF: ""A""".
Proof. exact (text_first_refuted display). Qed.
Print Assumptions C119_text_first_refuted.

(** the number shown over the identification is not the identification number that decoding the frame gives *)
Theorem C119_number_refuted : exists d l,
  decode_bytes ex_env ex_wired_clear None false = Ok d /\ option_map id_id (do_identity d) = Some (Some (txt "12345678")) /\
  frame_told debug ex_display ex_wired_clear = Ok l /\ text_at l 7 = Some (txt "ID: 78563412").
Proof. exact number_refuted. Qed.
Print Assumptions C119_number_refuted.
