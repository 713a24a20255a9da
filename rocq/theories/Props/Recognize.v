(** C134: wired and wireless frames are told apart. *)
From Coq Require Import List NArith String.
Import ListNotations.
From Verif Require Import Model.Base Model.Text Model.Core Model.Wired Model.Wireless Model.Hex Model.Output
  Spec.TextSpec Spec.WiredSpec Spec.AnnotateSpec Spec.OutputSpec Spec.SenderSpec
  Proof.AnnotateProps Proof.OutputProps Proof.SenderProps Proof.RecognizeProps.
Open Scope N_scope.

(** every wired frame is taken for a wired one *)
Theorem C134_wired : forall env data fr key enrich d, bytes_ok data -> wired_meaning data fr ->
  decode_bytes env data key enrich = Ok d -> do_protocol d = txt "wired".
Proof. exact wired_taken. Qed.
Print Assumptions C134_wired.

Example C134_wired_example : exists d, wired_meaning [0xE5] (SingleCharacter 0xE5) /\
  decode_bytes ex_env [0xE5] None false = Ok d.
Proof. eexists. split; [apply WSingle|vm_compute; reflexivity]. Qed.

(** a wireless frame should be taken for a wireless one; this one, with 36 records, is
    taken for an acknowledgement on the wire *)
Theorem C134_wireless_refuted : exists d,
  len (0x78 :: ex_long_payload) = 220 /\
  decode_bytes ex_env (link_header ex_sender 220 ++ 0x78 :: ex_long_payload) None false = Ok d /\
  do_protocol d = txt "wired" /\ do_records d = [].
Proof. exact lost_in_air. Qed.
Print Assumptions C134_wireless_refuted.

(** and so is every wireless frame of this length: its length byte is 0xE5 *)
Theorem C134_length_229_partial : forall env s ci rest key enrich d, sender_ok s -> bytes_ok (ci :: rest) ->
  len (ci :: rest) = 220 ->
  decode_bytes env (link_header s (len (ci :: rest)) ++ ci :: rest) key enrich = Ok d ->
  do_protocol d = txt "wired".
Proof. exact taken_for_acknowledgement. Qed.
Print Assumptions C134_length_229_partial.

(** with the length byte 0x68 and the control field 0x63 the same bytes can be a frame of
    either kind; this one is taken for a wired one *)
Theorem C134_length_104_refuted : sender_ok ex_twin /\ exists d f a p,
  len (0x78 :: ex_twin_payload ++ [ex_twin_sum; 0x16]) = 95 /\
  is_ok (wireless_try_from (link_header ex_twin 95 ++ 0x78 :: ex_twin_payload ++ [ex_twin_sum; 0x16])) /\
  wired_try_from debug (link_header ex_twin 95 ++ 0x78 :: ex_twin_payload ++ [ex_twin_sum; 0x16]) = Ok (LongFrame f a p) /\
  decode_bytes ex_env (link_header ex_twin 95 ++ 0x78 :: ex_twin_payload ++ [ex_twin_sum; 0x16]) None false = Ok d /\
  do_protocol d = txt "wired".
Proof. exact twin_refuted. Qed.
Print Assumptions C134_length_104_refuted.

(** all other frames are taken for wireless ones *)
Theorem C134_wireless_partial : forall env s ci rest key enrich d, sender_ok s -> bytes_ok (ci :: rest) ->
  len (ci :: rest) <= 246 -> len (ci :: rest) <> 220 ->
  ~ (len (ci :: rest) = 95 /\ s_control s = 0x63) ->
  decode_bytes env (link_header s (len (ci :: rest)) ++ ci :: rest) key enrich = Ok d ->
  do_protocol d = txt "wireless".
Proof. exact wireless_taken. Qed.
Print Assumptions C134_wireless_partial.

(** one byte less, and the 36 records are shown *)
Example C134_wireless_example : exists d,
  decode_bytes ex_env (link_header ex_sender 219 ++ 0x78 :: List.concat (repeat ex_volumes 36) ++ [0x2F; 0x2F]) None false = Ok d /\
  do_protocol d = txt "wireless" /\ List.length (do_records d) = 36%nat.
Proof. exact heard_in_air. Qed.

(** a frame is shown as received, unless its payload starts with the CRC of its header, as
    in Format A *)
Theorem C134_as_received_partial : forall env s ci rest key enrich d, sender_ok s -> bytes_ok (ci :: rest) ->
  len (ci :: rest) <= 246 -> no_first_crc (link_header s (len (ci :: rest)) ++ ci :: rest) ->
  decode_bytes env (link_header s (len (ci :: rest)) ++ ci :: rest) key enrich = Ok d ->
  rw_normalized_frame_hex (do_raw d) = hex_string (link_header s (len (ci :: rest)) ++ ci :: rest).
Proof. exact as_received. Qed.
Print Assumptions C134_as_received_partial.

(** with such a payload the two bytes are lost *)
Theorem C134_as_received_refuted : exists d, len ex_alike = 8 /\
  decode_bytes ex_env (link_header ex_sender 8 ++ ex_alike) None false = Ok d /\
  rw_normalized_frame_hex (do_raw d) = hex_string (link_header ex_sender 6 ++ ex_volumes).
Proof. exact not_as_received. Qed.
Print Assumptions C134_as_received_refuted.

Example C134_as_received_example : exists d,
  no_first_crc (link_header ex_sender 7 ++ 0x78 :: ex_volumes) /\
  decode_bytes ex_env (link_header ex_sender 7 ++ 0x78 :: ex_volumes) None false = Ok d /\
  List.length (do_records d) = 1%nat.
Proof. exact received_example. Qed.
