(** C46, C47, C67 to C78: decoding a received frame for display. *)
From Coq Require Import List NArith ZArith QArith Lia String.
Import ListNotations.
From Verif Require Import Model.Base Model.Text Model.Core Model.Wired Model.Wireless Model.DataInfo Model.ValueInfo Model.Record Model.Decrypt
  Model.UserData Model.Hex Model.MbusData Model.Output
  Spec.CoreSpec Spec.TextSpec Spec.FloatSpec Spec.CrcSpec Spec.WiredSpec Spec.WirelessSpec Spec.DecryptSpec Spec.RecordSpec Spec.AppSpec
  Spec.AnnotateSpec Spec.MbusSpec Spec.OutputSpec
  Proof.AnnotateProps Proof.MbusProps Proof.OutputFacts Proof.OutputRecords Proof.OutputFrames Proof.OpenedFacts Proof.OutputMore Proof.OutputValues
  Proof.OutputProps.
Open Scope N_scope.

(** without a key, an encrypted message shows no records; the output is marked partial and says
    that the key is missing *)
Theorem C46_no_ciphertext_records : forall env data payload id u enrich,
  bytes_ok data -> message data payload id -> protected payload -> app_meaning payload u ->
  exists d, decode_bytes env data None enrich = Ok d /\ do_records d = [] /\ do_decode_state d = txt "partial" /\
    mentions d (txt "security.key_missing") /\ so_decryption_state (do_security d) = txt "key_missing" /\
    so_decrypted_payload_hex (do_security d) = None /\ so_encrypted_payload_hex (do_security d) = Some (hex_string payload).
Proof. exact no_ciphertext_records. Qed.
Print Assumptions C46_no_ciphertext_records.
Example C46_example : exists u,
  bytes_ok ex_wired_encrypted /\ message ex_wired_encrypted ex_encrypted_message None /\ protected ex_encrypted_message /\
  app_meaning ex_encrypted_message u.
Proof. exact no_ciphertext_example. Qed.

(** C47 as stated fails when a filler precedes the record that cannot be read *)
Theorem C47_offset_refuted : forall env, exists data pos skips m,
  bytes_ok data /\ fails_at (fun b => data_record_parse (env_config env) b None) data pos skips /\
  decode_data_records env data = Err (ORecordsInvalid (pos - skips) m) /\ pos - skips <> pos.
Proof. exact offset_refuted. Qed.
Print Assumptions C47_offset_refuted.
(** ... the offset reported is the position less the number of fillers before it; so it is right
    when there are none *)
Theorem C47_offset_partial : forall env data, bytes_ok data ->
  (forall off m, decode_data_records env data = Err (ORecordsInvalid off m) ->
     exists pos k, fails_at (fun b => data_record_parse (env_config env) b None) data pos k /\ off = pos - k) /\
  (forall pos k, fails_at (fun b => data_record_parse (env_config env) b None) data pos k ->
     exists m, decode_data_records env data = Err (ORecordsInvalid (pos - k) m)).
Proof. exact record_error_offset. Qed.
Print Assumptions C47_offset_partial.
Example C47_example : exists m, decode_data_records ex_env [0x02; 0x13; 1; 0; 0x04; 0x13; 1] = Err (ORecordsInvalid 4 m).
Proof. eexists. vm_compute. reflexivity. Qed.

(** a message in clear shows all its records, or those before the first that cannot be read *)
Theorem C67_clear_records_shown : forall env data payload id block u key enrich,
  bytes_ok data -> message data payload id -> in_clear payload block -> app_meaning payload u ->
  shown env block (decode_bytes env data key enrich) /\
  (forall d, decode_bytes env data key enrich = Ok d ->
     so_payload_protection (do_security d) = txt "cleartext" /\
     so_decryption_state (do_security d) = txt "not_applicable" /\
     so_encrypted_payload_hex (do_security d) = None /\ so_decrypted_payload_hex (do_security d) = None).
Proof. exact clear_records. Qed.
Print Assumptions C67_clear_records_shown.
Example C67_example : exists u d,
  bytes_ok ex_wired_clear /\ message ex_wired_clear ex_clear_message None /\ in_clear ex_clear_message ex_clear_block /\
  app_meaning ex_clear_message u /\ decode_bytes ex_env ex_wired_clear None false = Ok d /\ List.length (do_records d) = 2%nat /\
  do_decode_state d = txt "complete".
Proof. exact clear_example. Qed.

(** a sealed message shows the records that were sealed when the right key is given *)
Theorem C68_sealed_records_shown : forall env enc data link plain cipher key enrich,
  bytes_ok data -> bytes_ok plain -> addressed data link cipher -> sealed (enc key) link plain cipher ->
  inverse_cipher enc (env_aes env) key -> List.length key = 16%nat ->
  exists head block clear,
    cipher = head ++ block /\ plain = head ++ clear /\ len clear = len block /\ encrypted_message cipher block /\
    shown env clear (decode_bytes env data (Some key) enrich) /\
    (forall d, decode_bytes env data (Some key) enrich = Ok d ->
       so_payload_protection (do_security d) = txt "encrypted" /\
       so_decryption_state (do_security d) = txt "decrypted_unverified" /\
       so_encrypted_payload_hex (do_security d) = Some (hex_string cipher) /\
       so_decrypted_payload_hex (do_security d) = Some (hex_string clear)).
Proof. exact sealed_records. Qed.
Print Assumptions C68_sealed_records_shown.
Example C68_example : exists d,
  bytes_ok ex_sealed_air /\ bytes_ok (ex_plain ex_short_head) /\ addressed ex_sealed_air ex_link (ex_sealed ex_short_head) /\
  sealed (toy ex_key) ex_link (ex_plain ex_short_head) (ex_sealed ex_short_head) /\
  inverse_cipher toy (env_aes ex_env) ex_key /\ List.length ex_key = 16%nat /\
  decode_bytes ex_env ex_sealed_air (Some ex_key) false = Ok d /\ List.length (do_records d) = 1%nat.
Proof. exact sealed_example. Qed.
Example C68_wired_example : exists d,
  bytes_ok (long_frame (ex_sealed ex_long_head)) /\ addressed (long_frame (ex_sealed ex_long_head)) [] (ex_sealed ex_long_head) /\
  sealed (toy ex_key) [] (ex_plain ex_long_head) (ex_sealed ex_long_head) /\
  decode_bytes ex_env (long_frame (ex_sealed ex_long_head)) (Some ex_key) false = Ok d /\ List.length (do_records d) = 1%nat.
Proof. exact wired_sealed_example. Qed.

(** an output is partial exactly when it carries a warning: the message could not be read,
    a record could not be read, or the key was missing *)
Theorem C69_partial_iff_warned : forall env data key en d, decode_bytes env data key en = Ok d ->
  (do_decode_state d = txt "partial" \/ do_decode_state d = txt "complete") /\
  (do_decode_state d = txt "partial" <->
   exists x, In x (do_diagnostics d) /\ dg_severity x = txt "warning") /\
  (do_decode_state d = txt "partial" <->
   mentions d (txt "application.partial") \/ mentions d (txt "application.record_partial") \/
   mentions d (txt "security.key_missing")).
Proof. exact decode_state. Qed.
Print Assumptions C69_partial_iff_warned.
Example C69_example : exists d d', decode_bytes ex_env ex_wired_clear None false = Ok d /\ do_decode_state d = txt "complete" /\
  decode_bytes ex_env ex_wired_encrypted None false = Ok d' /\ do_decode_state d' = txt "partial".
Proof. exact state_example. Qed.

(** every frame is decoded; what is not a frame is refused; a key can only add decryption errors *)
Theorem C70_frames_decoded : forall env data enrich e,
  bytes_ok data -> readable data -> decode_bytes env data None enrich <> Err e.
Proof. exact frame_is_decoded. Qed.
Print Assumptions C70_frames_decoded.
Theorem C70_errors : forall env data key enrich e, bytes_ok data -> decode_bytes env data key enrich = Err e ->
  (data = [] /\ e = OEmptyInput) \/
  (exists a b, e = OInvalidFrame a b /\ data <> [] /\ ~ readable data) \/
  (exists code, e = ODecryption code /\ key <> None).
Proof. exact decode_error. Qed.
Print Assumptions C70_errors.
Theorem C70_accepted : forall env data key enrich d, bytes_ok data -> decode_bytes env data key enrich = Ok d ->
  (exists fr, wired_meaning data fr /\ do_protocol d = txt "wired" /\ rw_normalized_frame_hex (do_raw d) = hex_string data) \/
  (exists w fr, not_wired data /\ normalized data w /\ wireless_meaning w fr /\ do_protocol d = txt "wireless" /\
     rw_normalized_frame_hex (do_raw d) = hex_string w).
Proof. exact decode_ok. Qed.
Print Assumptions C70_accepted.
Example C70_example : exists e fr,
  readable ex_wired_clear /\ readable [0xE5] /\ wireless_meaning ex_air fr /\ readable ex_air_encoded /\
  ~ readable [1; 2; 3] /\ decode_bytes ex_env [1; 2; 3] None false = Err e.
Proof. exact frames_example. Qed.

(** decoding can panic *)
Theorem C71_never_panics_refuted : forall env, exists data,
  bytes_ok data /\ readable data /\ is_panic (decode_bytes env data None false).
Proof. exact panic_refuted. Qed.
Print Assumptions C71_never_panics_refuted.
(** ... only for the known causes: a wired frame of 4 or 5 bytes with overflow checks, or one of the records whose reading
    panics (C21), in the frame or in what the key makes of its encrypted part *)
Theorem C71_panics_partial : forall env data key enrich, bytes_ok data -> (forall k, key = Some k -> cipher_of_bytes (env_aes env) k) ->
  is_panic (decode_bytes env data key enrich) ->
  (overflow_checks (env_config env) = true /\ get data 0 = Some 0x68 /\ 4 <= len data <= 5) \/
  (exists bef suf, taken (env_aes env) data key (bef ++ suf) /\ panic_cause (env_config env) suf).
Proof. exact decode_panic. Qed.
Print Assumptions C71_panics_partial.

Example C71_example : bytes_ok (long_frame ex_hidden) /\ cipher_of_bytes (env_aes ex_env) ex_key /\
  is_panic (decode_bytes ex_env (long_frame ex_hidden) (Some ex_key) false) /\
  taken (env_aes ex_env) (long_frame ex_hidden) (Some ex_key) ([] ++ ([0x01] ++ 0x7D :: repeat 0 14)) /\
  panic_cause (env_config ex_env) ([0x01] ++ 0x7D :: repeat 0 14).
Proof. exact hidden_panic. Qed.

(** asking for the details of the manufacturer adds them and changes nothing else *)
Theorem C72_enrichment_only_adds : forall env data key d, decode_bytes env data key false = Ok d ->
  do_enrichment d = None /\ exists d', decode_bytes env data key true = Ok d' /\ same_but_enrichment d d'.
Proof. exact enrichment_only. Qed.
Print Assumptions C72_enrichment_only_adds.
(** a key given for a message in clear changes nothing but the note that it was not used *)
Theorem C72_unused_key : forall env data payload id block u key enrich,
  bytes_ok data -> message data payload id -> in_clear payload block -> app_meaning payload u ->
  match decode_bytes env data (Some key) enrich, decode_bytes env data None enrich with
  | Ok a, Ok b => same_but_key a b /\ so_key_supplied (do_security a) = true /\ mentions a (txt "security.key_unused")
  | Panic p, Panic q => p = q
  | _, _ => False
  end.
Proof. exact clear_key. Qed.
Print Assumptions C72_unused_key.
Example C72_example : exists u d,
  bytes_ok ex_wired_clear /\ message ex_wired_clear ex_clear_message None /\ in_clear ex_clear_message ex_clear_block /\
  app_meaning ex_clear_message u /\ decode_bytes ex_env ex_wired_clear None false = Ok d /\ List.length (do_records d) = 2%nat /\
  do_decode_state d = txt "complete".
Proof. exact clear_example. Qed.

(** every spelling of the bytes in hexadecimal gives the same output, and the original frame
    shown can be given back *)
Theorem C73_hex_input : forall env input data key enrich d,
  hex_input input data -> decode_bytes env data key enrich = Ok d ->
  exists d', decode_hex env input key enrich = Ok d' /\ same_but_raw d d' /\ rw_input (do_raw d') = Some input /\
    rw_original_frame_hex (do_raw d') = rw_original_frame_hex (do_raw d).
Proof. exact decode_hex_of. Qed.
Print Assumptions C73_hex_input.
Theorem C73_original : forall env data key enrich d, decode_bytes env data key enrich = Ok d ->
  rw_original_frame_hex (do_raw d) = hex_string data /\ rw_byte_length (do_raw d) = len data.
Proof. exact decode_original. Qed.
Print Assumptions C73_original.
Theorem C73_original_decodes_again : forall env data key enrich d,
  bytes_ok data -> decode_bytes env data key enrich = Ok d ->
  exists d', decode_hex env (rw_original_frame_hex (do_raw d)) key enrich = Ok d' /\ same_but_raw d d' /\
    rw_original_frame_hex (do_raw d') = rw_original_frame_hex (do_raw d).
Proof. exact raw_decodes_again. Qed.
Print Assumptions C73_original_decodes_again.
Example C73_example : exists d, decode_bytes ex_env [0x10; 0x40; 0x01; 0x41; 0x16] None false = Ok d /\
  rw_original_frame_hex (do_raw d) = txt "1040014116" /\
  hex_input (txt " 10 40 01 41 16") [0x10; 0x40; 0x01; 0x41; 0x16].
Proof. exact hex_example. Qed.

(** a frame in Format A shows the same as the frame without its CRCs *)
Theorem C74_format_a_transparent : forall env data w fr key enrich,
  bytes_ok data -> format_a w data -> wireless_meaning w fr -> not_wired data -> not_wired w -> no_first_crc w ->
  same_result (decode_bytes env data key enrich) (decode_bytes env w key enrich).
Proof. exact format_a_same. Qed.
Print Assumptions C74_format_a_transparent.
Example C74_example : exists fr,
  bytes_ok ex_air_encoded /\ bytes_ok ex_air /\ format_a ex_air ex_air_encoded /\ wireless_meaning ex_air fr /\
  not_wired ex_air /\ no_first_crc ex_air /\ not_wired ex_air_encoded /\
  encrypted_message (wf_data fr) (repeat 0x2F 16).
Proof. exact air_example. Qed.

(** the meter shown is the one named in the long transport header; the one named in the
    wireless link layer is listed beside it *)
Theorem C75_identity_transport : forall env data link ci i0 i1 i2 i3 m0 m1 v dv acc st c0 c1 block u key enrich d,
  bytes_ok data -> ci = 0x72 \/ ci = 0x76 ->
  addressed data link ([ci; i0; i1; i2; i3; m0; m1; v; dv; acc; st; c0; c1] ++ block) ->
  app_meaning ([ci; i0; i1; i2; i3; m0; m1; v; dv; acc; st; c0; c1] ++ block) u ->
  decode_bytes env data key enrich = Ok d ->
  (exists x, do_identity d = Some x /\
     names_meter x (txt "tpl.long") (if ci =? 0x76 then [i3; i2; i1; i0] else [i0; i1; i2; i3]) (m0 + 256 * m1) v dv) /\
  (link = [] -> do_alternate_identities d = []) /\
  (forall m0 m1 i0 i1 i2 i3 v dv, link = [m0; m1; i0; i1; i2; i3; v; dv] ->
     exists y, do_alternate_identities d = [y] /\ names_meter y (txt "link.wireless") [i0; i1; i2; i3] (m0 + 256 * m1) v dv).
Proof. exact long_identity. Qed.
Print Assumptions C75_identity_transport.
(** without a long transport header or fixed structure, it is the one of the link layer *)
Theorem C75_identity_link : forall env data m0 m1 i0 i1 i2 i3 v dv ci t key enrich d,
  bytes_ok data -> addressed data [m0; m1; i0; i1; i2; i3; v; dv] (ci :: t) ->
  ~ In ci [0x72; 0x73; 0x76; 0x77] -> decode_bytes env data key enrich = Ok d ->
  do_alternate_identities d = [] /\
  exists x, do_identity d = Some x /\
    names_meter x (txt "link.wireless") [i0; i1; i2; i3] (m0 + 256 * m1) v
      (if andb (0xA0 <=? ci) (ci <=? 0xAF) then dv / 16 else dv).
Proof. exact link_identity. Qed.
Print Assumptions C75_identity_link.
Example C75_transport_example : exists u d,
  app_meaning (ex_plain ex_long_head) u /\ addressed (long_frame (ex_plain ex_long_head)) [] (ex_plain ex_long_head) /\
  decode_bytes ex_env (long_frame (ex_plain ex_long_head)) None false = Ok d /\
  option_map id_id (do_identity d) = Some (Some (txt "12345678")) /\
  option_map id_manufacturer_code (do_identity d) = Some (Some (txt "PAD")).
Proof. exact identity_long_example. Qed.
Example C75_link_example : exists t d,
  addressed ex_sealed_air ex_link (0x7A :: t) /\ decode_bytes ex_env ex_sealed_air None false = Ok d /\
  option_map id_id (do_identity d) = Some (Some (txt "12345678")).
Proof. exact identity_link_example. Qed.

(** the bytes shown with the records are the bytes decoded, in order, less fillers; and the
    records are numbered from 0 *)
Theorem C76_record_bytes : forall env data outs, bytes_ok data -> decode_data_records env data = Ok outs ->
  (exists l, pieces data l /\
     Forall2 (fun o p => without_spaces (ro_header_hex o) ++ without_spaces (ro_data_hex o) = hex_string p) outs l) /\
  (forall i o, nth_error outs i = Some o -> ro_index o = N.of_nat i).
Proof. exact records_bytes. Qed.
Print Assumptions C76_record_bytes.
Example C76_example : exists outs, decode_data_records ex_env ex_clear_block = Ok outs /\ List.length outs = 2%nat /\
  option_map ro_header_hex (nth_error outs 0) = Some (txt "0C 13").
Proof. exact bytes_example. Qed.

(** C77 as stated fails for long decimals of variable length: eighteen nines are shown as
    ten to the power of eighteen *)
Theorem C77_exact_values_refuted : forall cf, exists h r t,
  header_of cf [0x0D; 0x06] ex_nines h 0x0D 0x06 /\ data_record_parse cf ([0x0D; 0x06] ++ ex_nines) None = Ok r /\
  dr_raw_bytes r = [0x0D; 0x06] ++ ex_nines /\
  FloatSpec.decimal (nibbles (repeat 0x99 9)) = 999999999999999999 /\
  ro_value (record_output 0 r) = {| vo_kind := txt "decimal"; vo_value := Some (JString t) |} /\
  t = txt "1000000000000000000000".
Proof. exact decimals_refuted. Qed.
Print Assumptions C77_exact_values_refuted.
(** ... the value of integers, of decimals of fixed width and of up to fourteen digits is exact *)
Theorem C77_integers_partial : forall cf head rest hdr h dif vif w r i,
  header_of cf head rest h dif vif -> ~ date_vif vif -> integer_width (dif mod 16) = Some w ->
  data_record_parse cf (head ++ rest) hdr = Ok r ->
  exists body rest', rest = body ++ rest' /\ len body = w /\ shows_number (record_output i r) h (twos_complement body).
Proof. exact integer_shown. Qed.
Print Assumptions C77_integers_partial.
Theorem C77_decimals_partial : forall cf head rest hdr h dif vif w r i,
  header_of cf head rest h dif vif -> ~ date_vif vif -> bcd_width (dif mod 16) = Some w ->
  data_record_parse cf (head ++ rest) hdr = Ok r ->
  exists body rest', rest = body ++ rest' /\ len body = w /\ all_decimal body /\
    shows_number (record_output i r) h (Z.of_N (FloatSpec.decimal (nibbles (ordered (lsb_first hdr) body)))).
Proof. exact bcd_shown. Qed.
Print Assumptions C77_decimals_partial.
Theorem C77_variable_integers_partial : forall cf head n rest hdr h dif vif w r i,
  header_of cf head (n :: rest) h dif vif -> ~ date_vif vif -> dif mod 16 = 13 ->
  0xE1 <= n -> lvar_width n = Some w -> data_record_parse cf (head ++ n :: rest) hdr = Ok r ->
  exists body rest', rest = body ++ rest' /\ len body = w /\ shows_number (record_output i r) h (twos_complement body).
Proof. exact variable_integer_shown. Qed.
Print Assumptions C77_variable_integers_partial.
Theorem C77_variable_decimals_partial : forall cf head n rest hdr h dif vif sign k r i,
  header_of cf head (n :: rest) h dif vif -> ~ date_vif vif -> dif mod 16 = 13 ->
  k <= 7 -> (n = 0xC0 + k /\ sign = 1%Z) \/ (n = 0xD0 + k /\ sign = (-1)%Z) ->
  data_record_parse cf (head ++ n :: rest) hdr = Ok r ->
  exists body rest', rest = body ++ rest' /\ len body = k /\ all_decimal body /\
    shows_number (record_output i r) h (sign * Z.of_N (FloatSpec.decimal (nibbles (ordered (lsb_first hdr) body)))).
Proof. exact variable_bcd_shown. Qed.
Print Assumptions C77_variable_decimals_partial.
Example C77_integer_example : exists h r,
  header_of debug [0x04; 0x13] [0xFE; 0xFF; 0xFF; 0xFF] h 0x04 0x13 /\ ~ date_vif 0x13 /\ integer_width (0x04 mod 16) = Some 4 /\
  data_record_parse debug ([0x04; 0x13] ++ [0xFE; 0xFF; 0xFF; 0xFF]) None = Ok r /\
  vo_value (ro_value (record_output 0 r)) = Some (JString (txt "-0.002")).
Proof. exact integer_example. Qed.
Example C77_decimal_example : exists h r,
  header_of debug [0x0C; 0x13] [0x45; 0x23; 0x01; 0] h 0x0C 0x13 /\ bcd_width (0x0C mod 16) = Some 4 /\
  data_record_parse debug ([0x0C; 0x13] ++ [0x45; 0x23; 0x01; 0]) None = Ok r /\
  vo_value (ro_value (record_output 0 r)) = Some (JString (txt "12.345")).
Proof. exact decimal_example. Qed.
Example C77_variable_integer_example : exists h r,
  header_of debug [0x0D; 0x06] [0xE2; 0x01; 0x02] h 0x0D 0x06 /\ lvar_width 0xE2 = Some 2 /\
  data_record_parse debug ([0x0D; 0x06] ++ [0xE2; 0x01; 0x02]) None = Ok r /\
  vo_value (ro_value (record_output 0 r)) = Some (JString (txt "513000")).
Proof. exact variable_integer_example. Qed.
Example C77_variable_decimal_example : exists h r,
  header_of debug [0x0D; 0x06] [0xD2; 0x34; 0x12] h 0x0D 0x06 /\
  data_record_parse debug ([0x0D; 0x06] ++ [0xD2; 0x34; 0x12]) None = Ok r /\
  vo_value (ro_value (record_output 0 r)) = Some (JString (txt "-1234000")).
Proof. exact variable_decimal_example. Qed.

(** C78 as stated fails for an encrypted session inside another extended link layer: the
    ciphertext is shown as records in clear *)
Theorem C78_nested_session_refuted : forall env, exists data payload id u d,
  bytes_ok data /\ message data ([0x8C; 0; 1] ++ payload) id /\ protected payload /\ app_meaning ([0x8C; 0; 1] ++ payload) u /\
  decode_bytes env data None false = Ok d /\ do_records d <> [] /\ do_decode_state d = txt "complete" /\
  so_payload_protection (do_security d) = txt "cleartext".
Proof. exact nested_refuted. Qed.
Print Assumptions C78_nested_session_refuted.
(** ... and holds for encrypted transport headers inside any extended link layers, and for
    encrypted sessions that start the message *)
Theorem C78_nested_partial : forall env data payload id u enrich,
  bytes_ok data -> message data payload id -> protected payload -> app_meaning payload u ->
  exists d, decode_bytes env data None enrich = Ok d /\ do_records d = [] /\ so_payload_protection (do_security d) = txt "encrypted".
Proof. exact protected_output. Qed.
Print Assumptions C78_nested_partial.
Example C78_example : exists data payload u,
  bytes_ok data /\ message data ([0x8C; 0; 1] ++ payload) None /\ protected ([0x8C; 0; 1] ++ payload) /\
  app_meaning ([0x8C; 0; 1] ++ payload) u.
Proof. exact nested_example. Qed.
