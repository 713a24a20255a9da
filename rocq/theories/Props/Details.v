(** C95 to C105: what is shown besides the values of numbers: headers, frames, security, notices,
    the labels of records, dates and texts. *)
From Coq Require Import List NArith ZArith QArith Lia String.
Import ListNotations.
From Verif Require Import Model.Base Model.Text Model.Core Model.Wired Model.Wireless Model.F64 Model.DataInfo Model.ValueInfo Model.Record Model.Decrypt
  Model.UserData Model.Hex Model.MbusData Model.Output Model.Rscada
  Spec.CoreSpec Spec.TextSpec Spec.FloatSpec Spec.WiredSpec Spec.WirelessSpec Spec.DecryptSpec Spec.RecordSpec Spec.AppSpec
  Spec.AnnotateSpec Spec.MbusSpec Spec.OutputSpec Spec.EscapeSpec Spec.VifSpec Spec.DetailSpec
  Proof.AnnotateProps Proof.MbusProps Proof.OutputProps Proof.VifFacts Spec.XmlSpec Spec.RscadaSpec Proof.RscadaProps
  Proof.DetailFacts Proof.DetailRecords Proof.DetailValues Proof.RscadaTexts Proof.DetailReports Proof.DetailProps.
Open Scope N_scope.

(** C95 as stated fails for an encrypted session inside another extended link layer: a short
    header is shown which is not there, and the message passes for cleartext *)
Theorem C95_nested_session_refuted : forall env, exists data payload u d,
  bytes_ok data /\ message data payload None /\ app_meaning payload u /\ nested_session payload /\ decode_bytes env data None false = Ok d /\
  to_header_kind (do_transport d) = Some (txt "short_tpl") /\ so_mode_code (do_security d) = Some 0 /\
  so_payload_protection (do_security d) = txt "cleartext".
Proof. exact nested_shown_refuted. Qed.
Print Assumptions C95_nested_session_refuted.
(** ... in every other message the transport header shown is the one it has, and the security
    mode the one in its configuration field *)
Theorem C95_transport_partial : forall env data payload id u key enrich d,
  bytes_ok data -> message data payload id -> app_meaning payload u -> ~ nested_session payload ->
  decode_bytes env data key enrich = Ok d ->
  transport_shown payload (do_transport d) /\
  exists m, has_mode payload m /\ so_mode_code (do_security d) = m /\
    match m with
    | Some m => exists t, so_mode (do_security d) = Some t /\ mode_name m t
    | None => so_mode (do_security d) = None
    end.
Proof. exact mode_shown. Qed.
Print Assumptions C95_transport_partial.
Example C95_example : exists u d,
  bytes_ok ex_wired_encrypted /\ message ex_wired_encrypted ex_encrypted_message None /\ app_meaning ex_encrypted_message u /\
  ~ nested_session ex_encrypted_message /\ secured ex_encrypted_message /\
  decode_bytes ex_env ex_wired_encrypted None false = Ok d /\ to_header_kind (do_transport d) = Some (txt "long_tpl") /\
  so_mode_code (do_security d) = Some 5 /\ so_payload_protection (do_security d) = txt "encrypted".
Proof. exact transport_example. Qed.
Example C95_ell_example : exists u d,
  bytes_ok (long_frame ex_ell) /\ message (long_frame ex_ell) ex_ell None /\ app_meaning ex_ell u /\ ~ nested_session ex_ell /\
  decode_bytes ex_env (long_frame ex_ell) None false = Ok d /\
  do_transport d = header_shown (txt "short_tpl") (txt "tpl.short") 9 4 0 0 (plain_ell (Some (0x20, 7))) /\
  to_statuses (do_transport d) = [(txt "tpl.short", txt "04", txt "Power low")].
Proof. exact ell_example. Qed.

(** C96: the link layer shown is that of the frame *)
Theorem C96_wired_frame : forall env data fr key enrich d,
  bytes_ok data -> wired_meaning data fr -> decode_bytes env data key enrich = Ok d ->
  do_protocol d = txt "wired" /\ exists payload, frame_shown data (do_frame d) payload /\ do_raw d = raw_shown data data false payload.
Proof. exact wired_details. Qed.
Print Assumptions C96_wired_frame.
Theorem C96_wireless_frame : forall env data w fr key enrich d,
  bytes_ok data -> not_wired data -> received data w -> wireless_meaning w fr -> decode_bytes env data key enrich = Ok d ->
  do_protocol d = txt "wireless" /\
  (exists c, nth_error w 1 = Some c /\ fo_control_field (do_frame d) = Some (hex_string [c]) /\
     forall t, fo_function (do_frame d) = Some t <-> In (c, t) function_texts) /\
  fo_kind (do_frame d) = txt "wireless" /\ fo_address (do_frame d) = None /\
  exists stripped, (stripped = true <-> data <> w) /\ do_raw d = raw_shown data w stripped (Some (wf_data fr)).
Proof. exact wireless_details. Qed.
Print Assumptions C96_wireless_frame.
Example C96_example : exists d,
  bytes_ok ex_wired_clear /\ wired_meaning ex_wired_clear (LongFrame (RspUd false false) (Primary 1) ex_clear_message) /\
  decode_bytes ex_env ex_wired_clear None false = Ok d /\
  do_frame d = {| fo_kind := txt "long"; fo_function := Some (txt "RSP_UD (ACD: false, DFC: false)"); fo_address := Some (txt "Primary (1)"); fo_control_field := None |}.
Proof. exact wired_frame_example. Qed.
Example C96_wireless_example : exists fr d,
  bytes_ok ex_air_encoded /\ not_wired ex_air_encoded /\ received ex_air_encoded ex_air /\ wireless_meaning ex_air fr /\ ex_air_encoded <> ex_air /\
  decode_bytes ex_env ex_air_encoded None false = Ok d /\ fo_control_field (do_frame d) = Some (txt "44") /\ fo_function (do_frame d) = Some (txt "SND_NR").
Proof. exact wireless_frame_example. Qed.

(** C97: a message is called encrypted exactly if it is, with its bytes, but for the case of
    C95_nested_session_refuted *)
Theorem C97_protection_partial : forall env data payload id u key enrich d,
  bytes_ok data -> message data payload id -> app_meaning payload u -> ~ nested_session payload ->
  decode_bytes env data key enrich = Ok d ->
  (secured payload -> so_payload_protection (do_security d) = txt "encrypted" /\ so_encrypted_payload_hex (do_security d) = Some (hex_string payload)) /\
  (~ secured payload -> so_payload_protection (do_security d) = txt "cleartext" /\ so_encrypted_payload_hex (do_security d) = None).
Proof. exact protection_shown. Qed.
Print Assumptions C97_protection_partial.
(** ... the state of decryption and its notice follow from that and from whether a key was given *)
Theorem C97_decryption_state : forall env data key enrich d, decode_bytes env data key enrich = Ok d ->
  In (so_payload_protection (do_security d)) [txt "encrypted"; txt "unknown"; txt "cleartext"] /\
  so_key_supplied (do_security d) = is_some key /\
  (so_decryption_state (do_security d) = txt "key_missing" <-> so_payload_protection (do_security d) = txt "encrypted" /\ key = None) /\
  (so_decryption_state (do_security d) = txt "decrypted_unverified" <-> so_payload_protection (do_security d) = txt "encrypted" /\ key <> None) /\
  (so_decryption_state (do_security d) = txt "not_applicable" <-> so_payload_protection (do_security d) <> txt "encrypted") /\
  (mentions d (txt "security.key_missing") <-> so_payload_protection (do_security d) = txt "encrypted" /\ key = None) /\
  (mentions d (txt "security.decrypted_unverified") <-> so_payload_protection (do_security d) = txt "encrypted" /\ key <> None) /\
  (mentions d (txt "security.key_unused") <-> so_payload_protection (do_security d) <> txt "encrypted" /\ key <> None) /\
  (so_encrypted_payload_hex (do_security d) <> None -> so_payload_protection (do_security d) = txt "encrypted") /\
  (so_decrypted_payload_hex (do_security d) <> None <-> so_decryption_state (do_security d) = txt "decrypted_unverified").
Proof. exact security_shown. Qed.
Print Assumptions C97_decryption_state.
Example C97_example : exists d d' d'',
  decode_bytes ex_env ex_wired_encrypted None false = Ok d /\ map dg_code (do_diagnostics d) = [txt "security.key_missing"] /\
  decode_bytes ex_env (long_frame (ex_sealed ex_long_head)) (Some ex_key) false = Ok d' /\
  map dg_code (do_diagnostics d') = [txt "security.decrypted_unverified"; txt "application.record_partial"] /\
  decode_bytes ex_env ex_wired_clear (Some ex_key) false = Ok d'' /\ map dg_code (do_diagnostics d'') = [txt "security.key_unused"].
Proof. exact notices_example. Qed.

(** C98: what is shown with a record comes from its own DIF and VIF; the storage number is wrong
    as soon as a DIFE carries bits of it *)
Theorem C98_labels_partial : forall cf dif difes rest hdr r i,
  bytes_ok ((dif :: difes) ++ rest) -> dif_chain dif (dif :: difes) -> data_record_parse cf ((dif :: difes) ++ rest) hdr = Ok r ->
  let o := record_output i r in
  ro_index o = i /\ nth_error functions (N.to_nat ((dif / 16) mod 4)) = Some (ro_function o) /\
  ro_tariff o = en_tariff difes /\ ro_subunit o = en_subunit difes /\
  (ro_storage_number o = en_storage dif difes <-> Forall (fun b => b mod 16 = 0) difes) /\
  exists vif rest', rest = vif :: rest' /\ coding_shown dif vif (ro_data_coding o).
Proof. exact record_labels. Qed.
Print Assumptions C98_labels_partial.
Example C98_example : exists r,
  bytes_ok ([0x9A; 0x60] ++ [0x13; 5; 0]) /\ dif_chain 0x9A [0x9A; 0x60] /\ data_record_parse debug ([0x9A; 0x60] ++ [0x13; 5; 0]) None = Ok r /\
  ro_function (record_output 0 r) = txt "Maximum value" /\ ro_tariff (record_output 0 r) = 2 /\ ro_subunit (record_output 0 r) = 1 /\
  ro_data_coding (record_output 0 r) = txt "4-digit BCD".
Proof. exact labels_example. Qed.
Theorem C98_special : forall cf dif rest hdr r i t v,
  bytes_ok (dif :: rest) -> special_shown dif t v -> data_record_parse cf (dif :: rest) hdr = Ok r ->
  let o := record_output i r in
  ro_index o = i /\ ro_function o = t /\ ro_data_coding o = t /\ ro_value o = v /\ ro_quantities o = [] /\ ro_unit o = None /\
  ro_tariff o = 0 /\ ro_subunit o = 0.
Proof. exact special_labels. Qed.
Print Assumptions C98_special.
Example C98_special_example : exists r, bytes_ok [0x0F; 1; 2; 3] /\
  special_shown 0x0F (txt "Manufacturer specific") {| vo_kind := txt "manufacturer_specific"; vo_value := None |} /\
  data_record_parse debug [0x0F; 1; 2; 3] None = Ok r.
Proof. exact special_example. Qed.
(** the quantity and the unit of the primary VIFs; durations have no unit (see C88) *)
Theorem C98_quantity_partial : forall cf head rest hdr h dif vif row n r i,
  header_of cf head rest h dif vif -> primary vif row n -> data_record_parse cf (head ++ rest) hdr = Ok r ->
  (exists t, ro_quantities (record_output i r) = [t] /\ In (vr_label row, t) quantity_texts) /\
  (~ duration row -> vr_units row <> [] -> exists t, ro_unit (record_output i r) = Some t /\ In (vr_units row, t) unit_texts) /\
  (duration row \/ vr_units row = [] -> ro_unit (record_output i r) = None).
Proof. exact quantity_shown. Qed.
Print Assumptions C98_quantity_partial.
Example C98_quantity_example : exists h r,
  header_of debug [0x04; 0x13] [1; 0; 0; 0] h 0x04 0x13 /\
  primary 0x13 (row 0x10 8 (-6) LVolume [(UMeter, 3%Z)] (txt "Volume") (txt "m^3") 1) 3 /\
  data_record_parse debug ([0x04; 0x13] ++ [1; 0; 0; 0]) None = Ok r /\
  ro_quantities (record_output 0 r) = [txt "Volume"] /\ ro_unit (record_output 0 r) = Some (txt "m3").
Proof. exact quantity_example. Qed.

(** ... and of manufacturer specific VIFs *)
Theorem C98_specific : forall cf head rest hdr h dif vif r i,
  header_of cf head rest h dif vif -> vif = 0x7F \/ vif = 0xFF -> data_record_parse cf (head ++ rest) hdr = Ok r ->
  ro_quantities (record_output i r) = [txt "Manufacturer specific"] /\ ro_unit (record_output i r) = None.
Proof. exact specific_quantity. Qed.
Print Assumptions C98_specific.
Example C98_specific_example : exists h r, header_of debug [0x02; 0xFF; 0x22] [1; 0] h 0x02 0xFF /\
  data_record_parse debug ([0x02; 0xFF; 0x22] ++ [1; 0]) None = Ok r.
Proof. exact specific_example. Qed.
(** a unit that the frame spells out, here %RH, is shown neither as unit nor as quantity *)
Theorem C98_text_refuted : forall cf, exists data r b, data_record_parse cf data None = Ok r /\ bytes_ok data /\
  rh_vib (drh_raw (dr_header r)) = Some b /\ vib_plaintext b = Some (rev (txt "%RH")) /\
  ro_quantities (record_output 0 r) = [txt "Plain text"] /\ ro_unit (record_output 0 r) = None.
Proof. exact unit_text_refuted. Qed.
Print Assumptions C98_text_refuted.

(** C99: a buffer of records alone gives all its records, or the reason why one cannot be read *)
Theorem C99_records_alone : forall env data, bytes_ok data -> data <> [] ->
  exists items, laid_out (fun b => data_record_parse (env_config env) b None) data items /\
    read_result (env_record_message env) items (decode_data_records env data).
Proof. exact records_alone. Qed.
Print Assumptions C99_records_alone.
Theorem C99_records_empty : forall env, decode_data_records env [] = Err OEmptyInput.
Proof. reflexivity. Qed.
Print Assumptions C99_records_empty.
(** ... the same from hexadecimal text; other text is refused *)
Theorem C99_records_hex : forall env input data, hex_input input data -> decode_data_records_hex env input = decode_data_records env data.
Proof. exact records_alone_hex. Qed.
Print Assumptions C99_records_hex.
Theorem C99_records_not_hex : forall env input, (forall data, ~ hex_input input data) ->
  exists e, decode_data_records_hex env input = Err (OInvalidHex e).
Proof. exact records_alone_no_hex. Qed.
Print Assumptions C99_records_not_hex.
Example C99_example : exists outs, bytes_ok ex_clear_block /\ ex_clear_block <> [] /\
  decode_data_records ex_env ex_clear_block = Ok outs /\ List.length outs = 2%nat /\ hex_input (hex_string ex_clear_block) ex_clear_block.
Proof. exact records_example. Qed.
Example C99_not_hex_example : forall data, ~ hex_input (txt "12 3x") data.
Proof. exact no_hex_example. Qed.

(** C100: the notices are those listed, each at most once; only the one about a record has a place *)
Theorem C100_notices : forall env data key enrich d, decode_bytes env data key enrich = Ok d ->
  (forall x, In x (do_diagnostics d) -> In (dg_severity x, dg_code x, dg_layer x) notices) /\
  NoDup (map dg_code (do_diagnostics d)) /\
  (forall x, In x (do_diagnostics d) -> dg_code x <> txt "application.record_partial" -> dg_offset_start x = None).
Proof. exact notices_shown. Qed.
Print Assumptions C100_notices.
(** ... a message that is not understood is reported with the reason, and then nothing is claimed
    about its header, records and encryption *)
Theorem C100_refused_message : forall env data payload id key enrich d,
  bytes_ok data -> message data payload id -> decode_bytes env data key enrich = Ok d ->
  (mentions d (txt "application.partial") <-> ~ exists u, app_meaning payload u) /\
  (forall x, In x (do_diagnostics d) -> dg_code x = txt "application.partial" ->
     exists e, app_error payload e /\ dg_message x = env_application_message env e) /\
  ((~ exists u, app_meaning payload u) ->
     do_transport d = nothing_shown None /\ do_records d = [] /\ so_payload_protection (do_security d) = txt "cleartext").
Proof. exact refused_shown. Qed.
Print Assumptions C100_refused_message.
Example C100_example : exists d,
  bytes_ok (long_frame [0x51; 1; 2]) /\ message (long_frame [0x51; 1; 2]) [0x51; 1; 2] None /\ (~ exists u, app_meaning [0x51; 1; 2] u) /\
  decode_bytes ex_env (long_frame [0x51; 1; 2]) None false = Ok d /\ mentions d (txt "application.partial").
Proof. exact refused_example. Qed.

(** C101 as stated fails: dates lose their century, and the year of a date and time is taken from
    the bytes of minute and hour *)
Theorem C101_century_refuted : forall cf, exists h r,
  header_of cf [0x02; 0x6C] [0x0F; 0x36] h 0x02 0x6C /\ data_record_parse cf ([0x02; 0x6C] ++ [0x0F; 0x36]) None = Ok r /\
  0x0F mod 32 = 15 /\ 0x36 mod 16 = 6 /\ g_year 0x0F 0x36 = 24 /\
  ro_value (record_output 0 r) = {| vo_kind := txt "date"; vo_value := Some (JString (txt "0024-06-15")) |}.
Proof. exact date_refuted. Qed.
Print Assumptions C101_century_refuted.
Theorem C101_year_refuted : forall cf, exists h r,
  header_of cf [0x04; 0x6D] [30; 12; 0x0F; 0x36] h 0x04 0x6D /\ data_record_parse cf ([0x04; 0x6D] ++ [30; 12; 0x0F; 0x36]) None = Ok r /\
  g_year 0x0F 0x36 = 24 /\
  ro_value (record_output 0 r) = {| vo_kind := txt "datetime"; vo_value := Some (JString (txt "0000-06-15T12:30:00")) |}.
Proof. exact datetime_refuted. Qed.
Print Assumptions C101_year_refuted.
(** ... what is shown: the other parts are those transmitted *)
Theorem C101_date_partial : forall cf head rest hdr h dif vif r i,
  header_of cf head rest h dif vif -> vif mod 128 = 0x6C -> data_record_parse cf (head ++ rest) hdr = Ok r ->
  exists b0 b1 rest' w, rest = [b0; b1] ++ rest' /\ ro_value (record_output i r) = {| vo_kind := txt "date"; vo_value := Some w |} /\
    day_shown (b0 mod 32) (b1 mod 16) (g_year b0 b1) w.
Proof. exact date_of_header. Qed.
Print Assumptions C101_date_partial.
Example C101_date_example : exists h r,
  header_of debug [0x02; 0x6C] [0x00; 0x36] h 0x02 0x6C /\ 0x6C mod 128 = 0x6C /\
  data_record_parse debug ([0x02; 0x6C] ++ [0x00; 0x36]) None = Ok r /\
  vo_value (ro_value (record_output 0 r)) =
    Some (JObject [(txt "day", inr (txt "every")); (txt "month", inr (txt "June")); (txt "year", inl 24)]).
Proof. exact date_example. Qed.
Theorem C101_datetime_partial : forall cf head rest hdr h dif vif r i,
  header_of cf head rest h dif vif -> vif mod 128 = 0x6D -> dif mod 16 = 4 -> data_record_parse cf (head ++ rest) hdr = Ok r ->
  exists b0 b1 b2 b3 rest' w, rest = [b0; b1; b2; b3] ++ rest' /\
    ro_value (record_output i r) = {| vo_kind := txt "datetime"; vo_value := Some w |} /\
    minute_shown (b2 mod 32) (b3 mod 16) (g_year b0 b1) (b1 mod 32) (b0 mod 64) w.
Proof. exact datetime_of_header. Qed.
Print Assumptions C101_datetime_partial.
Example C101_datetime_example : exists h r,
  header_of debug [0x04; 0x6D] [30; 12; 0x0F; 0x36] h 0x04 0x6D /\ 0x6D mod 128 = 0x6D /\ 0x04 mod 16 = 4 /\
  data_record_parse debug ([0x04; 0x6D] ++ [30; 12; 0x0F; 0x36]) None = Ok r.
Proof. exact datetime_example. Qed.
Theorem C101_datetime48_partial : forall cf head rest hdr h dif vif r i,
  header_of cf head rest h dif vif -> vif mod 128 = 0x6D -> dif mod 16 = 6 -> data_record_parse cf (head ++ rest) hdr = Ok r ->
  exists b0 b1 b2 b3 b4 rest' w, rest = [b0; b1; b2; b3; b4] ++ rest' /\
    ro_value (record_output i r) = {| vo_kind := txt "datetime"; vo_value := Some w |} /\
    second_shown (b3 mod 32) (b4 mod 16) (g_year b0 b1) (b2 mod 32) (b1 mod 64) (b0 mod 64) w.
Proof. exact datetime48_of_header. Qed.
Print Assumptions C101_datetime48_partial.
Example C101_datetime48_example : exists h r,
  header_of debug [0x06; 0x6D] [10; 30; 12; 0x0F; 0x36; 0] h 0x06 0x6D /\ 0x06 mod 16 = 6 /\
  data_record_parse debug ([0x06; 0x6D] ++ [10; 30; 12; 0x0F; 0x36; 0]) None = Ok r.
Proof. exact datetime48_example. Qed.

(** C102: the XML has the date or time transmitted, in this century; a time whose invalid bit is set
    is shown as 1900-01-00 *)
Theorem C102_xml_date : forall cf head rest hdr h dif powi i id fields r,
  header_of cf head rest h dif 0x6C -> dif mod 16 = 2 ->
  data_record_parse cf (head ++ rest) hdr = Ok r -> record_element (render_variable_record powi i r) = Some (id, fields) ->
  exists b0 b1 rest', rest = [b0; b1] ++ rest' /\ lookup (txt "Quantity") fields = Some (txt "Time point (date)") /\
    lookup (txt "Value") fields = Some (date_text (2000 + g_year b0 b1) (b1 mod 16) (b0 mod 32)).
Proof. exact xml_date. Qed.
Print Assumptions C102_xml_date.
Example C102_date_example : exists h r id fields,
  header_of debug [0x02; 0x6C] [0x0F; 0x36] h 0x02 0x6C /\ data_record_parse debug ([0x02; 0x6C] ++ [0x0F; 0x36]) None = Ok r /\
  record_element (render_variable_record ex_powi 0 r) = Some (id, fields) /\ lookup (txt "Value") fields = Some (txt "2024-06-15").
Proof. exact xml_date_example. Qed.
Theorem C102_xml_datetime : forall cf head rest hdr h dif powi i id fields r,
  header_of cf head rest h dif 0x6D -> dif mod 16 = 4 ->
  data_record_parse cf (head ++ rest) hdr = Ok r -> record_element (render_variable_record powi i r) = Some (id, fields) ->
  exists b0 b1 b2 b3 rest', rest = [b0; b1; b2; b3] ++ rest' /\ lookup (txt "Quantity") fields = Some (txt "Time point (date & time)") /\
    lookup (txt "Value") fields = Some (if b0 <? 128
      then date_text (2000 + g_year b2 b3) (b3 mod 16) (b2 mod 32) ++ txt "T" ++ time_text (b1 mod 32) (b0 mod 64) 0 ++ txt "Z"
      else txt "1900-01-00T00:00:00Z").
Proof. exact xml_datetime. Qed.
Print Assumptions C102_xml_datetime.
Example C102_datetime_example : exists h r id fields,
  header_of debug [0x04; 0x6D] [30; 12; 0x0F; 0x36] h 0x04 0x6D /\ data_record_parse debug ([0x04; 0x6D] ++ [30; 12; 0x0F; 0x36]) None = Ok r /\
  record_element (render_variable_record ex_powi 0 r) = Some (id, fields) /\ lookup (txt "Value") fields = Some (txt "2024-06-15T12:30:00Z").
Proof. exact xml_datetime_example. Qed.
Theorem C102_xml_datetime48 : forall cf head rest hdr h dif powi i id fields r,
  header_of cf head rest h dif 0x6D -> dif mod 16 = 6 -> 6 <= len rest ->
  data_record_parse cf (head ++ rest) hdr = Ok r -> record_element (render_variable_record powi i r) = Some (id, fields) ->
  exists b0 b1 b2 b3 b4 b5 rest', rest = [b0; b1; b2; b3; b4; b5] ++ rest' /\ lookup (txt "Quantity") fields = Some (txt "Time point (date & time)") /\
    lookup (txt "Value") fields = Some (if b1 <? 128
      then date_text (2000 + g_year b3 b4) (b4 mod 16) (b3 mod 32) ++ txt "T" ++ time_text (b2 mod 32) (b1 mod 64) (b0 mod 64) ++ txt "Z"
      else txt "1900-01-00T00:00:00Z").
Proof. exact xml_datetime48. Qed.
Print Assumptions C102_xml_datetime48.
Example C102_datetime48_example : exists h r id fields,
  header_of debug [0x06; 0x6D] [10; 30; 12; 0x0F; 0x36; 0] h 0x06 0x6D /\
  data_record_parse debug ([0x06; 0x6D] ++ [10; 30; 12; 0x0F; 0x36; 0]) None = Ok r /\ 6 <= len [10; 30; 12; 0x0F; 0x36; 0] /\
  record_element (render_variable_record ex_powi 0 r) = Some (id, fields) /\ lookup (txt "Value") fields = Some (txt "2024-06-15T12:30:10Z").
Proof. exact xml_datetime48_example. Qed.

(** C103: a text is shown with its characters in order; it is read as UTF-8 where it is *)
Theorem C103_text : forall cf head n rest hdr h dif vif,
  header_of cf head (n :: rest) h dif vif -> ~ date_vif vif -> dif mod 16 = 13 -> n <= 0xBF ->
  (len rest < n /\ data_record_parse cf (head ++ n :: rest) hdr = Err RInsufficientData) \/
  exists body rest' r t, rest = body ++ rest' /\ len body = n /\ data_record_parse cf (head ++ n :: rest) hdr = Ok r /\ dr_header r = h /\
    dr_raw_bytes r = head ++ n :: body /\ reads_text body t /\
    forall i, ro_value (record_output i r) = {| vo_kind := txt "text"; vo_value := Some (JString t) |}.
Proof. exact text_record. Qed.
Print Assumptions C103_text.
Example C103_example : exists h r,
  header_of debug [0x0D; 0x78] (7 :: ex_text) h 0x0D 0x78 /\ ~ date_vif 0x78 /\
  data_record_parse debug ([0x0D; 0x78] ++ 7 :: ex_text) None = Ok r /\
  ro_value (record_output 0 r) = {| vo_kind := txt "text"; vo_value := Some (JString [0x47; 0x72; 0xF6; 0xDF; 0x65]) |}.
Proof. exact text_example. Qed.
(** ... and in the XML, where it is UTF-8, with spaces for control characters *)
Theorem C103_xml_text : forall cf head n rest hdr h dif vif row k powi i id fields r,
  header_of cf head (n :: rest) h dif vif -> primary vif row k -> ~ date_vif vif -> dif mod 16 = 13 -> n <= 0xBF ->
  data_record_parse cf (head ++ n :: rest) hdr = Ok r -> record_element (render_variable_record powi i r) = Some (id, fields) ->
  exists body rest', rest = body ++ rest' /\ len body = n /\
    lookup (txt "Unit") fields = Some (vr_xml_unit row) /\ lookup (txt "Quantity") fields = Some (vr_xml_quantity row) /\
    forall t, utf8 t (rev body) -> lookup (txt "Value") fields = Some (blanked t).
Proof. exact xml_text. Qed.
Print Assumptions C103_xml_text.
Example C103_xml_example : exists h r id fields,
  header_of debug [0x0D; 0x78] (7 :: ex_text) h 0x0D 0x78 /\ primary 0x78 (row 0x78 1 0 LFabricationNumber [] (txt "Fabrication No") [] 1) 0 /\
  ~ date_vif 0x78 /\ 0x0D mod 16 = 13 /\ data_record_parse debug ([0x0D; 0x78] ++ 7 :: ex_text) None = Ok r /\
  record_element (render_variable_record ex_powi 0 r) = Some (id, fields) /\
  utf8 [0x47; 0x72; 0xF6; 0xDF; 0x65] (rev ex_text) /\ lookup (txt "Value") fields = Some [0x47; 0x72; 0xF6; 0xDF; 0x65].
Proof. exact xml_text_example. Qed.

(** C104: the direction of a message follows from its control information *)
Theorem C104_direction : forall b c, b < 256 -> control_information_from b = Ok c ->
  (direction_from c = SlaveToMaster <-> from_meter b) /\ (direction_from c = MasterToSlave <-> to_meter b).
Proof. exact direction_of. Qed.
Print Assumptions C104_direction.
Example C104_example : control_information_from 0x72 = Ok (CIResponseWithVariableDataStructure false) /\ from_meter 0x72 /\
  control_information_from 0x51 = Ok CISendData /\ to_meter 0x51.
Proof. exact direction_example. Qed.

(** C105: a real number is shown as the number transmitted *)
Theorem C105_real : forall cf head rest hdr h dif vif,
  header_of cf head rest h dif vif -> ~ date_vif vif -> dif mod 16 = 5 ->
  (len rest < 4 /\ data_record_parse cf (head ++ rest) hdr = Err RInsufficientData) \/
  exists body rest' r f, rest = body ++ rest' /\ len body = 4 /\ data_record_parse cf (head ++ rest) hdr = Ok r /\
    dr_raw_bytes r = head ++ body /\ same_number (Bits.b32_of_bits (Z.of_N (le_number body))) f /\
    forall i, ro_value (record_output i r) = {| vo_kind := txt "float"; vo_value := Some (float_shown f) |}.
Proof. exact real_shown. Qed.
Print Assumptions C105_real.
Example C105_example : exists h r,
  header_of debug [0x05; 0x5B] [0; 0; 0xA8; 0x41] h 0x05 0x5B /\ ~ date_vif 0x5B /\ 0x05 mod 16 = 5 /\
  data_record_parse debug ([0x05; 0x5B] ++ [0; 0; 0xA8; 0x41]) None = Ok r.
Proof. exact real_example. Qed.

(** C75, for the fixed data structure *)
Theorem C75_identity_fixed : forall env data id ci i0 i1 i2 i3 acc st d0 d1 rest u key enrich d,
  bytes_ok data -> ci = 0x73 \/ ci = 0x77 -> message data ([ci; i0; i1; i2; i3; acc; st; d0; d1] ++ rest) id ->
  app_meaning ([ci; i0; i1; i2; i3; acc; st; d0; d1] ++ rest) u -> decode_bytes env data key enrich = Ok d ->
  do_alternate_identities d = [] /\
  exists x t, do_identity d = Some x /\ id_source x = txt "application.fixed" /\ id_id x = Some t /\ packed_digits [i0; i1; i2; i3] t /\
    id_manufacturer_code x = None /\ id_version x = None /\ id_device_type_code x = None /\
    id_device_type x = Some (txt "fixed type/unit 0x" ++ hex_string [d0; d1]).
Proof. exact fixed_identity. Qed.
Print Assumptions C75_identity_fixed.
Example C75_fixed_example : exists u d,
  bytes_ok (long_frame ex_fixed) /\ message (long_frame ex_fixed) ex_fixed None /\ app_meaning ex_fixed u /\
  decode_bytes ex_env (long_frame ex_fixed) None false = Ok d /\ option_map id_id (do_identity d) = Some (Some (txt "12345678")).
Proof. exact fixed_example. Qed.

(** C72: the details added are those of the registry for the manufacturer shown *)
Theorem C72_enrichment_of_manufacturer : forall env data key enrich d, decode_bytes env data key enrich = Ok d ->
  (forall i c, enrich = true -> do_identity d = Some i -> id_manufacturer_code i = Some c -> do_enrichment d = env_registry env c) /\
  (enrich = false \/ do_identity d = None \/ (exists i, do_identity d = Some i /\ id_manufacturer_code i = None) -> do_enrichment d = None).
Proof. exact enrichment_shown. Qed.
Print Assumptions C72_enrichment_of_manufacturer.
Example C72_manufacturer_example : exists d i, decode_bytes ex_env ex_wired_clear None true = Ok d /\ do_identity d = Some i /\
  id_manufacturer_code i <> None.
Proof. exact manufacturer_example. Qed.
