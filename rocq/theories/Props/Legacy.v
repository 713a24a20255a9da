(** C106 to C115: the registry of manufacturers, the older outputs, and the interface that takes and returns text. *)
From Coq Require Import List NArith ZArith Lia String.
Import ListNotations.
From Verif Require Import Model.Base Model.Text Model.Core Model.Wired Model.Wireless Model.F64 Model.DataInfo Model.ValueInfo Model.Record Model.Decrypt
  Model.UserData Model.Hex Model.Annotate Model.MbusData Model.Show Model.Output Model.Format Model.Render Model.Manufacturers Model.Legacy Model.Serialize
  Spec.CoreSpec Spec.TextSpec Spec.FormatSpec Spec.WiredSpec Spec.WirelessSpec Spec.DecryptSpec Spec.RecordSpec Spec.VifSpec Spec.AppSpec
  Spec.AnnotateSpec Spec.MbusSpec Spec.OutputSpec Spec.DetailSpec Spec.RenderSpec Spec.LegacySpec Spec.CsvSpec Spec.JsonSpec Spec.JsonViewSpec Spec.SerializeSpec
  Proof.AnnotateProps Proof.MbusProps Proof.OutputProps Proof.VifFacts Proof.FormatProps Proof.LegacyFacts Proof.LegacyRecords Proof.LegacyValues
  Proof.TextFacts Proof.SerializeFacts Proof.JsonViewFacts Proof.ViewFacts Proof.LegacyProps.
Open Scope N_scope.
Open Scope list_scope.

(** C106: the registry answers for exactly the codes it lists, each listed once; every code is three capitals, and some
    manufacturer number of a frame reads as it *)
Theorem C106_lookup : forall code info, lookup_manufacturer code = Some info <-> In (code, info) registered.
Proof. exact registry_lookup. Qed.
Print Assumptions C106_lookup.
Theorem C106_listed_once : NoDup (map fst registered).
Proof. exact codes_nodup. Qed.
Print Assumptions C106_listed_once.
Theorem C106_capitals : Forall (fun code => three_capitals code) (map fst registered).
Proof. exact codes_capital. Qed.
Print Assumptions C106_capitals.
Theorem C106_reachable : forall code info, In (code, info) registered ->
  exists m, mc_from_id m = Ok {| mc1 := nth 0 code 0; mc2 := nth 1 code 0; mc3 := nth 2 code 0 |} /\ m < 65536 /\
    show_manufacturer {| mc1 := nth 0 code 0; mc2 := nth 1 code 0; mc3 := nth 2 code 0 |} = code.
Proof. exact registry_codes. Qed.
Print Assumptions C106_reachable.

Example C106_example : lookup_manufacturer (txt "KAM") =
  Some (txt "Kamstrup A/S", txt "kamstrup.com", txt "Energy and water metering (Denmark)") /\ lookup_manufacturer (txt "XXX") = None.
Proof. exact registry_example. Qed.

(** C107: the wide CSV can be read in one way only, as a line of names and a line of as many cells, no name twice; the columns are the fields of the frame
    summary and two for each of its records *)
Theorem C107_wide_csv : forall env rn lr input key o, parse_frame_output env (lr_display lr) input key = Ok (Some o) ->
  exists headers row,
    (exists t, serialize_mbus_data env rn lr input (txt "csv-wide") key = Ok t /\ reads_only t [headers; row]) /\
    List.length headers = List.length row /\ NoDup headers /\
    forall name cell, column headers row name cell <-> wide_column (po_summary o) name cell.
Proof. exact serialize_wide. Qed.
Print Assumptions C107_wide_csv.

Example C107_example : exists o headers row,
  parse_frame_output ex_env (lr_display ex_legacy) (hex_string ex_wired_clear) None = Ok (Some o) /\
  (exists t, serialize_mbus_data ex_env ex_renderers ex_legacy (hex_string ex_wired_clear) (txt "csv-wide") None = Ok t /\
     reads_only t [headers; row]) /\
  column headers row (txt "Access Number") (txt "9") /\
  column headers row (txt "DataPoint1_Value") (txt "(1.5)e-3[m" ++ [0xB3] ++ txt "](Volume)").
Proof. exact wide_example. Qed.

(** C108 as stated fails: the older JSON and YAML list records read from the ciphertext; reading them can panic; and the
    payload of an encrypted session is summarized as if it were in clear *)
Theorem C108_ciphertext_listed_refuted : forall env display, exists data payload block o rs,
  bytes_ok data /\ message data payload None /\ encrypted_message payload block /\
  parse_frame_bytes env display data None = Ok (Some o) /\ fs_decrypted (po_summary o) = false /\
  po_records o = Some rs /\ rs <> [] /\ records_all (env_config env) block None = Some (map Ok rs).
Proof. exact json_refuted. Qed.
Print Assumptions C108_ciphertext_listed_refuted.
Theorem C108_ciphertext_panic_refuted : forall env display, exists data payload block d,
  bytes_ok data /\ message data payload None /\ encrypted_message payload block /\
  decode_bytes env data None false = Ok d /\ is_panic (parse_frame_bytes env display data None).
Proof. exact crash_refuted. Qed.
Print Assumptions C108_ciphertext_panic_refuted.
Theorem C108_session_refuted : forall env display, exists data payload u d o,
  bytes_ok data /\ message data payload None /\ protected payload /\ app_meaning payload u /\
  decode_bytes env data None false = Ok d /\ do_records d = [] /\ to_statuses (do_transport d) = [] /\
  parse_frame_bytes env display data None = Ok (Some o) /\ fs_encrypted (po_summary o) = false /\
  fs_records (po_summary o) <> [] /\ fs_status (po_summary o) <> None.
Proof. exact session_refuted. Qed.
Print Assumptions C108_session_refuted.
(** ... the summary of a message whose transport header says that it is encrypted says so too; unless it was decrypted with the
    key given, it has no records, and shows the encrypted bytes *)
Theorem C108_summary_partial : forall env display data payload id block u key,
  bytes_ok data -> message data payload id -> encrypted_message payload block -> app_meaning payload u ->
  (forall o, parse_frame_bytes env display data key = Ok (Some o) ->
     fs_encrypted (po_summary o) = true /\ (fs_decrypted (po_summary o) = true -> key <> None) /\
     (fs_decrypted (po_summary o) = false ->
        fs_records (po_summary o) = [] /\ fs_encrypted_payload_hex (po_summary o) = Some (hex_string block))) /\
  (key = None ->
     (exists o, parse_frame_bytes env display data key = Ok (Some o) /\ fs_decrypted (po_summary o) = false) \/
     (exists rs p, parse_frame_bytes env display data key = Panic p /\
        records_all (env_config env) block None = Some (map Ok rs ++ [Panic p]))).
Proof. exact legacy_secret. Qed.
Print Assumptions C108_summary_partial.

Example C108_example : exists u o,
  bytes_ok ex_wired_encrypted /\ message ex_wired_encrypted ex_encrypted_message None /\
  encrypted_message ex_encrypted_message (repeat 0x2F 16) /\ app_meaning ex_encrypted_message u /\
  parse_frame_bytes ex_env ex_display ex_wired_encrypted None = Ok (Some o) /\
  fs_encrypted_payload_hex (po_summary o) = Some (txt "2F2F2F2F2F2F2F2F2F2F2F2F2F2F2F2F").
Proof. exact secret_example. Qed.

(** C109 as stated fails: a record that cannot be read leaves no trace in the summary *)
Theorem C109_truncation_refuted : forall env display, exists data data' d d' o o',
  bytes_ok data /\ bytes_ok data' /\
  decode_bytes env data None false = Ok d /\ do_decode_state d = txt "complete" /\
  decode_bytes env data' None false = Ok d' /\ do_decode_state d' = txt "partial" /\
  parse_frame_bytes env display data None = Ok (Some o) /\ parse_frame_bytes env display data' None = Ok (Some o') /\
  po_summary o = po_summary o'.
Proof. exact truncation_refuted. Qed.
Print Assumptions C109_truncation_refuted.
(** ... the records that can be read are the same in the older and the newer outputs: of a message in clear *)
Theorem C109_clear_partial : forall env display data payload id block u key enrich,
  bytes_ok data -> message data payload id -> in_clear payload block -> app_meaning payload u ->
  same_listing (decode_bytes env data key enrich) (parse_frame_bytes env display data key) /\
  (forall o, parse_frame_bytes env display data key = Ok (Some o) ->
     fs_encrypted (po_summary o) = false /\ fs_decrypted (po_summary o) = false /\ fs_encrypted_payload_hex (po_summary o) = None).
Proof. exact legacy_clear_records. Qed.
Print Assumptions C109_clear_partial.
(** ... and of an encrypted one, with its key *)
Theorem C109_sealed_partial : forall env display enc data link plain cipher key enrich,
  bytes_ok data -> bytes_ok plain -> addressed data link cipher -> sealed (enc key) link plain cipher ->
  inverse_cipher enc (env_aes env) key -> List.length key = 16%nat ->
  same_listing (decode_bytes env data (Some key) enrich) (parse_frame_bytes env display data (Some key)) /\
  (forall o, parse_frame_bytes env display data (Some key) = Ok (Some o) ->
     fs_encrypted (po_summary o) = true /\ fs_decrypted (po_summary o) = true).
Proof. exact legacy_sealed_records. Qed.
Print Assumptions C109_sealed_partial.

Example C109_clear_example : exists u d o,
  bytes_ok ex_wired_clear /\ message ex_wired_clear ex_clear_message None /\ in_clear ex_clear_message ex_clear_block /\
  app_meaning ex_clear_message u /\ decode_bytes ex_env ex_wired_clear None false = Ok d /\ List.length (do_records d) = 2%nat /\
  parse_frame_bytes ex_env ex_display ex_wired_clear None = Ok (Some o) /\ List.length (fs_records (po_summary o)) = 2%nat.
Proof. exact same_records_example. Qed.
Example C109_sealed_example : exists d o,
  bytes_ok ex_sealed_air /\ addressed ex_sealed_air ex_link (ex_sealed ex_short_head) /\
  sealed (toy ex_key) ex_link (ex_plain ex_short_head) (ex_sealed ex_short_head) /\
  decode_bytes ex_env ex_sealed_air (Some ex_key) false = Ok d /\ List.length (do_records d) = 1%nat /\
  parse_frame_bytes ex_env ex_display ex_sealed_air (Some ex_key) = Ok (Some o) /\ List.length (fs_records (po_summary o)) = 1%nat.
Proof. exact same_sealed_example. Qed.

(** C110: the summary names the meter the newer outputs name, with its access number, status and security mode (a meter
    named by a fixed data structure excepted) *)
Theorem C110_meter_partial : forall env display data payload id u key key' enrich d o,
  bytes_ok data -> message data payload id -> app_meaning payload u ->
  decode_bytes env data key enrich = Ok d -> parse_frame_bytes env display data key' = Ok (Some o) ->
  (forall x, do_identity d = Some x -> id_source x <> txt "application.fixed" -> same_meter env x (po_summary o)) /\
  (do_identity d = None -> fs_identification_number (po_summary o) = None /\ fs_manufacturer (po_summary o) = None /\
     fs_version (po_summary o) = None /\ fs_device_type (po_summary o) = None) /\
  same_transport d (po_summary o).
Proof. exact meter_shown. Qed.
Print Assumptions C110_meter_partial.
(** a wired frame is shown with its type, function and address *)
Theorem C110_frame : forall env display data fr key o, bytes_ok data -> wired_meaning data fr ->
  parse_frame_bytes env display data key = Ok (Some o) ->
  old_frame data (fs_frame_type (po_summary o)) (fs_function (po_summary o)) (fs_address (po_summary o)).
Proof. exact legacy_frame. Qed.
Print Assumptions C110_frame.
(** a wireless frame is shown with the function of its control byte, if that is known, and no address *)
Theorem C110_wireless : forall env display data w fr l c rest key o,
  bytes_ok data -> not_wired data -> received data w -> wireless_meaning w fr -> w = l :: c :: rest ->
  parse_frame_bytes env display data key = Ok (Some o) ->
  fs_frame_type (po_summary o) = txt "Wireless" /\ fs_address (po_summary o) = None /\
  forall t, fs_function (po_summary o) = Some t <-> In (c, t) old_function_texts.
Proof. exact legacy_air. Qed.
Print Assumptions C110_wireless.
Example C110_wireless_example : exists fr o l c rest,
  bytes_ok ex_air_encoded /\ not_wired ex_air_encoded /\ received ex_air_encoded ex_air /\ wireless_meaning ex_air fr /\ ex_air = l :: c :: rest /\
  parse_frame_bytes ex_env ex_display ex_air_encoded None = Ok (Some o) /\ fs_function (po_summary o) = Some (txt "SndNr").
Proof. exact older_air_example. Qed.
(** the identification number is the same in every case *)
Theorem C110_number : forall env display data payload id u key key' enrich d o,
  bytes_ok data -> message data payload id -> app_meaning payload u ->
  decode_bytes env data key enrich = Ok d -> parse_frame_bytes env display data key' = Ok (Some o) ->
  forall x, do_identity d = Some x -> fs_identification_number (po_summary o) = id_id x.
Proof. exact number_shown. Qed.
Print Assumptions C110_number.
(** the device type of a fixed data structure is not, nor the access number of an extended link layer *)
Theorem C110_fixed_refuted : forall env display, exists data payload d o x,
  bytes_ok data /\ message data payload None /\ decode_bytes env data None false = Ok d /\ parse_frame_bytes env display data None = Ok (Some o) /\
  do_identity d = Some x /\ id_device_type x <> None /\ fs_device_type (po_summary o) = None.
Proof. exact fixed_refuted. Qed.
Print Assumptions C110_fixed_refuted.
Theorem C110_access_refuted : forall env display, exists data payload d o source access,
  bytes_ok data /\ message data payload None /\ decode_bytes env data None false = Ok d /\ parse_frame_bytes env display data None = Ok (Some o) /\
  to_access_numbers (do_transport d) = [(source, access)] /\ fs_access_number (po_summary o) = None.
Proof. exact access_refuted. Qed.
Print Assumptions C110_access_refuted.

Example C110_example : exists u d o x,
  bytes_ok ex_wired_clear /\ message ex_wired_clear ex_clear_message None /\ app_meaning ex_clear_message u /\
  decode_bytes ex_env ex_wired_clear None false = Ok d /\ parse_frame_bytes ex_env ex_display ex_wired_clear None = Ok (Some o) /\
  do_identity d = Some x /\ id_source x <> txt "application.fixed" /\
  fs_identification_number (po_summary o) = Some (txt "12345678") /\ fs_access_number (po_summary o) = Some 9 /\
  fs_function (po_summary o) = Some (txt "RspUd (ACD: false, DFC: false)") /\ fs_frame_type (po_summary o) = txt "LongFrame".
Proof. exact meter_example. Qed.

(** C111: a record with a VIF of the primary table is shown as its value, the power of ten, the unit and the quantity of
    that table *)
Theorem C111_record : forall cf display head rest hdr h dif vif row n r,
  header_of cf head rest h dif vif -> primary vif row n -> data_record_parse cf (head ++ rest) hdr = Ok r ->
  rs_exponent (summarize_record display r) = Some (primary_scale row n) /\
  exists u q, old_unit row (rs_unit (summarize_record display r)) u /\ rs_quantity (summarize_record display r) = Some q /\
    In (vr_label row, q) old_quantity_texts /\
    forall x, d_value (dr_data r) = Some x -> exists v, old_value display x v /\
      rs_display (summarize_record display r) = txt "(" ++ v ++ txt ")" ++ old_exponent (primary_scale row n) ++ u ++ txt "(" ++ q ++ txt ")".
Proof. exact old_record. Qed.
Print Assumptions C111_record.
Theorem C111_number : forall display r f, d_value (dr_data r) = Some (Number f) \/ d_value (dr_data r) = Some (LossyNumber f) ->
  rs_value (summarize_record display r) = Some f.
Proof. exact old_number. Qed.
Print Assumptions C111_number.

Example C111_example : exists h r x,
  header_of debug [0x04; 0x13] [1; 0; 0; 0] h 0x04 0x13 /\
  primary 0x13 (row 0x10 8 (-6) LVolume [(UMeter, 3%Z)] (txt "Volume") (txt "m^3") 1) 3 /\
  data_record_parse debug ([0x04; 0x13] ++ [1; 0; 0; 0]) None = Ok r /\ d_value (dr_data r) = Some (Number x) /\
  rs_display (summarize_record ex_display r) = txt "(1.5)e-3[m" ++ [0xB3] ++ txt "](Volume)".
Proof. exact old_record_example. Qed.

(** C112: the older outputs accept exactly the frames the newer ones accept, and give an answer for all *)
Theorem C112_same_frames : forall env display data key enrich, bytes_ok data ->
  parse_frame_bytes env display data key <> Err tt /\
  (parse_frame_bytes env display data key = Ok None <->
   data = [] \/ exists a b, decode_bytes env data key enrich = Err (OInvalidFrame a b)).
Proof. exact legacy_accepts. Qed.
Print Assumptions C112_same_frames.

Example C112_example :
  parse_frame_bytes ex_env ex_display [1; 2; 3] None = Ok None /\ (exists e, decode_bytes ex_env [1; 2; 3] None false = Err e) /\
  exists o, parse_frame_bytes ex_env ex_display ex_wired_clear None = Ok (Some o).
Proof. exact accepts_example. Qed.

(** C113 as stated fails: the older chart has an arrow from a group that is not there, a line that is nothing but the text of a
    record, and records read from ciphertext *)
Theorem C113_group_refuted : exists env display input t pre post,
  parse_to_mermaid env display input = Ok t /\ t = pre ++ txt "DEV_SG --> REC_SG" ++ post /\
  forall pre' post', t <> pre' ++ txt "subgraph DEV_SG" ++ post'.
Proof. exact chart_group_refuted. Qed.
Print Assumptions C113_group_refuted.
Theorem C113_line_refuted : exists env display input data text pre post,
  clean_and_convert input = data /\ message data ([0x78; 0x0D; 0x78; 3] ++ text) None /\
  parse_to_mermaid env display input = Ok (pre ++ [10] ++ txt "A" ++ [10] ++ post).
Proof. exact chart_line_refuted. Qed.
Print Assumptions C113_line_refuted.
Theorem C113_ciphertext_refuted : exists env display input data payload block rs before nodes rest,
  clean_and_convert input = data /\ message data payload None /\ encrypted_message payload block /\
  records_all (env_config env) block None = Some (map Ok rs) /\ rs <> [] /\
  parse_to_mermaid env display input = Ok (before ++ nodes ++ rest) /\ old_nodes display 0 rs nodes.
Proof. exact chart_secret_refuted. Qed.
Print Assumptions C113_ciphertext_refuted.
(** ... it has a node for each record of a message in clear, in order *)
Theorem C113_nodes_partial : forall env display input data payload id block u rs e,
  clean_and_convert input = data -> bytes_ok data -> message data payload id -> in_clear payload block -> app_meaning payload u ->
  records_all (env_config env) block None = Some (map Ok rs) \/ records_all (env_config env) block None = Some (map Ok rs ++ [Err e]) ->
  exists before nodes rest, parse_to_mermaid env display input = Ok (before ++ nodes ++ rest) /\ old_nodes display 0 rs nodes.
Proof. exact chart_clear. Qed.
Print Assumptions C113_nodes_partial.
(** ... and for a wired message they stand in rows of four, with nodes of different names *)
Theorem C113_rows_partial : forall env display input data payload block u rs e,
  clean_and_convert input = data -> bytes_ok data -> message data payload None -> in_clear payload block -> app_meaning payload u ->
  records_all (env_config env) block None = Some (map Ok rs) \/ records_all (env_config env) block None = Some (map Ok rs ++ [Err e]) ->
  exists before nodes rows rest, parse_to_mermaid env display input = Ok (before ++ nodes ++ rows ++ txt "    end" ++ [10] ++ rest) /\
    old_nodes display 0 rs nodes /\ laid_rows 4 (map (fun i => txt "R" ++ dec (N.of_nat i)) (seq 0 (List.length rs))) rows.
Proof. exact chart_rows. Qed.
Print Assumptions C113_rows_partial.

Example C113_example : exists u rs,
  clean_and_convert (hex_string ex_wired_clear) = ex_wired_clear /\ message ex_wired_clear ex_clear_message None /\
  in_clear ex_clear_message ex_clear_block /\ app_meaning ex_clear_message u /\
  records_all debug ex_clear_block None = Some (map Ok rs) /\ List.length rs = 2%nat.
Proof. exact chart_example. Qed.

(** C114: the text interface returns the rendering in the format named, or "Error [code]: message" with a code that says what
    is wrong *)
Theorem C114_rendering : forall env rn lr input format key f n core data,
  stripped format core -> In (n, f) format_names -> spells_word core (txt n) -> hex_input input data ->
  match render_bytes env rn data f {| op_key := key; op_include_enrichment := true; op_table_width := Some 100 |} with
  | Ok t => serialize_mbus_data env rn lr input format key = Ok t
  | Err e => exists code layer message,
      serialize_mbus_data env rn lr input format key = Ok (txt "Error [" ++ code ++ txt "]: " ++ message) /\
      failure data key f code layer /\
      code = error_code (SRender e) /\ layer = error_layer (SRender e) /\ error_byte_offset (SRender e) = None
  | Panic p => serialize_mbus_data env rn lr input format key = Panic p
  end.
Proof. exact serialize_new. Qed.
Print Assumptions C114_rendering.
Theorem C114_unsupported : forall env rn lr input format key core,
  ~ In format older_names -> stripped format core -> (forall n f, In (n, f) format_names -> ~ spells_word core (txt n)) ->
  serialize_mbus_data env rn lr input format key =
    Ok (txt "Error [format.unsupported]: unsupported output format " ++ lr_debug lr format ++
        txt "; expected table, json, yaml, csv, mermaid, xml, annotated, or annotated-text").
Proof. exact serialize_unsupported. Qed.
Print Assumptions C114_unsupported.
Theorem C114_unread : forall env rn lr input format key f n core icore,
  stripped format core -> In (n, f) format_names -> spells_word core (txt n) ->
  stripped input icore -> (forall data, ~ hex_input input data) ->
  (serialize_mbus_data env rn lr input format key = Ok (txt "Error [input.empty]: input must not be empty") /\
   Forall (fun c => white c \/ separator c) input) \/
  (exists j message,
     serialize_mbus_data env rn lr input format key =
       Ok (txt "Error [input.invalid_hex]: invalid hexadecimal input at character " ++ dec j ++ txt ": " ++ message) /\
     ((Forall (fun c => exists v, hex_digit c v) icore /\ len icore mod 2 = 1 /\ j + 1 = len icore) \/
      (exists tok, run_at icore j tok /\ forall b, ~ byte_token tok b))).
Proof. exact serialize_unread. Qed.
Print Assumptions C114_unread.
(** ... and the error of the typed interface points at the same place *)
Theorem C114_place : forall env rn input f options icore, stripped input icore -> (forall data, ~ hex_input input data) ->
  exists e, render_hex env rn input f options = Err e /\ error_layer (SRender e) = txt "input" /\
    ((error_code (SRender e) = txt "input.empty" /\ error_byte_offset (SRender e) = None /\ Forall (fun c => white c \/ separator c) input) \/
     (exists j, error_code (SRender e) = txt "input.invalid_hex" /\ error_byte_offset (SRender e) = Some j /\
       ((Forall (fun c => exists v, hex_digit c v) icore /\ len icore mod 2 = 1 /\ j + 1 = len icore) \/
        (exists tok, run_at icore j tok /\ forall b, ~ byte_token tok b)))).
Proof. exact unread_place. Qed.
Print Assumptions C114_place.
Example C114_place_example : exists e, render_hex ex_env ex_renderers (txt " 68 0G") FTable ex_options = Err e /\
  error_byte_offset (SRender e) = Some 3 /\ stripped (txt " 68 0G") (txt "68 0G").
Proof. eexists. split; [vm_compute; reflexivity|]. split; [vm_compute; reflexivity|exact (trim_stripped (txt " 68 0G"))]. Qed.
Theorem C114_answers : forall env rn lr input format key,
  (exists t, serialize_mbus_data env rn lr input format key = Ok t) \/ is_panic (serialize_mbus_data env rn lr input format key).
Proof. exact serialize_answers. Qed.
Print Assumptions C114_answers.

Example C114_example :
  stripped (txt " YAML ") (txt "YAML") /\ In ("yaml"%string, FYaml) format_names /\ spells_word (txt "YAML") (txt "yaml") /\
  hex_input (hex_string ex_wired_clear) ex_wired_clear /\
  serialize_mbus_data ex_env ex_renderers ex_legacy (hex_string ex_wired_clear) (txt " YAML ") None = Ok (txt "{}") /\
  serialize_mbus_data ex_env ex_renderers ex_legacy (txt "68 06") (txt "yaml") None =
    Ok (txt "Error [frame.invalid]: data is not a valid wired or wireless M-Bus frame (wired: not a frame; wireless: not a frame)") /\
  serialize_mbus_data ex_env ex_renderers ex_legacy (txt "68 06") (txt "html") None =
    Ok (txt "Error [format.unsupported]: unsupported output format ""html""; expected table, json, yaml, csv, mermaid, xml, annotated, or annotated-text") /\
  serialize_mbus_data ex_env ex_renderers ex_legacy (txt "68 0G") (txt "csv") None =
    Ok (txt "Error [input.invalid_hex]: invalid hexadecimal input at character 3: message").
Proof. exact text_interface_example. Qed.

(** C115: with the right key the annotated view, and the older hex view, show the frame with the plain message in place of the
    encrypted one, and label the records of the plain message *)
Theorem C115_wired : forall env rn lr enc x c a f ad plain cipher block key input,
  let data := long_layout x c a cipher in
  sealed (enc key) [] plain cipher -> encrypted_message plain block -> bytes_ok data -> bytes_ok plain ->
  wired_meaning data (LongFrame f ad cipher) ->
  inverse_cipher enc (env_aes env) key -> List.length key = 16%nat -> clean_and_convert input = data ->
  exists segs0, annotate_frame (env_config env) data = Ok segs0 /\
    decrypted_view env rn lr data input key (long_layout x c a plain) block segs0.
Proof. exact view_wired. Qed.
Print Assumptions C115_wired.
(** without a key they show the ranges of the frame as received *)
Theorem C115_no_key : forall env rn lr input key segs, annotate_frame (env_config env) (clean_and_convert input) = Ok segs ->
  exists t v l, serialize_mbus_data env rn lr input (txt "hexview-legacy") None = Ok t /\
    serialize_mbus_data env rn lr input (txt "annotated-legacy") key = Ok t /\
    only_value t v /\ list_of says_segment (Some v) l /\ map fst l = segs.
Proof. exact older_views. Qed.
Print Assumptions C115_no_key.
(** (of a wireless frame, if it has no CRC at its end and is still such a frame when decrypted) *)
Theorem C115_wireless_partial : forall env rn lr enc data l c link plain cipher block fr key input segs0,
  let w := [l; c] ++ link ++ cipher in let display := [l; c] ++ link ++ plain in
  sealed (enc key) link plain cipher -> encrypted_message plain block ->
  bytes_ok data -> bytes_ok w -> bytes_ok display -> List.length link = 8%nat -> not_wired data ->
  received data w -> wireless_meaning w fr -> wf_data fr = cipher -> carries display 10 plain ->
  inverse_cipher enc (env_aes env) key -> List.length key = 16%nat -> clean_and_convert input = data ->
  annotate_frame (env_config env) data = Ok segs0 ->
  decrypted_view env rn lr data input key display block segs0.
Proof. exact view_wireless. Qed.
Print Assumptions C115_wireless_partial.

(** C115 as stated fails for frames that end with a CRC over the whole frame: the plain message is shown two bytes late *)
Theorem C115_wireless_refuted : exists env rn l c link plain cipher crc block fr data key display t v segs segs0,
  data = [l; c] ++ link ++ cipher ++ crc /\ bytes_ok data /\ List.length link = 8%nat /\ not_wired data /\ received data data /\
  wireless_meaning data fr /\ wf_data fr = cipher /\
  sealed (toy key) link plain cipher /\ encrypted_message plain block /\ inverse_cipher toy (env_aes env) key /\ List.length key = 16%nat /\
  render_annotated_bytes env rn data (Some key) = Ok t /\ only_value t v /\ says_annotated display segs (Some (data, segs0)) v /\
  forall tail, display <> [l; c] ++ link ++ plain ++ tail.
Proof. exact view_wireless_refuted. Qed.
Print Assumptions C115_wireless_refuted.

Example C115_example : exists segs0 segs,
  sealed (toy ex_key) [] (ex_plain ex_long_head) (ex_sealed ex_long_head) /\
  encrypted_message (ex_plain ex_long_head) (concat ex_blocks ++ [1; 2]) /\
  wired_meaning (long_frame (ex_sealed ex_long_head)) (LongFrame (RspUd false false) (Primary 1) (ex_sealed ex_long_head)) /\
  clean_and_convert (hex_string (long_frame (ex_sealed ex_long_head))) = long_frame (ex_sealed ex_long_head) /\
  annotate_frame debug (long_frame (ex_sealed ex_long_head)) = Ok segs0 /\
  (exists t v l l0, render_annotated_bytes ex_env ex_renderers (long_frame (ex_sealed ex_long_head)) (Some ex_key) = Ok t /\ only_value t v /\
     says_annotated (long_frame (ex_plain ex_long_head)) l (Some (long_frame (ex_sealed ex_long_head), l0)) v /\ map fst l = segs /\ map fst l0 = segs0) /\
  map s_kind (group segs 0) = [KDif; KVif; KDataPayload].
Proof. exact view_example. Qed.
