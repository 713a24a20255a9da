(** Model of the rendering half of src/output.rs (CSV, table, diagram, dispatch over the
    formats) and of the text of annotations (src/annotate.rs:1352-1477). *)
From Coq Require Import String.
From Verif Require Import Model.Base Model.Text Model.Core Model.F64 Model.Hex Model.Format Model.MbusData Model.Show
  Model.Escape Model.Table Model.Output Model.Annotate Model.Rscada Model.Json Model.Csv Model.AnnotateText Model.JsonView.

(** What rendering depends on besides its arguments: [unicode-width] ([rn_cw], [rn_sw], see
    Model/Table.v), the text of a finite JSON number, the YAML of a decoded frame (serde),
    [f64::powi] of ten, and [std::fmt::Display] of a number. *)
Record renderers := {
  rn_cw : N -> N;
  rn_sw : text -> N;
  rn_number : f64 -> text;
  rn_yaml : decoded_output -> text;
  rn_powi : Z -> f64;
  rn_display : f64 -> text
}.

(** output.rs:2079-2088: one component of a date *)
Definition show_component (c : text * (N + text)) : text :=
  fst c ++ txt "=" ++ (match snd c with inl n => dec n | inr t => t end).

(** output.rs:2075-2095, [value_display] *)
Definition value_display (rn : renderers) (r : record_out) : text :=
  let kind_is s := text_eqb (vo_kind (ro_value r)) (txt s) in
  match vo_value (ro_value r) with
  | Some (JString t) => t
  | Some (JFloat x) => rn_number rn x
  | Some (JObject components) => join (txt ", ") (map show_component components)
  | None =>
      if kind_is "manufacturer_specific"%string then replace_char 32 [] (ro_data_hex r)
      else if kind_is "none"%string then txt "No data"
      else if kind_is "unknown"%string then txt "Unsupported value type"
      else []
  end.

(** output.rs:2097-2104, [record_hex] *)
Definition record_hex (r : record_out) : text :=
  match ro_header_hex r, ro_data_hex r with
  | [], d => d
  | h, [] => h
  | h, d => h ++ txt " " ++ d
  end.

(** output.rs:2279-2291, [reading] *)
Definition reading (rn : renderers) (r : record_out) : text :=
  let quantity := match ro_quantities r with [] => txt "Reading" | q => join (txt ", ") q end in
  let unit := match ro_unit r with Some u => txt " " ++ u | None => [] end in
  quantity ++ txt ": " ++ value_display rn r ++ unit.

(** output.rs:1930-1942 *)
Definition record_fields : list text :=
  map txt ["function"; "storage_number"; "tariff"; "subunit"; "quantities"; "value_type"; "value"; "unit";
           "data_coding"; "header_hex"; "data_hex"]%string.
(** output.rs:1945-1966 *)
Definition frame_fields : list text :=
  map txt ["schema_version"; "protocol"; "frame_kind"; "frame_function"; "address"; "meter_id";
           "manufacturer_code"; "identity_source"; "access_numbers"; "status_codes"; "security_mode";
           "decryption_state"; "decode_state"; "record_count"; "diagnostic_codes"; "manufacturer_name";
           "manufacturer_website"; "frame_hex"]%string.
(** output.rs:1967-1973 *)
Definition csv_headers (d : decoded_output) : list text :=
  frame_fields ++ flat_map (fun r =>
    map (fun field => txt "record_" ++ dec (ro_index r) ++ txt "_" ++ field) record_fields) (do_records d).

(** output.rs:2004-2057, [csv_frame_row] *)
Definition csv_frame_row (d : decoded_output) : list text :=
  let of_identity f := match do_identity d with Some i => or_empty (f i) | None => [] end in
  let of_enrichment f := match do_enrichment d with Some e => f e | None => [] end in
  [ dec 3;
    do_protocol d;
    fo_kind (do_frame d);
    or_empty (fo_function (do_frame d));
    or_empty (fo_address (do_frame d));
    of_identity id_id;
    of_identity id_manufacturer_code;
    of_identity (fun i => Some (id_source i));
    join (txt "|") (map (fun '(source, value) => source ++ txt ":" ++ dec value) (to_access_numbers (do_transport d)));
    join (txt "|") (map (fun '(_, raw, _) => raw) (to_statuses (do_transport d)));
    or_empty (so_mode (do_security d));
    so_decryption_state (do_security d);
    do_decode_state d;
    dec (len (do_records d));
    join (txt "|") (map dg_code (do_diagnostics d));
    of_enrichment (fun '(name, _, _) => name);
    of_enrichment (fun '(_, website, _) => website);
    rw_original_frame_hex (do_raw d) ].

(** output.rs:2059-2073, [csv_record_values] *)
Definition csv_record_values (rn : renderers) (r : record_out) : list text :=
  [ ro_function r;
    dec (ro_storage_number r);
    dec (ro_tariff r);
    dec (ro_subunit r);
    join (txt "|") (ro_quantities r);
    vo_kind (ro_value r);
    value_display rn r;
    or_empty (ro_unit r);
    ro_data_coding r;
    ro_header_hex r;
    ro_data_hex r ].

(** output.rs:1981-1984: the second line *)
Definition csv_row (rn : renderers) (d : decoded_output) : list text :=
  csv_frame_row d ++ flat_map (csv_record_values rn) (do_records d).

(** the errors of rendering: those of decoding (output.rs:115-147), XML that cannot be written
    ([Rendering], "xml.unsupported"), failed annotation ([Rendering], "annotation.failed"),
    and CSV rows of different length ([Serialization], from the crate csv); the texts of
    serialisation errors of JSON and YAML cannot occur for these types *)
Inductive render_error :=
| RDecode (e : output_error)
| RXml (e : xml_error)
| RAnnotation (e : annotate_error)
| RCsv.

(** output.rs:1927-2002, [render_csv]; the writer refuses a line whose number of fields differs
    from the first *)
Definition render_csv (rn : renderers) (d : decoded_output) : outcome render_error text :=
  let headers := csv_headers d in
  let row := csv_row rn d in
  if len row =? len headers then Ok (csv_line headers ++ csv_line row) else Err RCsv.

(** output.rs:2293-2302, [key_value_box] *)
Definition key_value_box (rn : renderers) (rows : list (text * text)) (width : N) : text :=
  box_table (rn_cw rn) (rn_sw rn) [txt "Field"; txt "Value"]
    (map (fun '(key, value) => [key; value]) rows) (key_value_widths width).

(** output.rs:2118-2124: the dot between words, U+00B7; and the dash for a missing text *)
Definition dot : text := [32; 0xB7; 32].
Definition or_dash (o : option text) : text := match o with Some t => t | None => [0x2014] end.

(** output.rs:2122-2172: the rows of the summary *)
Definition summary_rows (d : decoded_output) : list (text * text) :=
  let of_identity f := match do_identity d with Some i => f i | None => None end in
  [ (txt "Function", or_dash (fo_function (do_frame d)));
    (txt "Meter", or_dash (of_identity id_id));
    (txt "Manufacturer", or_dash (of_identity id_manufacturer_code));
    (txt "Device", or_dash (of_identity id_device_type));
    (txt "Security", so_payload_protection (do_security d) ++ dot ++ so_decryption_state (do_security d)) ]
  ++ match do_enrichment d with
     | Some (name, website, description) =>
         [ (txt "Manufacturer name", name); (txt "Website", website); (txt "Description", description) ]
     | None => []
     end.

(** output.rs:2192, 2224 and 2246: storage, tariff, subunit *)
Definition numbers (r : record_out) : text :=
  dec (ro_storage_number r) ++ txt "/" ++ dec (ro_tariff r) ++ txt "/" ++ dec (ro_subunit r).

(** output.rs:2175-2204: the columns and rows of a wide table *)
Definition wide_widths (width : N) : list N :=
  let content := width - 19 in
  let r := N.max (content * 34 / 100) 18 in
  [3; r; 12; 11; 13; content - (3 + r + 12 + 11 + 13)].
Definition wide_row (rn : renderers) (r : record_out) : list text :=
  [ dec (ro_index r); reading rn r; ro_function r; numbers r; ro_data_coding r; record_hex r ].

(** output.rs:2205-2236: the columns and rows of a medium table *)
Definition medium_widths (width : N) : list N :=
  let content := width - 13 in
  let reading_width := N.max (content * 52 / 100) 24 in
  [3; reading_width; 12; content - (3 + reading_width + 12)].
Definition medium_row (rn : renderers) (r : record_out) : list text :=
  [ dec (ro_index r);
    reading rn r ++ [10] ++ ro_data_coding r ++ dot ++ txt "raw " ++ record_hex r;
    ro_function r;
    numbers r ].

(** output.rs:2237-2258: a record of a narrow table *)
Definition narrow_rows (rn : renderers) (r : record_out) : list (text * text) :=
  [ (txt "Reading", reading rn r);
    (txt "Function", ro_function r);
    (txt "Storage/Tariff/Subunit", numbers r);
    (txt "Coding", ro_data_coding r);
    (txt "Raw", record_hex r) ].

(** output.rs:2174-2260: the records *)
Definition records_table (rn : renderers) (records : list record_out) (width : N) : text :=
  match records with
  | [] => []
  | _ =>
      if 100 <=? width then
        box_table (rn_cw rn) (rn_sw rn) (map txt ["#"; "Reading"; "Function"; "S/T/U"; "Coding"; "Raw"]%string)
          (map (wide_row rn) records) (wide_widths width)
      else if 72 <=? width then
        box_table (rn_cw rn) (rn_sw rn) (map txt ["#"; "Reading / detail"; "Function"; "S/T/U"]%string)
          (map (medium_row rn) records) (medium_widths width)
      else
        flat_map (fun r => line (txt "Record " ++ dec (ro_index r)) ++ key_value_box rn (narrow_rows rn r) width) records
  end.

(** output.rs:2261-2275: the diagnostics *)
Definition diagnostics_table (rn : renderers) (diagnostics : list diagnostic) (width : N) : text :=
  match diagnostics with
  | [] => []
  | _ =>
      line (txt "Diagnostics")
      ++ key_value_box rn (map (fun g => (dg_code g, dg_severity g ++ txt ": " ++ dg_message g)) diagnostics) width
  end.

(** output.rs:2106-2277, [render_table]; the text of [InvalidOption] names the minimum *)
Definition render_table (rn : renderers) (d : decoded_output) (width : N) : outcome render_error text :=
  if width <? 32 then
    Err (RDecode (OInvalidOption (txt "table_width") (txt "must be at least 32 columns")))
  else
    let title := do_protocol d ++ txt " " ++ fo_kind (do_frame d) ++ txt " frame" ++ dot ++ do_decode_state d ++ txt " decode" in
    Ok (join [10] (wrap_display (rn_cw rn) title width) ++ [10]
        ++ key_value_box rn (summary_rows d) width
        ++ records_table rn (do_records d) width
        ++ diagnostics_table rn (do_diagnostics d) width).

(** output.rs:2402-2406 and others: a node with a label *)
Definition node (name label : text) : text := line (txt "        " ++ name ++ [91; 34] ++ label ++ [34; 93]).
(** output.rs:2422-2426 and 2466-2470: edges between neighbours, [windows(2)] *)
Fixpoint edges (arrow : text) (names : list text) : text :=
  match names with
  | a :: ((b :: _) as rest) => line (txt "        " ++ a ++ txt " " ++ arrow ++ txt " " ++ b) ++ edges arrow rest
  | _ => []
  end.
(** output.rs:2400 and others: the beginning of a group *)
Definition subgraph (name label : text) : text :=
  line (txt "    subgraph " ++ name ++ [91; 34] ++ label ++ [34; 93]) ++ line (txt "        direction LR").

(** output.rs:2398, 2407-2420 *)
Definition frame_nodes (d : decoded_output) : list text :=
  [txt "FRAME_KIND"]
  ++ (if is_some (fo_function (do_frame d)) then [txt "FRAME_FUNCTION"] else [])
  ++ (if is_some (fo_address (do_frame d)) then [txt "FRAME_ADDRESS"] else []).

(** output.rs:2400-2427 *)
Definition frame_group (d : decoded_output) : text :=
  subgraph (txt "FRAME_SG") (txt "Frame")
  ++ node (txt "FRAME_KIND") (mermaid_escape (do_protocol d) ++ dot ++ mermaid_escape (fo_kind (do_frame d)))
  ++ (match fo_function (do_frame d) with
      | Some f => node (txt "FRAME_FUNCTION") (txt "Function" ++ dot ++ mermaid_escape f)
      | None => []
      end)
  ++ (match fo_address (do_frame d) with
      | Some a => node (txt "FRAME_ADDRESS") (txt "Address" ++ dot ++ mermaid_escape a)
      | None => []
      end)
  ++ edges (txt "-->") (frame_nodes d)
  ++ line (txt "    end").

(** output.rs:2430, 2445-2464 *)
Definition meter_nodes (i : meter_identity) : list text :=
  [txt "METER_ID"; txt "METER_MANUFACTURER"]
  ++ (if is_some (id_device_type i) then [txt "METER_TYPE"] else [])
  ++ (if is_some (id_version i) then [txt "METER_VERSION"] else []).

(** output.rs:2429-2473 *)
Definition meter_group (i : meter_identity) : text :=
  subgraph (txt "METER_SG") (txt "Meter")
  ++ node (txt "METER_ID")
       (txt "ID" ++ dot ++ mermaid_escape (match id_id i with Some t => t | None => txt "unknown" end))
  ++ node (txt "METER_MANUFACTURER")
       (txt "Manufacturer" ++ dot ++
        mermaid_escape (match id_manufacturer_code i with Some t => t | None => txt "unknown manufacturer" end))
  ++ (match id_device_type i with
      | Some t => node (txt "METER_TYPE") (txt "Type" ++ dot ++ mermaid_escape t)
      | None => []
      end)
  ++ (match id_version i with
      | Some v => node (txt "METER_VERSION") (txt "Version" ++ dot ++ dec v)
      | None => []
      end)
  ++ edges (txt "-->") (meter_nodes i)
  ++ line (txt "    end")
  ++ line (txt "    FRAME_SG --> METER_SG").

(** output.rs:2475-2484 *)
Definition security_group (d : decoded_output) : text :=
  subgraph (txt "SECURITY_SG") (txt "Security")
  ++ node (txt "SECURITY_MODE") (mermaid_escape (so_payload_protection (do_security d)))
  ++ node (txt "SECURITY_STATE") (mermaid_escape (so_decryption_state (do_security d)))
  ++ line (txt "        SECURITY_MODE --> SECURITY_STATE")
  ++ line (txt "    end")
  ++ line (txt "    FRAME_SG --> SECURITY_SG").

(** the name of a record's node: output.rs:2494, 2501, 2550 *)
Definition record_node (r : record_out) : text := txt "R" ++ dec (ro_index r).

(** output.rs:2486-2510 *)
Definition records_group (rn : renderers) (d : decoded_output) : text :=
  match do_records d with
  | [] => []
  | records =>
      subgraph (txt "RECORDS_SG") (txt "Data Records" ++ dot ++ dec (len records))
      ++ flat_map (fun r => node (record_node r) (mermaid_escape (reading rn r))) records
      ++ edges (txt "~~~") (map record_node records)
      ++ line (txt "    end")
      ++ line (if is_some (do_identity d) then txt "    METER_SG --> RECORDS_SG" else txt "    FRAME_SG --> RECORDS_SG")
  end.

(** output.rs:2512-2518 *)
Definition diagnostic_node (d : decoded_output) : text :=
  match do_diagnostics d with
  | [] => []
  | g :: _ =>
      line (txt "    DIAG[" ++ [34] ++ dec (len (do_diagnostics d)) ++ txt " diagnostic(s)" ++ dot
            ++ mermaid_escape (dg_code g) ++ [34; 93])
      ++ line (txt "    FRAME_SG --> DIAG")
  end.

(** output.rs:2520-2543: the colours of the classes *)
Definition class_def (name fill color stroke : string) : text :=
  line (txt "    classDef " ++ txt name ++ txt " fill:#" ++ txt fill ++ txt ",color:#" ++ txt color
        ++ txt ",stroke:#" ++ txt stroke ++ txt ",stroke-width:2px").
(** output.rs:2520-2543 *)
Definition class_defs : text :=
  class_def "frame" "1565c0" "fff" "0d47a1"
   ++ class_def "meter" "2e7d32" "fff" "1b5e20"
   ++ class_def "security" "e65100" "fff" "bf360c"
   ++ class_def "record0" "1565c0" "fff" "0d47a1"
   ++ class_def "record1" "2e7d32" "fff" "1b5e20"
   ++ class_def "record2" "e65100" "fff" "bf360c"
   ++ class_def "record3" "6a1b9a" "fff" "4a148c"
   ++ class_def "record4" "c62828" "fff" "8e0000"
   ++ class_def "record5" "00695c" "fff" "004d40"
   ++ class_def "record6" "f9a825" "000" "f57f17"
   ++ class_def "record7" "4527a0" "fff" "311b92"
   ++ class_def "diagnostic" "b71c1c" "fff" "7f0000".

(** output.rs:2544-2566: the classes of the nodes and the colours of the groups *)
Definition class_line (names class : text) : text := line (txt "    class " ++ names ++ txt " " ++ class).
(** output.rs:2558-2565 *)
Definition style_line (name fill stroke : string) : text :=
  line (txt "    style " ++ txt name ++ txt " fill:#" ++ txt fill ++ txt ",stroke:#" ++ txt stroke ++ txt ",color:#0d1117").
(** output.rs:2544-2566; [index % 8] is one digit *)
Definition classes (d : decoded_output) : text :=
  class_line (join (txt ",") (frame_nodes d)) (txt "frame")
  ++ (match do_identity d with
      | Some i =>
          class_line (txt "METER_ID,METER_MANUFACTURER") (txt "meter")
          ++ (if is_some (id_device_type i) then class_line (txt "METER_TYPE") (txt "meter") else [])
          ++ (if is_some (id_version i) then class_line (txt "METER_VERSION") (txt "meter") else [])
      | None => []
      end)
  ++ class_line (txt "SECURITY_MODE,SECURITY_STATE") (txt "security")
  ++ flat_map (fun r => class_line (record_node r) (txt "record" ++ [48 + ro_index r mod 8])) (do_records d)
  ++ (match do_diagnostics d with [] => [] | _ => class_line (txt "DIAG") (txt "diagnostic") end)
  ++ style_line "FRAME_SG" "e8f1fb" "1565c0"
  ++ (if is_some (do_identity d) then style_line "METER_SG" "e8f5e9" "2e7d32" else [])
  ++ style_line "SECURITY_SG" "fff3e0" "e65100"
  ++ (match do_records d with [] => [] | _ => style_line "RECORDS_SG" "f3e5f5" "6a1b9a" end).

(** output.rs:2393-2567, [render_mermaid] *)
Definition render_mermaid (rn : renderers) (d : decoded_output) : text :=
  line (txt "flowchart TD")
  ++ frame_group d
  ++ (match do_identity d with Some i => meter_group i | None => [] end)
  ++ security_group d
  ++ records_group rn d
  ++ diagnostic_node d
  ++ [10]
  ++ class_defs
  ++ classes d.

(** annotate.rs:58-93, [Display] of [SegmentKind] *)
Definition show_kind (k : segment_kind) : text :=
  txt match k with
      | KStartByte => "Start Byte"
      | KLength => "Length"
      | KCField => "C Field"
      | KAField => "A Field"
      | KChecksum => "Checksum"
      | KStopByte => "Stop Byte"
      | KCiField => "CI Field"
      | KIdentificationNumber => "Identification Number"
      | KManufacturerCode => "Manufacturer Code"
      | KVersion => "Version"
      | KDeviceType => "Device Type"
      | KAccessNumber => "Access Number"
      | KStatus => "Status"
      | KConfigurationField => "Configuration Field"
      | KEncryptionConfigByte => "Encryption Config Byte"
      | KDif => "DIF"
      | KDife => "DIFE"
      | KVif => "VIF"
      | KVife => "VIFE"
      | KPlaintextVif => "Plaintext VIF"
      | KDataPayload => "Data"
      | KLField => "L Field"
      | KWirelessManufacturerId => "Manufacturer ID"
      | KCrc => "CRC"
      | KExtendedLinkLayer => "Extended Link Layer"
      | KEncryptedPayload => "Encrypted Payload"
      | KManufacturerSpecific => "Manufacturer Specific"
      | KIdleFiller => "Idle Filler"
      | KUnknown => "Unknown"
      end.

(** [format!("{:X}", n)]: hexadecimal digits.  Standard library; the fuel is enough since a
    number has at most as many hexadecimal as binary digits. *)
Fixpoint hex_loop (fuel : nat) (n : N) : text :=
  match fuel with
  | O => []
  | S fuel' => (if n <? 16 then [] else hex_loop fuel' (n / 16)) ++ [hex_digit_upper (n mod 16)]
  end.
(** [format!("{:0wX}", n)] *)
Definition hex_pad (w : nat) (n : N) : text :=
  let d := hex_loop (S (N.to_nat (N.log2 n))) n in zeros (w - length d) ++ d.

(** [format!("{:<w}", s)] *)
Definition left_pad (w : nat) (s : text) : text := s ++ repeat 32 (w - length s).

(** [slice.chunks(16)], with the number of bytes as fuel *)
Fixpoint chunks16 (fuel : nat) (data : list N) : list (list N) :=
  match fuel, data with
  | _, [] => []
  | O, _ => []
  | S fuel', _ => firstn 16 data :: chunks16 fuel' (skipn 16 data)
  end.

(** annotate.rs:1366-1371: the bytes of a line, from index [j] on *)
Fixpoint dump_bytes (j : nat) (chunk : list N) : text :=
  match chunk with
  | [] => []
  | b :: chunk' => (if Nat.eqb j 8 then txt " " else []) ++ hex2 b ++ txt " " ++ dump_bytes (S j) chunk'
  end.
(** annotate.rs:1382-1387: a byte as a character; 0xB7 for those that are not printable *)
Definition dump_char (b : N) : N := if (32 <=? b) && (b <=? 126) then b else 0xB7.
(** annotate.rs:1363-1391: one line of the dump *)
Definition dump_line (offset : N) (chunk : list N) : text :=
  line (txt "  " ++ hex_pad 4 offset ++ txt "  " ++ dump_bytes 0 chunk
        ++ flat_map (fun _ => txt "   ") (repeat tt (16 - length chunk))
        ++ (if (length chunk <=? 8)%nat then txt " " else [])
        ++ txt " " ++ map dump_char chunk).

(** annotate.rs:1358-1392: the dump *)
Definition hex_dump (data : list N) : text :=
  line (txt "Hex Dump:")
  ++ line (repeat 0x2500 68)
  ++ concat (map (fun '(i, chunk) => dump_line (N.of_nat i * 16) chunk)
       (combine (seq 0 (length data)) (chunks16 (length data) data)))
  ++ line [].

(** annotate.rs:1431-1436; a segment that ends before it starts, where the subtraction panics in
    debug builds, is not modelled ([annotate_frame] makes none, C40) *)
Definition offset_column (s : segment) : text :=
  if s_end s - s_start s =? 1 then txt "[" ++ hex_pad 2 (s_start s) ++ txt "]"
  else txt "[" ++ hex_pad 2 (s_start s) ++ txt ".." ++ hex_pad 2 (s_end s) ++ txt "]".

(** [String::pop] *)
Definition pop (s : text) : text := removelast s.

(** annotate.rs:1438-1457; [data[seg.start..seg.start + show]] is in range as [show] is at most
    [end - seg.start] *)
Definition hex_column (s : segment) (data : list N) : text :=
  let byte_count := s_end s - s_start s in
  if s_start s <? len data then
    let stop := N.min (s_end s) (len data) in
    let show := N.min (stop - s_start s) 8 in
    let h := flat_map (fun b => hex2 b ++ txt " ") (firstn (N.to_nat show) (skipn (N.to_nat (s_start s)) data)) in
    if 8 <? byte_count then h ++ txt "..." else pop h
  else [].

(** [a == b] on layers *)
Definition layer_eqb (a b : layer) : bool :=
  match a, b with LFrame, LFrame | LAppHeader, LAppHeader | LRecordField, LRecordField => true | _, _ => false end.

(** annotate.rs:1412-1416 *)
Definition layer_title (l : layer) : text :=
  txt match l with LFrame => "Frame" | LAppHeader => "Application Header" | LRecordField => "Data Records" end.

(** annotate.rs:1404-1466: the lines of the segments; [current_layer], [current_group] are the
    loop's state.  [group_changed] is computed before the layer change resets the group. *)
Fixpoint segment_lines (data : list N) (segments : list told)
  (current_layer : option layer) (current_group : option N) : text :=
  match segments with
  | [] => []
  | (s, detail) :: segments' =>
      let layer_changed := negb (option_eqb layer_eqb current_layer (Some (s_layer s))) in
      let group_changed := negb (option_eqb N.eqb (s_group s) current_group) in
      let current_group1 := if layer_changed then None else current_group in
      let section := layer_eqb (s_layer s) LRecordField && group_changed in
      (if layer_changed then
         line ([0x250C; 0x2500; 32] ++ layer_title (s_layer s) ++ txt " " ++ repeat 0x2500 56)
       else [])
      ++ (if section then
            match s_group s with
            | Some g => line ([0x2502; 32; 32; 0x2500; 0x2500] ++ txt " Record " ++ dec g ++ txt " " ++ [0x2500; 0x2500])
            | None => []
            end
          else [])
      ++ line ([0x2502; 32; 32] ++ left_pad 10 (offset_column s) ++ txt " " ++ left_pad 24 (hex_column s data)
               ++ txt " " ++ left_pad 22 (show_kind (s_kind s)) ++ txt " " ++ detail)
      ++ segment_lines data segments' (Some (s_layer s)) (if section then s_group s else current_group1)
  end.

(** annotate.rs:1352-1469, [render_annotations] *)
Definition render_annotations (segments : list told) (data : list N) : text :=
  hex_dump data
  ++ line (left_pad 12 (txt "Offset") ++ txt " " ++ left_pad 24 (txt "Hex") ++ txt " " ++ left_pad 22 (txt "Kind") ++ txt " Detail")
  ++ line (repeat 0x2500 12 ++ txt " " ++ repeat 0x2500 24 ++ txt " " ++ repeat 0x2500 22 ++ txt " " ++ repeat 0x2500 26)
  ++ segment_lines data segments None None.

(** annotate.rs:1474-1477, [annotate_and_render] *)
Definition annotate_and_render (cf : config) (rn : renderers) (data : list N) : outcome annotate_error text :=
  segments <- frame_told cf (rn_display rn) data ;;
  Ok (render_annotations segments data).

(** mbus_data.rs:1204-1256, [render_annotated_bytes], with the feature "decryption"; the document is that of
    Model/JsonView.v *)
Definition render_annotated_bytes (env : environment) (rn : renderers) (data : list N) (key : option (list N))
  : outcome render_error text :=
  document <- map_err (fun e => match e with Some e => RAnnotation e | None => RDecode OFuel end)
                (annotated_document env (rn_display rn) data key) ;;
  Ok (to_string_pretty document).

(** output.rs:83-110, [DecodeOptions] and [RenderOptions] *)
Record render_options := {
  op_key : option (list N);
  op_include_enrichment : bool;
  op_table_width : option N
}.

(** output.rs:499-547, [render_bytes]; [DEFAULT_TABLE_WIDTH] is 100 (output.rs:24) *)
Definition render_bytes (env : environment) (rn : renderers) (data : list N) (format : output_format)
  (options : render_options) : outcome render_error text :=
  let decoded (k : decoded_output -> outcome render_error text) :=
    d <- map_err RDecode (decode_bytes env data (op_key options) (op_include_enrichment options)) ;; k d in
  match format with
  | FXml => map_err RXml (render_from_bytes env (rn_powi rn) data (op_key options))
  | FAnnotated => render_annotated_bytes env rn data (op_key options)
  | FAnnotatedText => map_err RAnnotation (annotate_and_render (env_config env) rn data)
  | FJson => decoded (fun d => Ok (render_json (rn_number rn) d))
  | FYaml => decoded (fun d => Ok (rn_yaml rn d))
  | FCsv => decoded (render_csv rn)
  | FTable => decoded (fun d => render_table rn d (match op_table_width options with Some w => w | None => 100 end))
  | FMermaid => decoded (fun d => Ok (render_mermaid rn d))
  end.

(** output.rs:489-497, [render_hex] *)
Definition render_hex (env : environment) (rn : renderers) (input : text) (format : output_format)
  (options : render_options) : outcome render_error text :=
  data <- map_err (fun e => RDecode (OInvalidHex e)) (decode_hex_bytes input) ;;
  render_bytes env rn data format options.
