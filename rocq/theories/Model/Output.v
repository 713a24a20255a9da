(** Model of the decoding half of src/output.rs: [decode_bytes], [decode_hex],
    [decode_data_records] and the structures they return.  Strings are texts
    (Model/Text.v); [serde_json::Value] is [json_value]. *)
From Coq Require Import String.
From Verif Require Import Model.Base Model.Text Model.Core Model.Wired Model.Wireless Model.F64 Model.DataInfo
  Model.ValueInfo Model.Record Model.Decrypt Model.UserData Model.Hex Model.Decimal Model.MbusData Model.Show.

(** What the functions below depend on besides their arguments: the build settings, the AES
    block cipher, the text of application and record errors ([to_string]; the model drops
    the name of an unimplemented feature), and the manufacturer registry
    (src/manufacturers.rs, name, website and description for a code). *)
Record environment := {
  env_config : config;
  env_aes : list N -> list N -> list N;
  env_application_message : application_layer_error -> text;
  env_record_message : data_record_error -> text;
  env_registry : text -> option (text * text * text)
}.

(** output.rs:115-147, [OutputError], and 150-161, [code]; messages are dropped where they
    are fixed, and the texts of the two link layer errors of [InvalidFrame] are kept as the
    errors.  [OFuel] is the model running out of fuel, which never happens. *)
Inductive output_error :=
| OEmptyInput
| OInvalidHex (e : input_error)
| OInvalidFrame (wired wireless : mbus_error)
| OInvalidOption (option message : text)
| ODecryption (code : text)
| ORecordsInvalid (offset : N) (message : text)
| OFuel.

(** output.rs:228-237, [FrameOutput] *)
Record frame_output := {
  fo_kind : text;
  fo_function : option text;
  fo_address : option text;
  fo_control_field : option text
}.

(** output.rs:239-252, [MeterIdentity] *)
Record meter_identity := {
  id_source : text;
  id_id : option text;
  id_manufacturer_code : option text;
  id_version : option N;
  id_device_type : option text;
  id_device_type_code : option N
}.

(** output.rs:281-293, [EllOutput] *)
Record ell_out := {
  eo_communication_control : text;
  eo_access_number : N;
  eo_receiver_manufacturer : option text;
  eo_receiver_address : option text;
  eo_session_number : option text;
  eo_payload_crc : option text
}.

(** output.rs:295-307, [TransportOutput]; [SourcedU8] (262-266), [SourcedStatus] (268-273:
    source, raw, display) and [ConfigurationOutput] (275-279: source, raw) as tuples *)
Record transport_output := {
  to_header_kind : option text;
  to_access_numbers : list (text * N);
  to_statuses : list (text * text * text);
  to_configuration : option (text * text);
  to_ell : option ell_out
}.

(** output.rs:309-322, [SecurityOutput] *)
Record security_output := {
  so_payload_protection : text;
  so_mode : option text;
  so_mode_code : option N;
  so_decryption_state : text;
  so_key_supplied : bool;
  so_encrypted_payload_hex : option text;
  so_decrypted_payload_hex : option text
}.

(** [serde_json::Value] as far as it occurs: a text, a finite number, or the components of a
    date or time, each a number or a word (output.rs:1528-1575) *)
Inductive json_value :=
| JString (t : text)
| JFloat (x : f64)
| JObject (components : list (text * (N + text))).

(** output.rs:341-351, [ValueOutput] *)
Record value_out := { vo_kind : text; vo_value : option json_value }.

(** output.rs:324-339, [RecordOutput] *)
Record record_out := {
  ro_index : N;
  ro_function : text;
  ro_storage_number : N;
  ro_tariff : N;
  ro_subunit : N;
  ro_quantities : list text;
  ro_value : value_out;
  ro_unit : option text;
  ro_data_coding : text;
  ro_header_hex : text;
  ro_data_hex : text
}.

(** output.rs:353-363, [RawOutput] *)
Record raw_output := {
  rw_input : option text;
  rw_original_frame_hex : text;
  rw_normalized_frame_hex : text;
  rw_byte_length : N;
  rw_format_a_crc_stripped : bool;
  rw_payload_hex : option text
}.

(** output.rs:365-375, [Diagnostic]; [offset_end] is always [None] *)
Record diagnostic := {
  dg_severity : text;
  dg_code : text;
  dg_layer : text;
  dg_message : text;
  dg_offset_start : option N
}.

(** output.rs:212-226, [DecodedOutput]; [schema_version] is the constant 3 (output.rs:23), the
    meter is [MeterOutput] (254-260), the enrichment (377-384) is name, website, description *)
Record decoded_output := {
  do_decode_state : text;
  do_protocol : text;
  do_frame : frame_output;
  do_identity : option meter_identity;
  do_alternate_identities : list meter_identity;
  do_transport : transport_output;
  do_security : security_output;
  do_records : list record_out;
  do_raw : raw_output;
  do_diagnostics : list diagnostic;
  do_enrichment : option (text * text * text)
}.

(** output.rs:386-394, [SecurityContext] *)
Record security_context := {
  sc_encrypted : bool;
  sc_mode : option security_mode;
  sc_ell_encrypted : bool;
  sc_decrypted : bool;
  sc_key_supplied : bool;
  sc_decrypted_payload : option (list N)
}.

(** [matches!(mode, SecurityMode::NoEncryption)] *)
Definition is_no_encryption (m : security_mode) : bool :=
  match m with NoEncryption => true | _ => false end.
(** [extended_link_layer.is_some_and(|ell| ell.encryption.is_some())] *)
Definition ell_has_encryption (e : option extended_link_layer) : bool :=
  match e with
  | Some ell => match ell_encryption ell with Some _ => true | None => false end
  | None => false
  end.
(** [Option::is_some] *)
Definition is_some {A} (o : option A) : bool := match o with Some _ => true | None => false end.

(** output.rs:712-751, [security_fields] *)
Definition security_fields (u : option user_data_block) : bool * option security_mode * bool :=
  match u with
  | Some (VariableLong _ h _) =>
      let mode := configuration_security_mode (sh_configuration_field (lh_short_tpl_header h)) in
      (negb (is_no_encryption mode), Some mode, false)
  | Some (VariableShort ell h _) =>
      let ell_encrypted := ell_has_encryption ell in
      let mode := configuration_security_mode (sh_configuration_field h) in
      if ell_encrypted && is_no_encryption mode then (true, None, true)
      else (negb (is_no_encryption mode), Some mode, ell_encrypted)
  | _ => (false, None, false)
  end.

(** output.rs:753-805, [decrypt_user_data]; result and output buffer *)
Definition decrypt_user_data (aes : list N -> list N -> list N) (u : user_data_block)
  (wireless_id : option manufacturer_id) (key output : list N)
  : outcome decryption_error N * list N :=
  match u with
  | VariableLong _ h _ =>
      match lh_manufacturer h with
      | Ok m =>
          match one_key (mc_to_id m) (lh_identification_number h) key with
          | Ok kp => decrypt_variable_data aes (kp_get_key kp) u output
          | Err e => (Err e, output)
          | Panic p => (Panic p, output)
          end
      | _ => (Err UnknownEncryptionState, output)
      end
  | VariableShort _ h _ =>
      let mode := configuration_security_mode (sh_configuration_field h) in
      if is_no_encryption mode then (Err (UnsupportedMode mode), output) else
      match wireless_id with
      | None => (Err UnknownEncryptionState, output)
      | Some id =>
          match one_key (mc_to_id (mi_manufacturer_code id)) (mi_identification_number id) key with
          | Ok kp => decrypt_variable_data_with_context aes (kp_get_key kp) u
                       (mi_manufacturer_code id) (mi_identification_number id)
                       (mi_version id) (mi_device_type id) output
          | Err e => (Err e, output)
          | Panic p => (Panic p, output)
          end
      end
  | _ => (Err UnknownEncryptionState, output)
  end.

(** output.rs:673-681: the code reported for a decryption error *)
Definition decryption_code (e : decryption_error) : text :=
  match e with
  | UnsupportedMode _ => txt "security.unsupported_mode"
  | InvalidKeyLength => txt "security.invalid_key"
  | _ => txt "security.decryption_failed"
  end.

(** output.rs:631-710, [prepare_security], built with the feature "decryption"; the buffer is
    the caller's array of 512 zeros *)
Definition prepare_security (aes : list N -> list N -> list N) (u : option user_data_block)
  (wireless_id : option manufacturer_id) (key : option (list N))
  : outcome output_error security_context :=
  let '(encrypted, mode, ell_encrypted) := security_fields u in
  if negb encrypted then
    Ok {| sc_encrypted := false; sc_mode := mode; sc_ell_encrypted := ell_encrypted;
          sc_decrypted := false; sc_key_supplied := is_some key; sc_decrypted_payload := None |}
  else
    match key with
    | None =>
        Ok {| sc_encrypted := encrypted; sc_mode := mode; sc_ell_encrypted := ell_encrypted;
              sc_decrypted := false; sc_key_supplied := false; sc_decrypted_payload := None |}
    | Some key =>
        if ell_encrypted && negb (is_some mode) then Err (ODecryption (txt "security.unsupported_mode")) else
        block <- ok_or u (ODecryption (txt "security.unknown_state")) ;;
        let '(res, output) := decrypt_user_data aes block wireless_id key (repeat 0 512) in
        n <- map_err (fun e => ODecryption (decryption_code e)) res ;;
        decrypted <- ok_or (get_to output n) (ODecryption (txt "security.decryption_failed")) ;;
        Ok {| sc_encrypted := encrypted; sc_mode := mode; sc_ell_encrypted := ell_encrypted;
              sc_decrypted := true; sc_key_supplied := true;
              sc_decrypted_payload := Some decrypted |}
    end.

(** output.rs:807-825, [decrypted_records] *)
Definition decrypted_records (block : option user_data_block) (decrypted : list N) : option data_records :=
  match block with
  | Some (VariableLong _ h _) => Some (records_new decrypted (Some h))
  | Some (VariableShort _ _ _) | Some (VariableNone _ _) => Some (records_new decrypted None)
  | _ => None
  end.

(** output.rs:1606-1611, [single] *)
Definition single {T} (c : single_every_or_invalid T) : option T :=
  match c with Single x => Some x | _ => None end.

(** [Option::and_then] *)
Definition and_then {A B} (o : option A) (f : A -> option B) : option B :=
  match o with Some a => f a | None => None end.

(** output.rs:1577-1604, [temporal_iso] *)
Definition temporal_iso (day : single_every_or_invalid N) (m : single_every_or_invalid month)
  (year : single_every_or_invalid N) (hour minute second : option (single_every_or_invalid N))
  (kind : text) : option text :=
  let day := single day in
  let month := match single m with Some m => Some (month_number m) | None => None end in
  let year := single year in
  let hour := and_then hour single in
  let minute := and_then minute single in
  let second := and_then second single in
  let date k := and_then year (fun y => and_then month (fun mo => and_then day (fun d =>
    k (dec_pad 4 y ++ txt "-" ++ dec_pad 2 mo ++ txt "-" ++ dec_pad 2 d)))) in
  if text_eqb kind (txt "date") then date (fun d => Some d)
  else if text_eqb kind (txt "time") then
    and_then hour (fun h => and_then minute (fun mi => and_then second (fun s =>
      Some (dec_pad 2 h ++ txt ":" ++ dec_pad 2 mi ++ txt ":" ++ dec_pad 2 s))))
  else
    match second with
    | Some s =>
        date (fun d => and_then hour (fun h => and_then minute (fun mi =>
          Some (d ++ txt "T" ++ dec_pad 2 h ++ txt ":" ++ dec_pad 2 mi ++ txt ":" ++ dec_pad 2 s))))
    | None =>
        date (fun d => and_then hour (fun h => and_then minute (fun mi =>
          Some (d ++ txt "T" ++ dec_pad 2 h ++ txt ":" ++ dec_pad 2 mi ++ txt ":00"))))
    end.

(** output.rs:1563-1575, [component_json]: a number, or a word for the rest *)
Definition component_json (c : single_every_or_invalid N) : N + text :=
  match c with
  | Single x => inl x
  | Every => inr (txt "every")
  | Invalid => inr (txt "invalid")
  end.
(** the same for months, serialized by name *)
Definition component_json_month (c : single_every_or_invalid month) : N + text :=
  match c with
  | Single x => inr (month_identifier x)
  | Every => inr (txt "every")
  | Invalid => inr (txt "invalid")
  end.

(** output.rs:1528-1561, [temporal_value]; [serde_json::Map] is sorted by key *)
Definition temporal_value (kind : text) (day : single_every_or_invalid N) (m : single_every_or_invalid month)
  (year : single_every_or_invalid N) (hour minute second : option (single_every_or_invalid N)) : value_out :=
  let date := negb (text_eqb kind (txt "time")) in
  let optional name (o : option (single_every_or_invalid N)) :=
    match o with Some c => [(name, component_json c)] | None => [] end in
  let components :=
    (if date then [(txt "day", component_json day)] else [])
    ++ optional (txt "hour") hour
    ++ optional (txt "minute") minute
    ++ (if date then [(txt "month", component_json_month m)] else [])
    ++ optional (txt "second") second
    ++ (if date then [(txt "year", component_json year)] else []) in
  {| vo_kind := kind;
     vo_value := Some (match temporal_iso day m year hour minute second kind with
                       | Some t => JString t
                       | None => JObject components
                       end) |}.

(** output.rs:1665-1681, [exact_variable_significand]; [data.get(1..=n)] is the bytes 1 to n *)
Definition exact_variable_significand (data : list N) (parsed : f64) : option text :=
  and_then (get data 0) (fun marker =>
  let le n := and_then (get_range data 1 (1 + n)) signed_le_decimal in
  if (0xC0 <=? marker) && (marker <=? 0xC9) || (0xD0 <=? marker) && (marker <=? 0xD9)
  then Some (show_f64_0 parsed)
  else if (0xE0 <=? marker) && (marker <=? 0xEF) then le (marker - 0xE0)
  else if (0xF0 <=? marker) && (marker <=? 0xF4) then le ((marker - 0xEC) * 4)
  else if marker =? 0xF5 then le 48
  else if marker =? 0xF6 then le 64
  else None).

(** output.rs:1644-1663, [exact_significand] *)
Definition exact_significand (r : data_record) (parsed : f64) : option text :=
  and_then (ph_data_information (drh_processed (dr_header r))) (fun information =>
  and_then (get_from (dr_raw_bytes r) (header_get_size (dr_header r))) (fun data =>
  let le n := and_then (get_to data n) signed_le_decimal in
  match di_data_field_coding information with
  | CInteger8Bit => le 1
  | CInteger16Bit => le 2
  | CInteger24Bit => le 3
  | CInteger32Bit => le 4
  | CInteger48Bit => le 6
  | CInteger64Bit => le 8
  | CBCD2Digit | CBCD4Digit | CBCD6Digit | CBCD8Digit | CBCDDigit12 => Some (show_f64_0 parsed)
  | CVariableLength => exact_variable_significand data parsed
  | _ => None
  end)).

(** output.rs:1730-1747, [record_offset_power10]: the last of the extensions 0x78-0x7B *)
Definition record_offset_power10 (r : data_record) : option Z :=
  and_then (rh_vib (drh_raw (dr_header r))) (fun block =>
  and_then (vib_vifes block) (fun extensions =>
  last_opt (flat_map (fun e =>
    let code := N.land e 0x7F in
    if (0x78 <=? code) && (code <=? 0x7B) then [(Z.of_N (N.land e 3) - 3)%Z] else []) extensions))).

(** output.rs:1632-1642, [finite_number], with the use at 1463-1472 *)
Definition float_value (x : f64) : json_value :=
  match x with
  | S754_nan => JString (txt "nan")
  | S754_infinity false => JString (txt "positive_infinity")
  | S754_infinity true => JString (txt "negative_infinity")
  | _ => JFloat x
  end.

(** output.rs:1453-1526, [value_output]; the wildcard arm is for future variants *)
Definition value_output (r : data_record) : value_out :=
  let information := ph_data_information (drh_processed (dr_header r)) in
  let scale := match ph_value_information (drh_processed (dr_header r)) with
               | Some v => vi_decimal_scale_exponent v
               | None => 0%Z
               end in
  let offset := record_offset_power10 r in
  match d_value (dr_data r) with
  | Some (Number x) | Some (LossyNumber x) =>
      if match information with
         | Some i => match di_data_field_coding i with CReal32Bit => true | _ => false end
         | None => false
         end
      then {| vo_kind := txt "float"; vo_value := Some (float_value x) |}
      else
        let significand := match exact_significand r x with Some s => s | None => show_f64_0 x end in
        {| vo_kind := txt "decimal"; vo_value := Some (JString (scaled_decimal significand scale offset)) |}
  | Some (Text t) => {| vo_kind := txt "text"; vo_value := Some (JString (decode_text_unit t)) |}
  | Some (Date day m year) => temporal_value (txt "date") day m year None None None
  | Some (Time second minute hour) =>
      temporal_value (txt "time") Invalid Invalid Invalid (Some hour) (Some minute) (Some second)
  | Some (DateTime day m year hour minute) =>
      temporal_value (txt "datetime") day m year (Some hour) (Some minute) None
  | Some (DateTimeWithSeconds day m year hour minute second) =>
      temporal_value (txt "datetime") day m year (Some hour) (Some minute) (Some second)
  | Some (ManufacturerSpecific _) => {| vo_kind := txt "manufacturer_specific"; vo_value := None |}
  | None => {| vo_kind := txt "none"; vo_value := None |}
  end.

(** crates/m-bus-application-layer/src/data_record.rs:73-98, [data_record_header_hex] and
    [data_hex]: bytes in hexadecimal, separated by spaces *)
Definition spaced_hex (data : option (list N)) : text :=
  match data with
  | Some data => join (txt " ") (map hex2 data)
  | None => []
  end.

(** output.rs:1273-1307, [record_output] *)
Definition record_output (index : N) (r : data_record) : record_out :=
  let information := ph_data_information (drh_processed (dr_header r)) in
  let value_information := ph_value_information (drh_processed (dr_header r)) in
  let raw := dr_raw_bytes r in
  let header_size := header_get_size (dr_header r) in
  {| ro_index := index;
     ro_function :=
       match information with
       | Some i => match di_data_field_coding i with
                   | CSpecialFunctions f => special_function_name f
                   | _ => record_function_name (di_function_field i)
                   end
       | None => special_record_name raw
       end;
     ro_storage_number := match information with Some i => di_storage_number i | None => 0 end;
     ro_tariff := match information with Some i => di_tariff i | None => 0 end;
     ro_subunit := match information with Some i => di_device i | None => 0 end;
     ro_quantities := match value_information with Some v => map quantity_name (vi_labels v) | None => [] end;
     ro_value := value_output r;
     ro_unit := match value_information with
                | Some v => match vi_units v with [] => None | us => Some (unit_output us) end
                | None => None
                end;
     ro_data_coding := match information with
                       | Some i => data_coding_name (di_data_field_coding i)
                       | None => special_record_name raw
                       end;
     ro_header_hex := spaced_hex (get_to raw header_size);
     ro_data_hex := spaced_hex (get_range raw header_size (dr_get_size r)) |}.

(** output.rs:1259-1269, the loop of [collect_records] over the items of the iterator, with the
    records so far (their number is [index]) and the offset *)
Fixpoint collect_items (message : data_record_error -> text)
  (items : list (outcome data_record_error data_record)) (index offset : N)
  : outcome output_error (list record_out * option (N * text)) :=
  match items with
  | [] => Ok ([], None)
  | Ok record :: items' =>
      '(rest, error) <- collect_items message items' (index + 1) (offset + len (dr_raw_bytes record)) ;;
      Ok (record_output index record :: rest, error)
  | Err e :: _ => Ok ([], Some (offset, message e))
  | Panic p :: _ => Panic p
  end.

(** output.rs:1252-1271, [collect_records] *)
Definition collect_records (env : environment) (records : option data_records)
  : outcome output_error (list record_out * option (N * text)) :=
  match records with
  | None => Ok ([], None)
  | Some rs =>
      match collect (env_config env) (S (length (rs_data rs))) rs with
      | None => Err OFuel
      | Some items => collect_items (env_record_message env) items 0 0
      end
  end.

(** output.rs:1220-1229, [identity_from_wireless] *)
Definition identity_from_wireless (id : manufacturer_id) : meter_identity :=
  {| id_source := txt "link.wireless";
     id_id := Some (show_identification (mi_identification_number id));
     id_manufacturer_code := Some (show_manufacturer (mi_manufacturer_code id));
     id_version := Some (mi_version id);
     id_device_type := Some (show_device_type (mi_device_type id));
     id_device_type_code := Some (device_type_to_u8 (mi_device_type id)) |}.

(** output.rs:1231-1240, [identity_from_long] *)
Definition identity_from_long (h : long_tpl_header) : meter_identity :=
  {| id_source := txt "tpl.long";
     id_id := Some (show_identification (lh_identification_number h));
     id_manufacturer_code := match lh_manufacturer h with Ok m => Some (show_manufacturer m) | _ => None end;
     id_version := Some (lh_version h);
     id_device_type := Some (show_device_type (lh_device_type h));
     id_device_type_code := Some (device_type_to_u8 (lh_device_type h)) |}.

(** [a == b] on options *)
Definition option_eqb {A} (eqb : A -> A -> bool) (a b : option A) : bool :=
  match a, b with
  | Some x, Some y => eqb x y
  | None, None => true
  | _, _ => false
  end.
(** output.rs:239, the derived [PartialEq] of [MeterIdentity] *)
Definition identity_eqb (a b : meter_identity) : bool :=
  text_eqb (id_source a) (id_source b)
  && option_eqb text_eqb (id_id a) (id_id b)
  && option_eqb text_eqb (id_manufacturer_code a) (id_manufacturer_code b)
  && option_eqb N.eqb (id_version a) (id_version b)
  && option_eqb text_eqb (id_device_type a) (id_device_type b)
  && option_eqb N.eqb (id_device_type_code a) (id_device_type_code b).

(** output.rs:1197-1218, [ell_output] *)
Definition ell_output (e : extended_link_layer) : ell_out :=
  let of_receiver {A} (f : receiver_address -> A) :=
    match ell_receiver_address e with Some a => Some (f a) | None => None end in
  let of_encryption {A} (f : encryption_fields -> A) :=
    match ell_encryption e with Some a => Some (f a) | None => None end in
  {| eo_communication_control := hex2 (ell_communication_control e);
     eo_access_number := ell_access_number e;
     eo_receiver_manufacturer := of_receiver (fun a => hex4 (ra_manufacturer a));
     eo_receiver_address := of_receiver (fun a => hex_string (ra_address a));
     eo_session_number := of_encryption (fun a => hex_string (ef_session_number a));
     eo_payload_crc := of_encryption (fun a => hex4 (ef_payload_crc a)) |}.

(** output.rs:1177-1195, [add_short_transport], on a transport without entries so far *)
Definition short_transport (kind source : text) (h : short_tpl_header) (ell : option ell_out) : transport_output :=
  {| to_header_kind := Some kind;
     to_access_numbers := [(source, sh_access_number h)];
     to_statuses := [(source, hex2 (sh_status h), show_status (sh_status h))];
     to_configuration := Some (source, hex4 (sh_configuration_field h));
     to_ell := ell |}.

(** a transport with a kind and access numbers only, output.rs:1061-1067 and 1099-1107, 1119-1133 *)
Definition plain_transport (kind : option text) (access : list (text * N)) (ell : option ell_out) : transport_output :=
  {| to_header_kind := kind; to_access_numbers := access; to_statuses := [];
     to_configuration := None; to_ell := ell |}.

(** output.rs:1053-1175, [meter_and_transport]: identity, alternates, transport *)
Definition meter_and_transport (u : option user_data_block) (wireless_id : option manufacturer_id)
  : option meter_identity * list meter_identity * transport_output :=
  let link_identity := match wireless_id with Some id => Some (identity_from_wireless id) | None => None end in
  let ell_out o := match o with Some e => Some (ell_output e) | None => None end in
  match u with
  | Some (VariableLong ell h _) =>
      let application_identity := identity_from_long h in
      let alternates := match link_identity with
                        | Some link => if negb (identity_eqb link application_identity) then [link] else []
                        | None => []
                        end in
      (Some application_identity, alternates,
       short_transport (txt "long_tpl") (txt "tpl.long") (lh_short_tpl_header h) (ell_out ell))
  | Some (VariableShort ell h _) =>
      let synthetic := ell_has_encryption ell
                       && is_no_encryption (configuration_security_mode (sh_configuration_field h)) in
      (link_identity, [],
       if synthetic then
         plain_transport (Some (txt "ell"))
           (match ell with Some e => [(txt "ell", ell_access_number e)] | None => [] end) (ell_out ell)
       else short_transport (txt "short_tpl") (txt "tpl.short") h (ell_out ell))
  | Some (VariableNone ell _) =>
      (link_identity, [],
       plain_transport (Some (if is_some ell then txt "ell" else txt "none"))
         (match ell with Some e => [(txt "ell", ell_access_number e)] | None => [] end) (ell_out ell))
  | Some (FixedDataStructure identification access status device_type_and_unit _ _) =>
      (Some {| id_source := txt "application.fixed";
               id_id := Some (show_identification identification);
               id_manufacturer_code := None;
               id_version := None;
               id_device_type := Some (txt "fixed type/unit 0x" ++ hex4 device_type_and_unit);
               id_device_type_code := None |}, [],
       {| to_header_kind := Some (txt "fixed");
          to_access_numbers := [(txt "application.fixed", access)];
          to_statuses := [(txt "application.fixed", hex2 status, show_status status)];
          to_configuration := None;
          to_ell := None |})
  | Some (ResetAtApplicationLevel _) =>
      (link_identity, [], plain_transport (Some (txt "application_reset")) [] None)
  | None => (link_identity, [], plain_transport None [] None)
  end.

(** output.rs:932-981, the diagnostics before those of the records *)
Definition notice (severity code layer message : text) : diagnostic :=
  {| dg_severity := severity; dg_code := code; dg_layer := layer; dg_message := message;
     dg_offset_start := None |}.
(** output.rs:932-981 *)
Definition early_diagnostics (env : environment) (application_error : option application_layer_error)
  (sc : security_context) : list diagnostic :=
  (match application_error with
   | Some e => [notice (txt "warning") (txt "application.partial") (txt "application")
                  (env_application_message env e)]
   | None => []
   end) ++
  (if sc_encrypted sc && negb (sc_decrypted sc) then
     [notice (txt "warning") (txt "security.key_missing") (txt "security")
        (txt "payload is encrypted; header metadata is available but records require a key")]
   else if sc_decrypted sc then
     [notice (txt "info") (txt "security.decrypted_unverified") (txt "security")
        (txt "AES-CBC payload was transformed but cannot be authenticated")]
   else if sc_key_supplied sc then
     [notice (txt "info") (txt "security.key_unused") (txt "security")
        (txt "a key was supplied for a cleartext frame and was not used")]
   else []).

(** output.rs:917-1051, [build_output] *)
Definition build_output (env : environment) (protocol : text) (frame : frame_output)
  (original normalized : list N) (format_a_crc_stripped : bool) (payload : option (list N))
  (u : option user_data_block) (records : option data_records)
  (application_error : option application_layer_error) (wireless_id : option manufacturer_id)
  (sc : security_context) (include_enrichment : bool) : outcome output_error decoded_output :=
  '(record_outputs, record_error) <- collect_records env records ;;
  let diagnostics := early_diagnostics env application_error sc ++
    match record_error with
    | Some (offset, message) =>
        [{| dg_severity := txt "warning"; dg_code := txt "application.record_partial";
            dg_layer := txt "application"; dg_message := message; dg_offset_start := Some offset |}]
    | None => []
    end in
  let '(primary, alternates, transport) := meter_and_transport u wireless_id in
  let hex o := match o with Some d => Some (hex_string d) | None => None end in
  let partial := is_some application_error || is_some record_error
                 || (sc_encrypted sc && negb (sc_decrypted sc)) in
  Ok {| do_decode_state := if partial then txt "partial" else txt "complete";
        do_protocol := protocol;
        do_frame := frame;
        do_identity := primary;
        do_alternate_identities := alternates;
        do_transport := transport;
        do_security :=
          {| so_payload_protection := if sc_encrypted sc then txt "encrypted"
                                      else if sc_ell_encrypted sc then txt "unknown" else txt "cleartext";
             so_mode := match sc_mode sc with Some m => Some (show_security_mode m) | None => None end;
             so_mode_code := match sc_mode sc with Some m => Some (security_mode_to_bits m) | None => None end;
             so_decryption_state := if negb (sc_encrypted sc) then txt "not_applicable"
                                    else if sc_decrypted sc then txt "decrypted_unverified"
                                    else txt "key_missing";
             so_key_supplied := sc_key_supplied sc;
             so_encrypted_payload_hex := if sc_encrypted sc then hex payload else None;
             so_decrypted_payload_hex := hex (sc_decrypted_payload sc) |};
        do_records := record_outputs;
        do_raw :=
          {| rw_input := None;
             rw_original_frame_hex := hex_string original;
             rw_normalized_frame_hex := hex_string normalized;
             rw_byte_length := len original;
             rw_format_a_crc_stripped := format_a_crc_stripped;
             rw_payload_hex := hex payload |};
        do_diagnostics := diagnostics;
        do_enrichment :=
          if include_enrichment
          then and_then (and_then primary id_manufacturer_code) (env_registry env)
          else None |}.

(** output.rs:827-883, [build_wired_output]; the wildcard arm is for future variants *)
Definition build_wired_output (env : environment) (original : list N) (parsed : mbus_data wired_frame)
  (records : option data_records) (sc : security_context) (include_enrichment : bool)
  : outcome output_error decoded_output :=
  let frame kind function address :=
    {| fo_kind := txt kind; fo_function := function; fo_address := address; fo_control_field := None |} in
  let '(frame, payload) :=
    match md_frame parsed with
    | LongFrame f a d => (frame "long"%string (Some (frame_function_name f)) (Some (show_address a)), Some d)
    | ControlFrame f a d => (frame "control"%string (Some (frame_function_name f)) (Some (show_address a)), Some d)
    | ShortFrame f a => (frame "short"%string (Some (frame_function_name f)) (Some (show_address a)), None)
    | SingleCharacter _ => (frame "single_character"%string None None, None)
    end in
  build_output env (txt "wired") frame original original false payload (md_user_data parsed) records
    (md_application_error parsed) None sc include_enrichment.

(** output.rs:885-914, [build_wireless_output] *)
Definition build_wireless_output (env : environment) (original normalized : list N) (stripped : bool)
  (parsed : mbus_data wireless_frame) (records : option data_records) (sc : security_context)
  (include_enrichment : bool) : outcome output_error decoded_output :=
  let f := md_frame parsed in
  build_output env (txt "wireless")
    {| fo_kind := txt "wireless";
       fo_function := match wf_function f with Some x => Some (frame_function_name x) | None => None end;
       fo_address := None;
       fo_control_field := Some (hex2 (wf_control_field f)) |}
    original normalized stripped (Some (wf_data f)) (md_user_data parsed) records
    (md_application_error parsed) (Some (wf_manufacturer_id f)) sc include_enrichment.

(** output.rs:419-423 and 447-451: the records shown *)
Definition shown_records {F} (parsed : mbus_data F) (sc : security_context) : option data_records :=
  match sc_decrypted_payload sc with
  | Some decrypted => decrypted_records (md_user_data parsed) decrypted
  | None => if sc_encrypted sc then None else md_data_records parsed
  end.

(** output.rs:404-465, [decode_bytes]; the options are the key and [include_enrichment] *)
Definition decode_bytes (env : environment) (data : list N) (key : option (list N)) (include_enrichment : bool)
  : outcome output_error decoded_output :=
  match data with
  | [] => Err OEmptyInput
  | _ =>
      match mbus_wired_try_from (env_config env) data with
      | Panic p => Panic p
      | Ok parsed =>
          sc <- prepare_security (env_aes env) (md_user_data parsed) None key ;;
          build_wired_output env data parsed (shown_records parsed sc) sc include_enrichment
      | Err wired_error =>
          '(stripped_data, _) <- map_err (fun _ => OFuel) (strip_format_a_crcs data (repeat 0 512)) ;;
          let normalized := match stripped_data with Some d => d | None => data end in
          let stripped := negb (len normalized =? len data) in
          match mbus_wireless_try_from normalized with
          | Panic p => Panic p
          | Ok parsed =>
              sc <- prepare_security (env_aes env) (md_user_data parsed)
                      (Some (wf_manufacturer_id (md_frame parsed))) key ;;
              build_wireless_output env data normalized stripped parsed (shown_records parsed sc) sc
                include_enrichment
          | Err wireless_error => Err (OInvalidFrame wired_error wireless_error)
          end
      end
  end.

(** output.rs:396-402, [decode_hex] *)
Definition decode_hex (env : environment) (input : text) (key : option (list N)) (include_enrichment : bool)
  : outcome output_error decoded_output :=
  data <- map_err OInvalidHex (decode_hex_bytes input) ;;
  d <- decode_bytes env data key include_enrichment ;;
  Ok {| do_decode_state := do_decode_state d;
        do_protocol := do_protocol d;
        do_frame := do_frame d;
        do_identity := do_identity d;
        do_alternate_identities := do_alternate_identities d;
        do_transport := do_transport d;
        do_security := do_security d;
        do_records := do_records d;
        do_raw := {| rw_input := Some input;
                     rw_original_frame_hex := rw_original_frame_hex (do_raw d);
                     rw_normalized_frame_hex := rw_normalized_frame_hex (do_raw d);
                     rw_byte_length := rw_byte_length (do_raw d);
                     rw_format_a_crc_stripped := rw_format_a_crc_stripped (do_raw d);
                     rw_payload_hex := rw_payload_hex (do_raw d) |};
        do_diagnostics := do_diagnostics d;
        do_enrichment := do_enrichment d |}.

(** output.rs:467-481, [decode_data_records] *)
Definition decode_data_records (env : environment) (data : list N) : outcome output_error (list record_out) :=
  match data with
  | [] => Err OEmptyInput
  | _ =>
      '(output, error) <- collect_records env (Some (records_new data None)) ;;
      match error with
      | Some (offset, message) => Err (ORecordsInvalid offset message)
      | None => Ok output
      end
  end.

(** output.rs:483-487, [decode_data_records_hex] *)
Definition decode_data_records_hex (env : environment) (input : text) : outcome output_error (list record_out) :=
  data <- map_err OInvalidHex (decode_hex_bytes input) ;;
  decode_data_records env data.
