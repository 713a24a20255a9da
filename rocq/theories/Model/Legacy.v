(** Model of the older outputs of src/mbus_data.rs: the frame summary that "csv-wide", "json-legacy" and "yaml-legacy"
    render from, the wide CSV and the older flow chart.  Not modelled: the YAML serializer, and the table of lines 617-741 (test builds only). *)
From Coq Require Import String.
From Verif Require Import Model.Base Model.Text Model.Core Model.Wired Model.Wireless Model.F64 Model.DataInfo
  Model.ValueInfo Model.Record Model.Decrypt Model.UserData Model.Hex Model.MbusData Model.Show Model.Escape Model.Output.

(** crates/m-bus-core/src/lib.rs:447-482, [Debug] (derived) and [Display for Function] *)
Definition debug_function (f : function) : text :=
  match f with
  | SndNk prm => txt "SndNk { prm: " ++ show_bool prm ++ txt " }"
  | SndUd fcb => txt "SndUd { fcb: " ++ show_bool fcb ++ txt " }"
  | SndUd2 => txt "SndUd2"
  | SndUd3 => txt "SndUd3"
  | SndNr => txt "SndNr"
  | SendIr => txt "SendIr"
  | AccNr => txt "AccNr"
  | AccDmd => txt "AccDmd"
  | ReqUd1 fcb => txt "ReqUd1 { fcb: " ++ show_bool fcb ++ txt " }"
  | ReqUd2 fcb => txt "ReqUd2 { fcb: " ++ show_bool fcb ++ txt " }"
  | RspUd acd dfc => txt "RspUd { acd: " ++ show_bool acd ++ txt ", dfc: " ++ show_bool dfc ++ txt " }"
  | Ack => txt "Ack"
  | Nack => txt "Nack"
  | CnfIr => txt "CnfIr"
  end.
(** crates/m-bus-core/src/lib.rs:467-480, [Display for Function] *)
Definition show_function (f : function) : text :=
  match f with
  | SndNk _ => txt "SndNk"
  | SndUd fcb => txt "SndUd (FCB: " ++ show_bool fcb ++ txt ")"
  | ReqUd2 fcb => txt "ReqUd2 (FCB: " ++ show_bool fcb ++ txt ")"
  | ReqUd1 fcb => txt "ReqUd1 (FCB: " ++ show_bool fcb ++ txt ")"
  | RspUd acd dfc => txt "RspUd (ACD: " ++ show_bool acd ++ txt ", DFC: " ++ show_bool dfc ++ txt ")"
  | _ => debug_function f
  end.

(** crates/m-bus-core/src/lib.rs:150-201, [Debug] (derived) for [DeviceType] *)
Definition debug_device_type (d : device_type) : text :=
  match d with
  | DevOther => txt "Other"
  | DevOilMeter => txt "OilMeter"
  | DevElectricityMeter => txt "ElectricityMeter"
  | DevGasMeter => txt "GasMeter"
  | DevHeatMeterReturn => txt "HeatMeterReturn"
  | DevSteamMeter => txt "SteamMeter"
  | DevWarmWaterMeter => txt "WarmWaterMeter"
  | DevWaterMeter => txt "WaterMeter"
  | DevHeatCostAllocator => txt "HeatCostAllocator"
  | DevCompressedAir => txt "CompressedAir"
  | DevCoolingMeterReturn => txt "CoolingMeterReturn"
  | DevCoolingMeterFlow => txt "CoolingMeterFlow"
  | DevHeatMeterFlow => txt "HeatMeterFlow"
  | DevCombinedHeatCoolingMeter => txt "CombinedHeatCoolingMeter"
  | DevBusSystemComponent => txt "BusSystemComponent"
  | DevUnknownDevice => txt "UnknownDevice"
  | DevIrrigationWaterMeter => txt "IrrigationWaterMeter"
  | DevWaterDataLogger => txt "WaterDataLogger"
  | DevGasDataLogger => txt "GasDataLogger"
  | DevGasConverter => txt "GasConverter"
  | DevCalorificValue => txt "CalorificValue"
  | DevHotWaterMeter => txt "HotWaterMeter"
  | DevColdWaterMeter => txt "ColdWaterMeter"
  | DevDualRegisterWaterMeter => txt "DualRegisterWaterMeter"
  | DevPressureMeter => txt "PressureMeter"
  | DevAdConverter => txt "AdConverter"
  | DevSmokeDetector => txt "SmokeDetector"
  | DevRoomSensor => txt "RoomSensor"
  | DevGasDetector => txt "GasDetector"
  | DevReservedSensor code => txt "ReservedSensor(" ++ dec code ++ txt ")"
  | DevElectricityBreaker => txt "ElectricityBreaker"
  | DevValve => txt "Valve"
  | DevReservedSwitch code => txt "ReservedSwitch(" ++ dec code ++ txt ")"
  | DevCustomerUnit => txt "CustomerUnit"
  | DevReservedCustomer code => txt "ReservedCustomer(" ++ dec code ++ txt ")"
  | DevWasteWaterMeter => txt "WasteWaterMeter"
  | DevGarbage => txt "Garbage"
  | DevReservedCO2 => txt "ReservedCO2"
  | DevReservedEnvironmental code => txt "ReservedEnvironmental(" ++ dec code ++ txt ")"
  | DevServiceTool => txt "ServiceTool"
  | DevCommunicationController => txt "CommunicationController"
  | DevUnidirectionalRepeater => txt "UnidirectionalRepeater"
  | DevBidirectionalRepeater => txt "BidirectionalRepeater"
  | DevReservedSystem code => txt "ReservedSystem(" ++ dec code ++ txt ")"
  | DevRadioConverterSystemSide => txt "RadioConverterSystemSide"
  | DevRadioConverterMeterSide => txt "RadioConverterMeterSide"
  | DevBusConverterMeterSide => txt "BusConverterMeterSide"
  | DevReserved code => txt "Reserved(" ++ dec code ++ txt ")"
  | DevWildcard => txt "Wildcard"
  end.

(** data_information.rs:334-351, [Display for Month] *)
Definition show_month (m : month) : text :=
  txt match m with
      | January => "Jan" | February => "Feb" | March => "Mar" | April => "Apr" | May => "May" | June => "Jun"
      | July => "Jul" | August => "Aug" | September => "Sep" | October => "Oct" | November => "Nov" | December => "Dec"
      end.

(** data_information.rs:419-428, [Display for SingleEveryOrInvalid] *)
Definition show_single {A} (show : A -> text) (x : single_every_or_invalid A) : text :=
  match x with
  | Single a => show a
  | Every => txt "Every"
  | Invalid => txt "Invalid"
  end.

(** [Debug for &[u8]] (standard library): the bytes in decimal between square brackets *)
Definition debug_bytes (data : list N) : text := txt "[" ++ join (txt ", ") (map dec data) ++ txt "]".

(** data_information.rs:430-465, [Display for Data]; [display] is [Display for f64] (standard library) *)
Definition show_data (display : f64 -> text) (d : option data_type) : text :=
  match d with
  | Some (Number x) => display x
  | Some (LossyNumber x) => display x
  | Some (Date day m year) =>
      show_single dec day ++ txt "/" ++ show_single show_month m ++ txt "/" ++ show_single dec year
  | Some (DateTime day m year hour minute) =>
      show_single dec day ++ txt "/" ++ show_single show_month m ++ txt "/" ++ show_single dec year ++ txt " "
      ++ show_single dec hour ++ txt ":" ++ show_single dec minute ++ txt ":00"
  | Some (DateTimeWithSeconds day m year hour minute second) =>
      show_single dec day ++ txt "/" ++ show_single show_month m ++ txt "/" ++ show_single dec year ++ txt " "
      ++ show_single dec hour ++ txt ":" ++ show_single dec minute ++ txt ":" ++ show_single dec second
  | Some (Time second minute hour) =>
      show_single dec hour ++ txt ":" ++ show_single dec minute ++ txt ":" ++ show_single dec second
  | Some (Text t) => decode_text_unit t
  | Some (ManufacturerSpecific d) => txt "Manufacturer Specific: " ++ debug_bytes d
  | None => txt "No Data"
  end.

(** value_information.rs:1028-1058, [Display for ValueInformation] *)
Definition show_value_information (v : value_information) : text :=
  (if (vi_decimal_offset_exponent v =? 0)%Z then txt ")" else txt "+" ++ dec_Z (vi_decimal_offset_exponent v) ++ txt ")")
  ++ (if (vi_decimal_scale_exponent v =? 0)%Z then [] else txt "e" ++ dec_Z (vi_decimal_scale_exponent v))
  ++ match vi_units v with [] => [] | us => txt "[" ++ concat (map show_unit us) ++ txt "]" end
  ++ match vi_labels v with [] => [] | ls => txt "(" ++ join (txt ", ") (map label_identifier ls) ++ txt ")" end.

(** data_information.rs:896-906, [Display for FunctionField] *)
Definition show_function_field (f : function_field) : text :=
  match f with
  | InstantaneousValue => txt "Inst"
  | MaximumValue => txt "Max"
  | MinimumValue => txt "Min"
  | ValueDuringErrorState => txt "Value During Error State"
  end.

(** data_information.rs:907-917, [Debug] (derived) for [SpecialFunctions] *)
Definition debug_special_functions (s : special_functions) : text :=
  match s with
  | SFManufacturerSpecific => txt "ManufacturerSpecific"
  | SFMoreRecordsFollow => txt "MoreRecordsFollow"
  | SFIdleFiller => txt "IdleFiller"
  | SFReserved => txt "Reserved"
  | SFGlobalReadoutRequest => txt "GlobalReadoutRequest"
  end.

(** data_information.rs:952-978, [Display for DataFieldCoding] *)
Definition show_coding (c : data_field_coding) : text :=
  match c with
  | CNoData => txt "No Data"
  | CInteger8Bit => txt "8-bit Integer"
  | CInteger16Bit => txt "16-bit Integer"
  | CInteger24Bit => txt "24-bit Integer"
  | CInteger32Bit => txt "32-bit Integer"
  | CReal32Bit => txt "32-bit Real"
  | CInteger48Bit => txt "48-bit Integer"
  | CInteger64Bit => txt "64-bit Integer"
  | CSelectionForReadout => txt "Selection for Readout"
  | CBCD2Digit => txt "BCD 2-digit"
  | CBCD4Digit => txt "BCD 4-digit"
  | CBCD6Digit => txt "BCD 6-digit"
  | CBCD8Digit => txt "BCD 8-digit"
  | CVariableLength => txt "Variable Length"
  | CBCDDigit12 => txt "BCD 12-digit"
  | CDateTypeG => txt "Date Type G"
  | CDateTimeTypeF => txt "Date Time Type F"
  | CDateTimeTypeJ => txt "Date Time Type J"
  | CDateTimeTypeI => txt "Date Time Type I"
  | CSpecialFunctions code => txt "Special Functions (" ++ debug_special_functions code ++ txt ")"
  end.

(** data_information.rs:150-159, [Display for DataInformation] *)
Definition show_data_information (d : data_information) : text :=
  dec (di_storage_number d) ++ txt "," ++ show_function_field (di_function_field d) ++ txt ","
  ++ show_coding (di_data_field_coding d).

(** mbus_data.rs:213-229, [RecordSummary] *)
Record record_summary := {
  rs_display : text;
  rs_value : option f64;
  rs_exponent : option Z;
  rs_unit : option text;
  rs_quantity : option text;
  rs_data_information : text;
  rs_header_hex : text;
  rs_data_hex : text
}.

(** mbus_data.rs:201-211, [ManufacturerSummary]: the code, and the registry's name, website and description *)
Record manufacturer_summary := { ms_code : text; ms_info : option (text * text * text) }.

(** mbus_data.rs:172-199, [FrameSummary] *)
Record frame_summary := {
  fs_frame_type : text;
  fs_function : option text;
  fs_address : option text;
  fs_identification_number : option text;
  fs_manufacturer : option manufacturer_summary;
  fs_access_number : option N;
  fs_status : option text;
  fs_security_mode : option text;
  fs_version : option N;
  fs_device_type : option text;
  fs_encrypted : bool;
  fs_decrypted : bool;
  fs_encrypted_payload_hex : option text;
  fs_records : list record_summary
}.

(** mbus_data.rs:266-275, [manufacturer_summary] *)
Definition summarize_manufacturer (env : environment) (code : text) : manufacturer_summary :=
  {| ms_code := code; ms_info := env_registry env code |}.

(** mbus_data.rs:277-280, [hex_string] *)
Definition legacy_hex_string (data : list N) : text := concat (map hex2 data).

(** mbus_data.rs:282-294, [user_data_is_encrypted] *)
Definition legacy_is_encrypted (u : option user_data_block) : bool :=
  match u with
  | Some (VariableLong _ h _) => long_is_encrypted h
  | Some (VariableShort _ h _) => short_is_encrypted h
  | _ => false
  end.

(** mbus_data.rs:296-314, [variable_data_block] *)
Definition variable_data_block (u : option user_data_block) : option (list N) :=
  match u with
  | Some (VariableLong _ _ block) | Some (VariableShort _ _ block) | Some (VariableNone _ block) => Some block
  | _ => None
  end.

(** [Option<String>::filter(|s| !s.is_empty())], mbus_data.rs:347 and 356 *)
Definition not_empty (t : text) : option text := match t with [] => None | _ => Some t end.

(** mbus_data.rs:323-367, the closure of [record_summaries] *)
Definition summarize_record (display : f64 -> text) (r : data_record) : record_summary :=
  let information := ph_data_information (drh_processed (dr_header r)) in
  let value_information := ph_value_information (drh_processed (dr_header r)) in
  let raw := dr_raw_bytes r in
  let header_size := header_get_size (dr_header r) in
  {| rs_display := txt "(" ++ show_data display (d_value (dr_data r))
       ++ match value_information with Some v => show_value_information v | None => txt ")" end;
     rs_value := match d_value (dr_data r) with Some (Number n) | Some (LossyNumber n) => Some n | _ => None end;
     rs_exponent := match value_information with Some v => Some (vi_decimal_scale_exponent v) | None => None end;
     rs_unit := match value_information with Some v => not_empty (concat (map show_unit (vi_units v))) | None => None end;
     rs_quantity :=
       match value_information with Some v => not_empty (join (txt ", ") (map label_identifier (vi_labels v))) | None => None end;
     rs_data_information := match information with Some i => show_data_information i | None => txt "None" end;
     rs_header_hex := spaced_hex (get_to raw header_size);
     rs_data_hex := spaced_hex (get_range raw header_size (dr_get_size r)) |}.

(** [Iterator::flatten] over the items of the record iterator, mbus_data.rs:322: errors are passed over *)
Fixpoint flatten_items (items : list (outcome data_record_error data_record)) : outcome unit (list data_record) :=
  match items with
  | [] => Ok []
  | Ok r :: items' => rest <- flatten_items items' ;; Ok (r :: rest)
  | Err _ :: items' => flatten_items items'
  | Panic p :: _ => Panic p
  end.

(** the records an iterator yields, mbus_data.rs:320-322, 954 and 1085: [Err tt] is the model running out of fuel, which
    never happens *)
Definition flatten_records (cf : config) (records : data_records) : outcome unit (list data_record) :=
  match collect cf (S (length (rs_data records))) records with
  | Some items => flatten_items items
  | None => Err tt
  end.

(** mbus_data.rs:316-369, [record_summaries] *)
Definition record_summaries (cf : config) (display : f64 -> text) (records : data_records) : outcome unit (list record_summary) :=
  rs <- flatten_records cf records ;; Ok (map (summarize_record display) rs).

(** mbus_data.rs:371-424, [apply_user_data_summary] *)
Definition apply_user_data_summary (env : environment) (s : frame_summary) (u : option user_data_block) : frame_summary :=
  match u with
  | Some (VariableLong _ h _) =>
      {| fs_frame_type := fs_frame_type s; fs_function := fs_function s; fs_address := fs_address s;
         fs_identification_number := Some (show_identification (lh_identification_number h));
         fs_manufacturer := Some (summarize_manufacturer env
           (match lh_manufacturer h with
            | Ok m => show_manufacturer m
            | Err e => txt "Error: " ++ env_application_message env e
            | Panic _ => []
            end));
         fs_access_number := Some (sh_access_number (lh_short_tpl_header h));
         fs_status := Some (show_status (sh_status (lh_short_tpl_header h)));
         fs_security_mode := Some (show_security_mode (configuration_security_mode (sh_configuration_field (lh_short_tpl_header h))));
         fs_version := Some (lh_version h);
         fs_device_type := Some (show_device_type (lh_device_type h));
         fs_encrypted := fs_encrypted s; fs_decrypted := fs_decrypted s;
         fs_encrypted_payload_hex := fs_encrypted_payload_hex s; fs_records := fs_records s |}
  | Some (VariableShort _ h _) =>
      {| fs_frame_type := fs_frame_type s; fs_function := fs_function s; fs_address := fs_address s;
         fs_identification_number := fs_identification_number s; fs_manufacturer := fs_manufacturer s;
         fs_access_number := Some (sh_access_number h);
         fs_status := Some (show_status (sh_status h));
         fs_security_mode := Some (show_security_mode (configuration_security_mode (sh_configuration_field h)));
         fs_version := fs_version s; fs_device_type := fs_device_type s;
         fs_encrypted := fs_encrypted s; fs_decrypted := fs_decrypted s;
         fs_encrypted_payload_hex := fs_encrypted_payload_hex s; fs_records := fs_records s |}
  | Some (FixedDataStructure n access status _ _ _) =>
      {| fs_frame_type := fs_frame_type s; fs_function := fs_function s; fs_address := fs_address s;
         fs_identification_number := Some (show_identification n); fs_manufacturer := fs_manufacturer s;
         fs_access_number := Some access;
         fs_status := Some (show_status status);
         fs_security_mode := fs_security_mode s; fs_version := fs_version s; fs_device_type := fs_device_type s;
         fs_encrypted := fs_encrypted s; fs_decrypted := fs_decrypted s;
         fs_encrypted_payload_hex := fs_encrypted_payload_hex s; fs_records := fs_records s |}
  | _ => s
  end.

(** mbus_data.rs:426-441, [finalize_summary] *)
Definition finalize_summary (env : environment) (display : f64 -> text) (s : frame_summary) (records : option data_records)
  (u : option user_data_block) (encrypted decrypted : bool) : outcome unit frame_summary :=
  let set payload rs :=
    {| fs_frame_type := fs_frame_type s; fs_function := fs_function s; fs_address := fs_address s;
       fs_identification_number := fs_identification_number s; fs_manufacturer := fs_manufacturer s;
       fs_access_number := fs_access_number s; fs_status := fs_status s; fs_security_mode := fs_security_mode s;
       fs_version := fs_version s; fs_device_type := fs_device_type s;
       fs_encrypted := encrypted; fs_decrypted := decrypted;
       fs_encrypted_payload_hex := payload; fs_records := rs |} in
  if encrypted && negb decrypted
  then Ok (set (match variable_data_block u with Some block => Some (legacy_hex_string block) | None => None end) (fs_records s))
  else match records with
       | Some r => rs <- record_summaries (env_config env) display r ;; Ok (set (fs_encrypted_payload_hex s) rs)
       | None => Ok (set (fs_encrypted_payload_hex s) (fs_records s))
       end.

(** mbus_data.rs:244-264, [FrameSummary::new] *)
Definition new_summary (frame_type : text) (function address : option text) (id : option text)
  (manufacturer : option manufacturer_summary) (version : option N) (device_type : option text) : frame_summary :=
  {| fs_frame_type := frame_type; fs_function := function; fs_address := address; fs_identification_number := id;
     fs_manufacturer := manufacturer; fs_access_number := None; fs_status := None; fs_security_mode := None;
     fs_version := version; fs_device_type := device_type; fs_encrypted := false; fs_decrypted := false;
     fs_encrypted_payload_hex := None; fs_records := [] |}.

(** mbus_data.rs:443-478, [summarize_wired] *)
Definition summarize_wired (env : environment) (display : f64 -> text) (parsed : mbus_data wired_frame)
  (records : option data_records) (encrypted decrypted : bool) : outcome unit frame_summary :=
  let new := match md_frame parsed with
    | LongFrame f a _ => new_summary (txt "LongFrame") (Some (show_function f)) (Some (show_address a)) None None None None
    | ShortFrame f a => new_summary (txt "ShortFrame") (Some (show_function f)) (Some (show_address a)) None None None None
    | ControlFrame f a _ => new_summary (txt "ControlFrame") (Some (show_function f)) (Some (show_address a)) None None None None
    | SingleCharacter _ => new_summary (txt "SingleCharacter") None None None None None None
    end in
  finalize_summary env display (apply_user_data_summary env new (md_user_data parsed)) records (md_user_data parsed)
    encrypted decrypted.

(** mbus_data.rs:480-505, [summarize_wireless] *)
Definition summarize_wireless (env : environment) (display : f64 -> text) (parsed : mbus_data wireless_frame)
  (records : option data_records) (encrypted decrypted : bool) : outcome unit frame_summary :=
  let id := wf_manufacturer_id (md_frame parsed) in
  let new := new_summary (txt "Wireless")
    (match wf_function (md_frame parsed) with Some f => Some (show_function f) | None => None end) None
    (Some (show_identification (mi_identification_number id)))
    (Some (summarize_manufacturer env (show_manufacturer (mi_manufacturer_code id))))
    (Some (mi_version id)) (Some (show_device_type (mi_device_type id))) in
  finalize_summary env display (apply_user_data_summary env new (md_user_data parsed)) records (md_user_data parsed)
    encrypted decrypted.

(** mbus_data.rs:543-570 and 582-609, decryption: the records shown afterwards and whether they were decrypted.  Only a
    long header is decrypted in a wired frame ([wireless_id] is [None]). *)
Definition decrypt_records (env : environment) (u : option user_data_block) (records : option data_records)
  (wireless_id : option manufacturer_id) (key : option (list N)) : outcome unit (option data_records * bool) :=
  if negb (legacy_is_encrypted u) then Ok (records, false) else
  match key, u with
  | Some key, Some block =>
      let '(res, buffer) := decrypt_variable_data_with_key (env_aes env) block wireless_id key (repeat 0 256) in
      r <- res ;;
      match r with
      | None => Ok (records, false)
      | Some n =>
          match get_to buffer n, block, wireless_id with
          | Some data, VariableLong _ h _, _ => Ok (Some (records_new data (Some h)), true)
          | Some data, _, Some _ => Ok (Some (records_new data None), true)
          | _, _, _ => Ok (records, false)
          end
      end
  | _, _ => Ok (records, false)
  end.

(** mbus_data.rs:237-242, [ParsedOutput]: the summary, and what the JSON and the YAML are made of: the frame, the user data
    and the records of [MbusData] (mbus_data.rs:10-24) *)
Record parsed_output := {
  po_summary : frame_summary;
  po_records : option (list data_record);
  po_frame : wired_frame + wireless_frame;
  po_user_data : option user_data_block
}.
(** mbus_data.rs:507-527, [build_output]: the JSON and the YAML are made, and so the records read, whatever the output
    asked for.  The records are those of [parsed], read again from the start, encrypted or not; they are serialized as
    a vector (m-bus-application-layer/src/lib.rs:77).  [Err tt] is the model running out of fuel. *)
Definition build_parsed (cf : config) (fr : wired_frame + wireless_frame) (u : option user_data_block) (s : frame_summary)
  (records : option data_records) : outcome unit parsed_output :=
  match records with
  | None => Ok {| po_summary := s; po_records := None; po_frame := fr; po_user_data := u |}
  | Some r =>
      match records_to_vec cf (rs_data r) (rs_header r) with
      | Some (Ok rs) => Ok {| po_summary := s; po_records := Some rs; po_frame := fr; po_user_data := u |}
      | Some (Panic p) => Panic p
      | _ => Err tt
      end
  end.

(** mbus_data.rs:532-615, [parse_frame_output] after [clean_and_convert] *)
Definition parse_frame_bytes (env : environment) (display : f64 -> text) (data : list N) (key : option (list N))
  : outcome unit (option parsed_output) :=
  match mbus_wired_try_from (env_config env) data with
  | Panic p => Panic p
  | Ok parsed =>
      '(records, decrypted) <- decrypt_records env (md_user_data parsed) (md_data_records parsed) None key ;;
      s <- summarize_wired env display parsed records (legacy_is_encrypted (md_user_data parsed)) decrypted ;;
      o <- build_parsed (env_config env) (inl (md_frame parsed)) (md_user_data parsed) s records ;;
      Ok (Some o)
  | Err _ =>
      '(stripped, _) <- strip_format_a_crcs data (repeat 0 512) ;;
      let wireless_data := match stripped with Some d => d | None => data end in
      match mbus_wireless_try_from wireless_data with
      | Panic p => Panic p
      | Err _ => Ok None
      | Ok parsed =>
          '(records, decrypted) <- decrypt_records env (md_user_data parsed) (md_data_records parsed)
                                    (Some (wf_manufacturer_id (md_frame parsed))) key ;;
          s <- summarize_wireless env display parsed records (legacy_is_encrypted (md_user_data parsed)) decrypted ;;
          o <- build_parsed (env_config env) (inr (md_frame parsed)) (md_user_data parsed) s records ;;
          Ok (Some o)
      end
  end.
(** mbus_data.rs:532-615, [parse_frame_output] *)
Definition parse_frame_output (env : environment) (display : f64 -> text) (input : text) (key : option (list N))
  : outcome unit (option parsed_output) :=
  parse_frame_bytes env display (clean_and_convert input) key.

(** mbus_data.rs:743-824, [parse_to_csv]: the records given to the CSV writer *)
Definition wide_csv_rows (s : option frame_summary) : list (list text) :=
  match s with
  | None => [[txt "Error"]; [txt "Error parsing data as wired or wireless M-Bus"]]
  | Some s =>
      [ [txt "FrameType"; txt "Function"; txt "Address"; txt "Identification Number"; txt "Manufacturer"; txt "Manufacturer Name";
         txt "Access Number"; txt "Status"; txt "Security Mode"; txt "Version"; txt "Device Type"]
        ++ flat_map (fun i => [txt "DataPoint" ++ dec (N.of_nat i) ++ txt "_Value"; txt "DataPoint" ++ dec (N.of_nat i) ++ txt "_Info"])
             (seq 1 (length (fs_records s)));
        [fs_frame_type s; or_empty (fs_function s); or_empty (fs_address s); or_empty (fs_identification_number s);
         match fs_manufacturer s with Some m => ms_code m | None => [] end;
         match fs_manufacturer s with
         | Some m => match ms_info m with Some (name, _, _) => name | None => [] end
         | None => []
         end;
         match fs_access_number s with Some n => dec n | None => [] end;
         or_empty (fs_status s); or_empty (fs_security_mode s);
         match fs_version s with Some n => dec n | None => [] end;
         or_empty (fs_device_type s)]
        ++ flat_map (fun r => [rs_display r; rs_data_information r]) (fs_records s) ]
  end.
(** mbus_data.rs:743-824, [parse_to_csv], before the CSV writer *)
Definition parse_to_csv (env : environment) (display : f64 -> text) (input : text) (key : option (list N))
  : outcome unit (list (list text)) :=
  o <- parse_frame_output env display input key ;;
  Ok (wide_csv_rows (match o with Some o => Some (po_summary o) | None => None end)).

(** [slice::chunks], mbus_data.rs:1126 *)
Fixpoint chunks {A} (fuel n : nat) (l : list A) : list (list A) :=
  match fuel, l with
  | O, _ | _, [] => []
  | S fuel', _ => firstn n l :: chunks fuel' n (skipn n l)
  end.

(** mbus_data.rs:1158-1162, the links between neighbours of a row *)
Fixpoint pair_links (row : list text) : text :=
  match row with
  | a :: (b :: _) as rest => txt "        " ++ a ++ txt "~~~" ++ b ++ [10] ++ pair_links rest
  | _ => []
  end.

(** mbus_data.rs:1134-1143 and 1145-1154, [n] invisible nodes from number [pad_idx] on: ids, declarations and styles *)
Definition pad_nodes (pad_prefix : text) (pad_idx n : nat) : list text * text * text :=
  let ids := map (fun i => pad_prefix ++ txt "P" ++ dec (N.of_nat i)) (seq pad_idx n) in
  (ids,
   concat (map (fun id => txt "        " ++ id ++ txt "["" ""]" ++ [10]) ids),
   concat (map (fun id => txt "    style " ++ id ++ txt " fill:none,stroke:none,color:none" ++ [10]) ids)).

(** mbus_data.rs:1126-1163, one round of the loop of [mermaid_centered_chains]: body, styles and the next [pad_idx] *)
Definition chain_row (max_per_row : nat) (pad_prefix : text) (pad_idx : nat) (chunk : list text) : text * text * nat :=
  if Nat.eqb (length chunk) max_per_row then (pair_links chunk, [], pad_idx) else
  let padding := (max_per_row - length chunk)%nat in
  let left := Nat.div2 padding in
  let right := (padding - left)%nat in
  let '(ids1, body1, styles1) := pad_nodes pad_prefix pad_idx left in
  let '(ids2, body2, styles2) := pad_nodes pad_prefix (pad_idx + left) right in
  (body1 ++ body2 ++ pair_links (ids1 ++ chunk ++ ids2), styles1 ++ styles2, (pad_idx + padding)%nat).
(** mbus_data.rs:1126-1163, the loop *)
Fixpoint chain_rows (max_per_row : nat) (pad_prefix : text) (pad_idx : nat) (rows : list (list text)) : text * text :=
  match rows with
  | [] => ([], [])
  | chunk :: rows' =>
      let '(body, styles, next) := chain_row max_per_row pad_prefix pad_idx chunk in
      let '(body', styles') := chain_rows max_per_row pad_prefix next rows' in
      (body ++ body', styles ++ styles')
  end.
(** mbus_data.rs:1121-1165, [mermaid_centered_chains] *)
Definition mermaid_centered_chains (ids : list text) (max_per_row : nat) (pad_prefix : text) : text * text :=
  chain_rows max_per_row pad_prefix 0 (chunks (length ids) max_per_row ids).

(** mbus_data.rs:833-842, RECORD_COLORS *)
Definition record_colors : list (text * text) :=
  [(txt "#1565c0", txt "#fff"); (txt "#2e7d32", txt "#fff"); (txt "#e65100", txt "#fff"); (txt "#6a1b9a", txt "#fff");
   (txt "#c62828", txt "#fff"); (txt "#00695c", txt "#fff"); (txt "#f9a825", txt "#000"); (txt "#4527a0", txt "#fff")].

(** a line of the chart, with its indentation *)
Definition chart_line (depth : nat) (t : text) : text := repeat 32 (4 * depth) ++ t ++ [10].
(** a node [ID["label"]], for example mbus_data.rs:860-864 *)
Definition chart_node (id label : text) : text := chart_line 2 (id ++ txt "[""" ++ label ++ txt """]").
(** a style line, for example mbus_data.rs:870-873 *)
Definition chart_style (id style : text) : text := chart_line 1 (txt "style " ++ id ++ txt " " ++ style).
(** a subgraph's first line, for example mbus_data.rs:858 *)
Definition chart_subgraph (id title : text) : text := chart_line 1 (txt "subgraph " ++ id ++ txt "[""" ++ title ++ txt """]").

(** mbus_data.rs:954-974 and 1085-1105: the record nodes and their styles *)
Definition chart_records (display : f64 -> text) (rs : list data_record) : text * text :=
  let indexed := combine (seq 0 (length rs)) rs in
  (concat (map (fun '(i, r) =>
     chart_node (txt "R" ++ dec (N.of_nat i))
       (legacy_mermaid_escape (txt "(" ++ show_data display (d_value (dr_data r))
          ++ match ph_value_information (drh_processed (dr_header r)) with Some v => show_value_information v | None => [] end))) indexed),
   concat (map (fun '(i, _) =>
     let '(fill, color) := nth (Nat.modulo i 8) record_colors (txt "#888", txt "#fff") in
     chart_style (txt "R" ++ dec (N.of_nat i)) (txt "fill:" ++ fill ++ txt ",color:" ++ color ++ txt ",stroke:#333")) indexed)).

(** mbus_data.rs:875-949, the device nodes of a long header *)
Definition chart_device (env : environment) (h : long_tpl_header) : text * text :=
  let mfr := match lh_manufacturer h with
             | Ok m => show_manufacturer m
             | Err e => txt "Error: " ++ env_application_message env e
             | Panic _ => []
             end in
  let labels :=
    [txt "ID: " ++ legacy_mermaid_escape (show_identification (lh_identification_number h));
     txt "Manufacturer: " ++ legacy_mermaid_escape mfr;
     txt "Version: " ++ dec (lh_version h);
     txt "Device Type: " ++ legacy_mermaid_escape (debug_device_type (lh_device_type h));
     txt "Access Number: " ++ dec (sh_access_number (lh_short_tpl_header h));
     txt "Status: " ++ legacy_mermaid_escape (show_status (sh_status (lh_short_tpl_header h)))]
    ++ match env_registry env mfr with
       | Some (name, website, description) =>
           [txt "Name: " ++ legacy_mermaid_escape name; txt "Website: " ++ legacy_mermaid_escape website;
            legacy_mermaid_escape description]
       | None => []
       end in
  let ids := map (fun i => txt "DEV" ++ dec (N.of_nat i)) (seq 1 (length labels)) in
  let '(chains, pads) := mermaid_centered_chains ids 4 (txt "DP") in
  (chart_subgraph (txt "DEV_SG") (txt "Device Info")
   ++ concat (map (fun '(id, label) => chart_node id label) (combine ids labels))
   ++ chains ++ chart_line 1 (txt "end") ++ chart_line 1 (txt "FRAME_SG --> DEV_SG"),
   pads ++ chart_style (txt "DEV_SG") (txt "fill:#1e8449,color:#fff,stroke:#145a32")
   ++ concat (map (fun id => chart_style id (txt "fill:#27ae60,color:#fff,stroke:#145a32")) ids)).

(** mbus_data.rs:951-983, the record subgraph of a wired frame *)
Definition chart_wired_records (cf : config) (display : f64 -> text) (records : option data_records) : outcome unit (text * text) :=
  match records with
  | None => Ok ([], [])
  | Some s =>
      rs <- flatten_records cf s ;;
      let '(nodes, styles) := chart_records display rs in
      let '(chains, pads) := mermaid_centered_chains (map (fun i => txt "R" ++ dec (N.of_nat i)) (seq 0 (length rs))) 4 (txt "RP") in
      Ok (chart_subgraph (txt "REC_SG") (txt "Data Records") ++ nodes ++ chains ++ chart_line 1 (txt "end")
          ++ chart_line 1 (txt "DEV_SG --> REC_SG"),
          styles ++ chart_style (txt "REC_SG") (txt "fill:#6c3483,color:#fff,stroke:#4a235a") ++ pads)
  end.

(** the colours of the frame nodes, mbus_data.rs:870-873 and 1075-1081 *)
Definition frame_style : text := txt "fill:#2980b9,color:#fff,stroke:#1a5276".
(** the colours of the frame subgraph *)
Definition frame_group_style : text := txt "fill:#2e86c1,color:#fff,stroke:#1a5276".

(** mbus_data.rs:847-1020, the chart of a wired frame *)
Definition wired_chart (env : environment) (display : f64 -> text) (parsed : mbus_data wired_frame) : outcome unit text :=
  let two f a title :=
    Ok (txt "flowchart TD" ++ [10] ++ chart_subgraph (txt "FRAME_SG") title
        ++ chart_node (txt "FUNC") (txt "Function: " ++ legacy_mermaid_escape (show_function f))
        ++ chart_node (txt "ADDR") (txt "Address: " ++ legacy_mermaid_escape (show_address a))
        ++ chart_line 1 (txt "end") ++ chart_style (txt "FRAME_SG") frame_group_style) in
  match md_frame parsed with
  | LongFrame f a _ =>
      let '(chains, pads) := mermaid_centered_chains [txt "FTYPE"; txt "FUNC"; txt "ADDR"] 4 (txt "FP") in
      let '(device, device_styles) :=
        match md_user_data parsed with Some (VariableLong _ h _) => chart_device env h | _ => ([], []) end in
      '(records, record_styles) <- chart_wired_records (env_config env) display (md_data_records parsed) ;;
      Ok (txt "flowchart TD" ++ [10] ++ chart_subgraph (txt "FRAME_SG") (txt "Frame Header")
          ++ chart_node (txt "FTYPE") (txt "Long Frame")
          ++ chart_node (txt "FUNC") (txt "Function: " ++ legacy_mermaid_escape (show_function f))
          ++ chart_node (txt "ADDR") (txt "Address: " ++ legacy_mermaid_escape (show_address a))
          ++ chains ++ chart_line 1 (txt "end") ++ device ++ records
          ++ pads ++ chart_style (txt "FRAME_SG") frame_group_style ++ chart_style (txt "FTYPE") frame_style
          ++ chart_style (txt "FUNC") frame_style ++ chart_style (txt "ADDR") frame_style ++ device_styles ++ record_styles)
  | ShortFrame f a => two f a (txt "Short Frame")
  | ControlFrame f a _ => two f a (txt "Control Frame")
  | SingleCharacter c =>
      Ok (txt "flowchart TD" ++ [10] ++ chart_line 1 (txt "FRAME[""Single Character: 0x" ++ hex2 c ++ txt """]")
          ++ chart_style (txt "FRAME") frame_group_style)
  end.

(** mbus_data.rs:1026-1113, the chart of a wireless frame *)
Definition wireless_chart (env : environment) (display : f64 -> text) (parsed : mbus_data wireless_frame) : outcome unit text :=
  let id := wf_manufacturer_id (md_frame parsed) in
  let code := show_manufacturer (mi_manufacturer_code id) in
  let info := env_registry env code in
  let names := [txt "FUNC"; txt "MFR"; txt "ID"; txt "DEVT"; txt "VER"]
               ++ match info with Some _ => [txt "MFRNAME"; txt "MFRWEB"; txt "MFRDESC"] | None => [] end in
  '(records, record_styles) <-
    match md_data_records parsed with
    | None => Ok ([], [])
    | Some s =>
        rs <- flatten_records (env_config env) s ;;
        let '(nodes, styles) := chart_records display rs in
        Ok (chart_subgraph (txt "REC_SG") (txt "Data Records") ++ nodes ++ chart_line 1 (txt "end")
            ++ chart_line 1 (txt "FRAME_SG --> REC_SG"),
            styles ++ chart_style (txt "REC_SG") (txt "fill:#6c3483,color:#fff,stroke:#4a235a"))
    end ;;
  Ok (txt "flowchart TD" ++ [10] ++ chart_subgraph (txt "FRAME_SG") (txt "Wireless Frame")
      ++ chart_node (txt "FUNC") (txt "Function: "
           ++ match wf_function (md_frame parsed) with Some f => txt "Some(" ++ debug_function f ++ txt ")" | None => txt "None" end)
      ++ chart_node (txt "MFR") (txt "Manufacturer: " ++ legacy_mermaid_escape code)
      ++ chart_node (txt "ID") (txt "ID: IdentificationNumber { number: " ++ dec (mi_identification_number id) ++ txt " }")
      ++ chart_node (txt "DEVT") (txt "Device Type: " ++ debug_device_type (mi_device_type id))
      ++ chart_node (txt "VER") (txt "Version: " ++ dec (mi_version id))
      ++ match info with
         | Some (name, website, description) =>
             chart_node (txt "MFRNAME") (txt "Name: " ++ legacy_mermaid_escape name)
             ++ chart_node (txt "MFRWEB") (txt "Website: " ++ legacy_mermaid_escape website)
             ++ chart_node (txt "MFRDESC") (legacy_mermaid_escape description)
         | None => []
         end
      ++ chart_line 1 (txt "end") ++ records
      ++ chart_style (txt "FRAME_SG") frame_group_style ++ concat (map (fun n => chart_style n frame_style) names) ++ record_styles).

(** mbus_data.rs:826-1116, [parse_to_mermaid]; the key is not used *)
Definition parse_to_mermaid (env : environment) (display : f64 -> text) (input : text) : outcome unit text :=
  let data := clean_and_convert input in
  match mbus_wired_try_from (env_config env) data with
  | Panic p => Panic p
  | Ok parsed => wired_chart env display parsed
  | Err _ =>
      '(stripped, _) <- strip_format_a_crcs data (repeat 0 512) ;;
      match mbus_wireless_try_from (match stripped with Some d => d | None => data end) with
      | Panic p => Panic p
      | Ok parsed => wireless_chart env display parsed
      | Err _ => Ok (txt "flowchart TD" ++ [10] ++ chart_line 1 (txt "ERR[""Error: Could not parse data""]"))
      end
  end.
