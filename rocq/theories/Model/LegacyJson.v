(** Model of the older JSON output ("json-legacy") of src/mbus_data.rs: the documents that the [Serialize] derives of the
    crates make.  [serde_json::to_value] (mbus_data.rs:509) keeps the members of an object in the order of their names
    (serde_json without its feature preserve_order), so they are listed here in that order. *)
From Coq Require Import List NArith ZArith Bool String.
Import ListNotations.
From Verif Require Import Model.Base Model.Text Model.Core Model.F64 Model.Hex Model.Wired Model.Wireless Model.DataInfo
  Model.ValueInfo Model.UserData Model.Record Model.MbusData Model.Show Model.Output Model.Json Model.Legacy.
Open Scope N_scope.
Open Scope list_scope.

(** an enum variant with contents (serde's external tagging): core lib.rs:450 and others *)
Definition tagged (name : string) (v : json) : json := VObject (always name v).
(** an [Option] that is not skipped: mbus_data.rs:14-24 and others *)
Definition or_null {A} (f : A -> json) (o : option A) : json := match o with Some a => f a | None => VNull end.
(** a signed integer, value_information.rs:989 *)
Definition VSigned (z : Z) : json := VNumber (dec_Z z).
(** an f64: [serde_json::to_value] makes null of what is not finite; [number] is the text of a finite f64;
    data_information.rs:376-377, mbus_data.rs:219 *)
Definition float_json (number : f64 -> text) (x : f64) : json :=
  match x with
  | S754_zero _ | S754_finite _ _ _ => VNumber (number x)
  | _ => VNull
  end.

(** ** The frame *)

(** crates/m-bus-core/src/lib.rs:446-465, [Function] *)
Definition function_json (f : function) : json :=
  match f with
  | SndNk prm => tagged "SndNk" (VObject (always "prm" (VBool prm)))
  | SndUd fcb => tagged "SndUd" (VObject (always "fcb" (VBool fcb)))
  | ReqUd1 fcb => tagged "ReqUd1" (VObject (always "fcb" (VBool fcb)))
  | ReqUd2 fcb => tagged "ReqUd2" (VObject (always "fcb" (VBool fcb)))
  | RspUd acd dfc => tagged "RspUd" (VObject (always "acd" (VBool acd) ++ always "dfc" (VBool dfc)))
  | SndUd2 => VString (txt "SndUd2")
  | SndUd3 => VString (txt "SndUd3")
  | SndNr => VString (txt "SndNr")
  | SendIr => VString (txt "SendIr")
  | AccNr => VString (txt "AccNr")
  | AccDmd => VString (txt "AccDmd")
  | Ack => VString (txt "Ack")
  | Nack => VString (txt "Nack")
  | CnfIr => VString (txt "CnfIr")
  end.
(** crates/wired-mbus-link-layer/src/lib.rs:30-39, [Address] *)
Definition address_json (a : address) : json :=
  match a with
  | Uninitalized => VString (txt "Uninitalized")
  | Primary b => tagged "Primary" (VInt b)
  | Secondary => VString (txt "Secondary")
  | Broadcast reply_required => tagged "Broadcast" (VObject (always "reply_required" (VBool reply_required)))
  end.
(** crates/wired-mbus-link-layer/src/lib.rs:5-28, [WiredFrame]; the data are skipped *)
Definition wired_json (w : wired_frame) : json :=
  match w with
  | SingleCharacter c => tagged "SingleCharacter" (VObject (always "character" (VInt c)))
  | ShortFrame f a => tagged "ShortFrame" (VObject (always "address" (address_json a) ++ always "function" (function_json f)))
  | LongFrame f a _ => tagged "LongFrame" (VObject (always "address" (address_json a) ++ always "function" (function_json f)))
  | ControlFrame f a _ => tagged "ControlFrame" (VObject (always "address" (address_json a) ++ always "function" (function_json f)))
  end.
(** crates/m-bus-core/src/lib.rs:32-37, [ManufacturerCode]: three characters *)
Definition code_json (c : manufacturer_code) : json :=
  VObject (always "code" (VArray (map VString [[mc1 c]; [mc2 c]; [mc3 c]]))).
(** crates/m-bus-core/src/lib.rs:133-138, [IdentificationNumber] *)
Definition number_json (n : N) : json := VObject (always "number" (VInt n)).
(** crates/m-bus-core/src/lib.rs:147-201, [DeviceType]: the variants without contents have the names of [Debug] *)
Definition device_json (d : device_type) : json :=
  match d with
  | DevReservedSensor c => tagged "ReservedSensor" (VInt c)
  | DevReservedSwitch c => tagged "ReservedSwitch" (VInt c)
  | DevReservedCustomer c => tagged "ReservedCustomer" (VInt c)
  | DevReservedEnvironmental c => tagged "ReservedEnvironmental" (VInt c)
  | DevReservedSystem c => tagged "ReservedSystem" (VInt c)
  | DevReserved c => tagged "Reserved" (VInt c)
  | _ => VString (debug_device_type d)
  end.
(** crates/wireless-mbus-link-layer/src/lib.rs:111-119, [ManufacturerId] *)
Definition manufacturer_id_json (m : manufacturer_id) : json :=
  VObject (always "device_type" (device_json (mi_device_type m))
           ++ always "identification_number" (number_json (mi_identification_number m))
           ++ always "is_unique_globally" (VBool (mi_is_unique_globally m))
           ++ always "manufacturer_code" (code_json (mi_manufacturer_code m))
           ++ always "version" (VInt (mi_version m))).
(** crates/wireless-mbus-link-layer/src/lib.rs:94-109, [WirelessFrame]; the data in hexadecimal (core lib.rs:7-24) *)
Definition wireless_json (w : wireless_frame) : json :=
  VObject (always "control_field" (VInt (wf_control_field w)) ++ always "data" (VString (hex_string (wf_data w)))
           ++ always "function" (or_null function_json (wf_function w))
           ++ always "manufacturer_id" (manufacturer_id_json (wf_manufacturer_id w))).
(** mbus_data.rs:14-24, the member [frame] of [MbusData] *)
Definition any_frame_json (f : wired_frame + wireless_frame) : json :=
  match f with inl w => wired_json w | inr w => wireless_json w end.

(** ** The user data *)

(** crates/m-bus-application-layer/src/lib.rs:164-178, [StatusField]: crate bitflags writes the names of the bits set, in
    the order of their declaration *)
Definition status_flags (bits : N) : text :=
  join (txt " | ") (flat_map (fun '(i, word) => if N.testbit bits i then [txt word] else [])
    [(0, "COUNTER_BINARY_SIGNED"%string); (1, "COUNTER_FIXED_DATE"%string); (2, "POWER_LOW"%string);
     (3, "PERMANENT_ERROR"%string); (4, "TEMPORARY_ERROR"%string); (5, "MANUFACTURER_SPECIFIC_1"%string);
     (6, "MANUFACTURER_SPECIFIC_2"%string); (7, "MANUFACTURER_SPECIFIC_3"%string)]).
(** crates/m-bus-core/src/lib.rs:72-85, [ApplicationLayerError].  The text of [Unimplemented] is not in the model; no
    manufacturer is refused with it. *)
Definition application_error_json (e : application_layer_error) : json :=
  match e with
  | MissingControlInformation => VString (txt "MissingControlInformation")
  | InvalidControlInformation b => tagged "InvalidControlInformation" (VObject (always "byte" (VInt b)))
  | IdentificationNumberError digits number =>
      tagged "IdentificationNumberError"
        (VObject (always "digits" (VArray (map VInt digits)) ++ always "number" (VInt number)))
  | InvalidManufacturerCode code => tagged "InvalidManufacturerCode" (VObject (always "code" (VInt code)))
  | InsufficientData => VString (txt "InsufficientData")
  | Unimplemented => tagged "Unimplemented" (VObject (always "feature" (VString [])))
  end.
(** crates/m-bus-application-layer/src/lib.rs:748-755, [ShortTplHeader]; core lib.rs:684, [ConfigurationField] *)
Definition short_header_json (h : short_tpl_header) : json :=
  VObject (always "access_number" (VInt (sh_access_number h))
           ++ always "configuration_field" (VObject (always "raw" (VInt (sh_configuration_field h))))
           ++ always "status" (VString (status_flags (sh_status h)))).
(** crates/m-bus-application-layer/src/lib.rs:727-741, [LongTplHeader]; the manufacturer is a [Result] (never a panic) *)
Definition long_header_json (h : long_tpl_header) : json :=
  VObject (always "device_type" (device_json (lh_device_type h))
           ++ always "identification_number" (number_json (lh_identification_number h))
           ++ always "lsb_order" (VBool (lh_lsb_order h))
           ++ always "manufacturer"
                (match lh_manufacturer h with
                 | Ok c => tagged "Ok" (code_json c)
                 | Err e => tagged "Err" (application_error_json e)
                 | Panic _ => VNull
                 end)
           ++ always "short_tpl_header" (short_header_json (lh_short_tpl_header h))
           ++ always "version" (VInt (lh_version h))).
(** crates/m-bus-application-layer/src/extended_link_layer.rs:13-27 and 3-11 *)
Definition receiver_json (r : receiver_address) : json :=
  VObject (always "address" (VArray (map VInt (ra_address r))) ++ always "manufacturer" (VInt (ra_manufacturer r))).
Definition encryption_json (e : encryption_fields) : json :=
  VObject (always "payload_crc" (VInt (ef_payload_crc e)) ++ always "session_number" (VArray (map VInt (ef_session_number e)))).
Definition extended_json (e : extended_link_layer) : json :=
  VObject (always "access_number" (VInt (ell_access_number e))
           ++ always "communication_control" (VInt (ell_communication_control e))
           ++ always "encryption" (or_null encryption_json (ell_encryption e))
           ++ always "receiver_address" (or_null receiver_json (ell_receiver_address e))).
(** crates/m-bus-application-layer/src/lib.rs:435-456, [ApplicationResetSubcode] *)
Definition subcode_json (s : application_reset_subcode) : json :=
  match s with
  | ResetAll b => tagged "All" (VInt b)
  | ResetUserData b => tagged "UserData" (VInt b)
  | ResetSimpleBilling b => tagged "SimpleBilling" (VInt b)
  | ResetEnhancedBilling b => tagged "EnhancedBilling" (VInt b)
  | ResetMultiTariffBilling b => tagged "MultiTariffBilling" (VInt b)
  | ResetInstantaneousValues b => tagged "InstantaneousValues" (VInt b)
  | ResetLoadManagementValues b => tagged "LoadManagementValues" (VInt b)
  | ResetReserved1 b => tagged "Reserved1" (VInt b)
  | ResetInstallationStartup b => tagged "InstallationStartup" (VInt b)
  | ResetTesting b => tagged "Testing" (VInt b)
  | ResetCalibration b => tagged "Calibration" (VInt b)
  | ResetConfigurationUpdates b => tagged "ConfigurationUpdates" (VInt b)
  | ResetManufacturing b => tagged "Manufacturing" (VInt b)
  | ResetDevelopment b => tagged "Development" (VInt b)
  | ResetSelftest b => tagged "Selftest" (VInt b)
  | ResetReserved2 b => tagged "Reserved2" (VInt b)
  end.
(** crates/m-bus-application-layer/src/lib.rs:529-565, [UserDataBlock]; the data blocks are skipped.  [Counter]: 508-513. *)
Definition user_data_json (u : user_data_block) : json :=
  match u with
  | ResetAtApplicationLevel s => tagged "ResetAtApplicationLevel" (VObject (always "subcode" (subcode_json s)))
  | FixedDataStructure id access status device_and_unit counter1 counter2 =>
      tagged "FixedDataStructure"
        (VObject (always "access_number" (VInt access) ++ always "counter1" (VObject (always "count" (VInt counter1)))
                  ++ always "counter2" (VObject (always "count" (VInt counter2)))
                  ++ always "device_type_and_unit" (VInt device_and_unit) ++ always "identification_number" (number_json id)
                  ++ always "status" (VString (status_flags status))))
  | VariableLong ell h _ =>
      tagged "VariableDataStructureWithLongTplHeader"
        (VObject (always "extended_link_layer" (or_null extended_json ell) ++ always "long_tpl_header" (long_header_json h)))
  | VariableShort ell h _ =>
      tagged "VariableDataStructureWithShortTplHeader"
        (VObject (always "extended_link_layer" (or_null extended_json ell) ++ always "short_tpl_header" (short_header_json h)))
  | VariableNone ell _ =>
      tagged "VariableDataStructureWithoutTplHeader" (VObject (always "extended_link_layer" (or_null extended_json ell)))
  end.

(** ** The records *)

(** crates/m-bus-application-layer/src/data_information.rs:5-28 and 55-58: the extensions are an array of numbers *)
Definition dib_json (d : data_information_block) : json :=
  VObject (always "data_information_field" (VObject (always "data" (VInt (dib_dif d))))
           ++ always "data_information_field_extension" (or_null (fun l => VArray (map VInt l)) (dib_difes d))).
(** value_information.rs:99-106, 135-140, 148-153: the extensions are objects, the plain text an array of characters *)
Definition vib_json (v : value_information_block) : json :=
  VObject (always "plaintext_vife" (or_null (fun l => VArray (map (fun c => VString [c]) l)) (vib_plaintext v))
           ++ always "value_information" (VObject (always "data" (VInt (vib_vif v))))
           ++ always "value_information_extension"
                (or_null (fun l => VArray (map (fun b => VObject (always "data" (VInt b))) l)) (vib_vifes v))).
(** data_information.rs:885-894, [FunctionField] *)
Definition function_field_json (f : function_field) : json :=
  VString (txt match f with
               | InstantaneousValue => "InstantaneousValue"
               | MaximumValue => "MaximumValue"
               | MinimumValue => "MinimumValue"
               | ValueDuringErrorState => "ValueDuringErrorState"
               end).
(** data_information.rs:925-950, [DataFieldCoding] *)
Definition coding_json (c : data_field_coding) : json :=
  match c with
  | CNoData => VString (txt "NoData")
  | CInteger8Bit => VString (txt "Integer8Bit")
  | CInteger16Bit => VString (txt "Integer16Bit")
  | CInteger24Bit => VString (txt "Integer24Bit")
  | CInteger32Bit => VString (txt "Integer32Bit")
  | CReal32Bit => VString (txt "Real32Bit")
  | CInteger48Bit => VString (txt "Integer48Bit")
  | CInteger64Bit => VString (txt "Integer64Bit")
  | CSelectionForReadout => VString (txt "SelectionForReadout")
  | CBCD2Digit => VString (txt "BCD2Digit")
  | CBCD4Digit => VString (txt "BCD4Digit")
  | CBCD6Digit => VString (txt "BCD6Digit")
  | CBCD8Digit => VString (txt "BCD8Digit")
  | CVariableLength => VString (txt "VariableLength")
  | CBCDDigit12 => VString (txt "BCDDigit12")
  | CSpecialFunctions s => tagged "SpecialFunctions" (VString (debug_special_functions s))
  | CDateTypeG => VString (txt "DateTypeG")
  | CDateTimeTypeF => VString (txt "DateTimeTypeF")
  | CDateTimeTypeJ => VString (txt "DateTimeTypeJ")
  | CDateTimeTypeI => VString (txt "DateTimeTypeI")
  end.
(** data_information.rs:137-148 and 162-165, [DataInformation] *)
Definition data_information_json (d : data_information) : json :=
  VObject (always "data_field_coding" (coding_json (di_data_field_coding d))
           ++ always "data_information_extension" (if di_extension d then VObject [] else VNull)
           ++ always "device" (VInt (di_device d)) ++ always "function_field" (function_field_json (di_function_field d))
           ++ always "size" (VInt (di_size d)) ++ always "storage_number" (VInt (di_storage_number d))
           ++ always "tariff" (VInt (di_tariff d))).
(** value_information.rs:1288-1334, [UnitName]: the names of the variants *)
Definition unit_identifier (u : unit_name) : text :=
  txt match u with
      | UWatt => "Watt"
      | UReactiveWatt => "ReactiveWatt"
      | UApparentWatt => "ApparentWatt"
      | UJoul => "Joul"
      | UKilogram => "Kilogram"
      | UTonne => "Tonne"
      | UMeter => "Meter"
      | UFeet => "Feet"
      | UCelsius => "Celsius"
      | UKelvin => "Kelvin"
      | UBar => "Bar"
      | UHCA => "HCA"
      | UReserved => "Reserved"
      | UWithoutUnits => "WithoutUnits"
      | USecond => "Second"
      | UMinute => "Minute"
      | UHour => "Hour"
      | UDay => "Day"
      | UWeek => "Week"
      | UMonth => "Month"
      | UYear => "Year"
      | URevolution => "Revolution"
      | UIncrement => "Increment"
      | UInputPulseOnChannel0 => "InputPulseOnChannel0"
      | UOutputPulseOnChannel0 => "OutputPulseOnChannel0"
      | UInputPulseOnChannel1 => "InputPulseOnChannel1"
      | UOutputPulseOnChannel1 => "OutputPulseOnChannel1"
      | ULiter => "Liter"
      | UVolt => "Volt"
      | UAmpere => "Ampere"
      | ULocalMoneyCurrency => "LocalMoneyCurrency"
      | USymbol => "Symbol"
      | UBitTime => "BitTime"
      | UDecibelMilliWatt => "DecibelMilliWatt"
      | UPercent => "Percent"
      | UDegree => "Degree"
      | UHertz => "Hertz"
      | UHCAUnit => "HCAUnit"
      | UFahrenheit => "Fahrenheit"
      | UAmericanGallon => "AmericanGallon"
      | UCalorie => "Calorie"
      end.
(** value_information.rs:9-15, [Unit] *)
Definition unit_json (u : unit_) : json :=
  VObject (always "exponent" (VSigned (u_exponent u)) ++ always "name" (VString (unit_identifier (u_name u)))).
(** value_information.rs:986-993, [ValueInformation]; the labels have the names of [Debug] *)
Definition value_information_json (v : value_information) : json :=
  VObject (always "decimal_offset_exponent" (VSigned (vi_decimal_offset_exponent v))
           ++ always "decimal_scale_exponent" (VSigned (vi_decimal_scale_exponent v))
           ++ always "labels" (VArray (map (fun l => VString (label_identifier l)) (vi_labels v)))
           ++ always "units" (VArray (map unit_json (vi_units v)))).
(** data_information.rs:360-368, [SingleEveryOrInvalid] *)
Definition single_json {A} (f : A -> json) (x : single_every_or_invalid A) : json :=
  match x with
  | Single a => tagged "Single" (f a)
  | Every => tagged "Every" (VArray [])
  | Invalid => tagged "Invalid" (VArray [])
  end.
(** data_information.rs:315-332, [Month] *)
Definition month_json (m : month) : json := VString (month_identifier m).
(** data_information.rs:370-410, [DataType]; a text: 275-313; manufacturer specific data: in hexadecimal *)
Definition data_type_json (number : f64 -> text) (d : data_type) : json :=
  match d with
  | Text t => tagged "Text" (VString (decode_text_unit t))
  | Number x => tagged "Number" (float_json number x)
  | LossyNumber x => tagged "LossyNumber" (float_json number x)
  | Date day m year => tagged "Date" (VArray [single_json VInt day; single_json month_json m; single_json VInt year])
  | Time second minute hour =>
      tagged "Time" (VArray [single_json VInt second; single_json VInt minute; single_json VInt hour])
  | DateTime day m year hour minute =>
      tagged "DateTime" (VArray [single_json VInt day; single_json month_json m; single_json VInt year;
                                 single_json VInt hour; single_json VInt minute])
  | DateTimeWithSeconds day m year hour minute second =>
      tagged "DateTimeWithSeconds" (VArray [single_json VInt day; single_json month_json m; single_json VInt year;
                                            single_json VInt hour; single_json VInt minute; single_json VInt second])
  | ManufacturerSpecific l => tagged "ManufacturerSpecific" (VString (hex_string l))
  end.
(** data_information.rs:411-417, [Data] *)
Definition data_json (number : f64 -> text) (d : data) : json :=
  VObject (always "size" (VInt (d_size d)) ++ always "value" (or_null (data_type_json number) (d_value d))).
(** data_record.rs:7-33 and 146-152: the headers, and [DataRecord]; the raw bytes in hexadecimal *)
Definition raw_header_json (h : raw_data_record_header) : json :=
  VObject (always "data_information_block" (dib_json (rh_dib h))
           ++ always "value_information_block" (or_null vib_json (rh_vib h))).
Definition processed_header_json (h : processed_data_record_header) : json :=
  VObject (always "data_information" (or_null data_information_json (ph_data_information h))
           ++ always "value_information" (or_null value_information_json (ph_value_information h))).
Definition record_header_json (h : data_record_header) : json :=
  VObject (always "processed_data_record_header" (processed_header_json (drh_processed h))
           ++ always "raw_data_record_header" (raw_header_json (drh_raw h))).
Definition data_record_json (number : f64 -> text) (r : data_record) : json :=
  VObject (always "data" (data_json number (dr_data r)) ++ always "data_record_header" (record_header_json (dr_header r))
           ++ always "raw_bytes" (VString (hex_string (dr_raw_bytes r)))).

(** ** The summary *)

(** mbus_data.rs:201-211, [ManufacturerSummary] *)
Definition manufacturer_summary_json (m : manufacturer_summary) : json :=
  VObject (always "code" (VString (ms_code m))
           ++ match ms_info m with
              | Some (name, website, description) =>
                  always "description" (VString description) ++ always "name" (VString name) ++ always "website" (VString website)
              | None => []
              end).
(** mbus_data.rs:213-229, [RecordSummary] *)
Definition record_summary_json (number : f64 -> text) (r : record_summary) : json :=
  VObject (always "data_hex" (VString (rs_data_hex r)) ++ always "data_information" (VString (rs_data_information r))
           ++ always "display" (VString (rs_display r)) ++ if_some "exponent" VSigned (rs_exponent r)
           ++ always "header_hex" (VString (rs_header_hex r)) ++ if_some "quantity" VString (rs_quantity r)
           ++ if_some "unit" VString (rs_unit r) ++ if_some "value" (float_json number) (rs_value r)).
(** mbus_data.rs:172-199, [FrameSummary] *)
Definition summary_json (number : f64 -> text) (s : frame_summary) : json :=
  VObject (if_some "access_number" VInt (fs_access_number s) ++ if_some "address" VString (fs_address s)
           ++ always "decrypted" (VBool (fs_decrypted s)) ++ if_some "device_type" VString (fs_device_type s)
           ++ always "encrypted" (VBool (fs_encrypted s))
           ++ if_some "encrypted_payload_hex" VString (fs_encrypted_payload_hex s)
           ++ always "frame_type" (VString (fs_frame_type s)) ++ if_some "function" VString (fs_function s)
           ++ if_some "identification_number" VString (fs_identification_number s)
           ++ if_some "manufacturer" manufacturer_summary_json (fs_manufacturer s)
           ++ always "records" (VArray (map (record_summary_json number) (fs_records s)))
           ++ if_some "security_mode" VString (fs_security_mode s) ++ if_some "status" VString (fs_status s)
           ++ if_some "version" VInt (fs_version s)).

(** mbus_data.rs:508-516, the JSON of [build_output]: [MbusData] (mbus_data.rs:10-24; the application error is skipped),
    with the summary *)
Definition older_json (number : f64 -> text) (o : parsed_output) : json :=
  VObject (always "data_records" (or_null (fun l => VArray (map (data_record_json number) l)) (po_records o))
           ++ always "frame" (any_frame_json (po_frame o)) ++ always "summary" (summary_json number (po_summary o))
           ++ always "user_data" (or_null user_data_json (po_user_data o))).
