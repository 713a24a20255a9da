(** Model of crates/m-bus-application-layer/src/lib.rs (the application layer) and
    crates/m-bus-application-layer/src/extended_link_layer.rs. *)
From Verif Require Import Model.Base Model.Core Model.DataInfo Model.Record Model.Decrypt.

(** crates/m-bus-application-layer/src/lib.rs:300-359 *)
Inductive control_information :=
| CISendData
| CISelectSlave
| CIResetAtApplicationLevel
| CISynchronizeSlave
| CISetBaudRate300
| CISetBaudRate600
| CISetBaudRate1200
| CISetBaudRate2400
| CISetBaudRate4800
| CISetBaudRate9600
| CISetBaudRate19200
| CISetBaudRate38400
| CIOutputRAMContent
| CIWriteRAMContent
| CIStartCalibrationTestMode
| CIReadEEPROM
| CIStartSoftwareTest
| CIHashProcedure (b : N)
| CISendErrorStatus
| CISendAlarmStatus
| CIResponseWithVariableDataStructure (lsb_order : bool)
| CIResponseWithFixedDataStructure
| CIDataSentWithShortTransportLayer
| CIDataSentWithLongTransportLayer
| CICosemDataWithLongTransportLayer
| CICosemDataWithShortTransportLayer
| CIObisDataReservedLongTransportLayer
| CIObisDataReservedShortTransportLayer
| CIApplicationLayerFormatFrameNoTransport
| CIApplicationLayerFormatFrameShortTransport
| CIApplicationLayerFormatFrameLongTransport
| CIClockSyncAbsolute
| CIClockSyncRelative
| CIApplicationErrorShortTransport
| CIApplicationErrorLongTransport
| CIAlarmShortTransport
| CIAlarmLongTransport
| CIApplicationLayerNoTransport
| CIApplicationLayerCompactFrameNoTransport
| CIApplicationLayerShortTransport
| CIApplicationLayerCompactFrameShortTransport
| CICosemApplicationLayerLongTransport
| CICosemApplicationLayerShortTransport
| CIObisApplicationLayerReservedLongTransport
| CIObisApplicationLayerReservedShortTransport
| CITransportLayerLongReadoutToMeter
| CINetworkLayerData
| CIFutureUse
| CINetworkManagementApplication
| CITransportLayerCompactFrame
| CITransportLayerFormatFrame
| CINetworkManagementDataReserved
| CITransportLayerShortMeterToReadout
| CITransportLayerLongMeterToReadout
| CIExtendedLinkLayerI
| CIExtendedLinkLayerII
| CIExtendedLinkLayerIII.

(** lib.rs:361-433, [ControlInformation::from]; transcribed mechanically, one [if]
    per arm in source order *)
Definition control_information_from (b : N) : outcome application_layer_error control_information :=
  if b =? 0x50 then Ok CIResetAtApplicationLevel else
  if b =? 0x51 then Ok CISendData else
  if b =? 0x52 then Ok CISelectSlave else
  if b =? 0x54 then Ok CISynchronizeSlave else
  if b =? 0x5A then Ok CIDataSentWithShortTransportLayer else
  if b =? 0x5B then Ok CIDataSentWithLongTransportLayer else
  if b =? 0x60 then Ok CICosemDataWithLongTransportLayer else
  if b =? 0x61 then Ok CICosemDataWithShortTransportLayer else
  if b =? 0x64 then Ok CIObisDataReservedLongTransportLayer else
  if b =? 0x65 then Ok CIObisDataReservedShortTransportLayer else
  if b =? 0x69 then Ok CIApplicationLayerFormatFrameNoTransport else
  if b =? 0x6A then Ok CIApplicationLayerFormatFrameShortTransport else
  if b =? 0x6B then Ok CIApplicationLayerFormatFrameLongTransport else
  if b =? 0x6C then Ok CIClockSyncAbsolute else
  if b =? 0x6D then Ok CIClockSyncRelative else
  if b =? 0x6E then Ok CIApplicationErrorShortTransport else
  if b =? 0x6F then Ok CIApplicationErrorLongTransport else
  if b =? 0x70 then Ok CISendErrorStatus else
  if b =? 0x71 then Ok CISendAlarmStatus else
  if (b =? 0x72) || (b =? 0x76) then Ok (CIResponseWithVariableDataStructure (negb (N.land b 0x04 =? 0))) else
  if (b =? 0x73) || (b =? 0x77) then Ok CIResponseWithFixedDataStructure else
  if b =? 0x74 then Ok CIAlarmShortTransport else
  if b =? 0x75 then Ok CIAlarmLongTransport else
  if b =? 0x78 then Ok CIApplicationLayerNoTransport else
  if b =? 0x79 then Ok CIApplicationLayerCompactFrameNoTransport else
  if b =? 0x7A then Ok CIApplicationLayerShortTransport else
  if b =? 0x7B then Ok CIApplicationLayerCompactFrameShortTransport else
  if b =? 0x7C then Ok CICosemApplicationLayerLongTransport else
  if b =? 0x7D then Ok CICosemApplicationLayerShortTransport else
  if b =? 0x7E then Ok CIObisApplicationLayerReservedLongTransport else
  if b =? 0x7F then Ok CIObisApplicationLayerReservedShortTransport else
  if b =? 0x80 then Ok CITransportLayerLongReadoutToMeter else
  if b =? 0x81 then Ok CINetworkLayerData else
  if b =? 0x82 then Ok CIFutureUse else
  if b =? 0x83 then Ok CINetworkManagementApplication else
  if b =? 0x84 then Ok CITransportLayerCompactFrame else
  if b =? 0x85 then Ok CITransportLayerFormatFrame else
  if b =? 0x89 then Ok CINetworkManagementDataReserved else
  if b =? 0x8A then Ok CITransportLayerShortMeterToReadout else
  if b =? 0x8B then Ok CITransportLayerLongMeterToReadout else
  if b =? 0x8C then Ok CIExtendedLinkLayerI else
  if b =? 0x8D then Ok CIExtendedLinkLayerII else
  if b =? 0x8E then Ok CIExtendedLinkLayerIII else
  if (0x90 <=? b) && (b <=? 0x97) then Ok (CIHashProcedure (b - 0x90)) else
  if (0xA0 <=? b) && (b <=? 0xAF) then Ok CIApplicationLayerShortTransport else
  if b =? 0xB1 then Ok CIOutputRAMContent else
  if b =? 0xB2 then Ok CIWriteRAMContent else
  if b =? 0xB3 then Ok CIStartCalibrationTestMode else
  if b =? 0xB4 then Ok CIReadEEPROM else
  if b =? 0xB6 then Ok CIStartSoftwareTest else
  if b =? 0xB8 then Ok CISetBaudRate300 else
  if b =? 0xB9 then Ok CISetBaudRate600 else
  if b =? 0xBA then Ok CISetBaudRate1200 else
  if b =? 0xBB then Ok CISetBaudRate2400 else
  if b =? 0xBC then Ok CISetBaudRate4800 else
  if b =? 0xBD then Ok CISetBaudRate9600 else
  if b =? 0xBE then Ok CISetBaudRate19200 else
  if b =? 0xBF then Ok CISetBaudRate38400 else
  Err (InvalidControlInformation b).

(** lib.rs:225-228 *)
Inductive direction := SlaveToMaster | MasterToSlave.

(** lib.rs:231-295, [From<ControlInformation> for Direction] *)
Definition direction_from (c : control_information) : direction :=
  match c with
  | CIResetAtApplicationLevel => MasterToSlave
  | CISendData => MasterToSlave
  | CISelectSlave => MasterToSlave
  | CISynchronizeSlave => MasterToSlave
  | CISetBaudRate300 => MasterToSlave
  | CISetBaudRate600 => MasterToSlave
  | CISetBaudRate1200 => MasterToSlave
  | CISetBaudRate2400 => MasterToSlave
  | CISetBaudRate4800 => MasterToSlave
  | CISetBaudRate9600 => MasterToSlave
  | CISetBaudRate19200 => MasterToSlave
  | CISetBaudRate38400 => MasterToSlave
  | CIOutputRAMContent => MasterToSlave
  | CIWriteRAMContent => MasterToSlave
  | CIStartCalibrationTestMode => MasterToSlave
  | CIReadEEPROM => MasterToSlave
  | CIStartSoftwareTest => MasterToSlave
  | CIHashProcedure _ => MasterToSlave
  | CISendErrorStatus => SlaveToMaster
  | CISendAlarmStatus => SlaveToMaster
  | CIResponseWithVariableDataStructure _ => SlaveToMaster
  | CIResponseWithFixedDataStructure => SlaveToMaster
  | CIDataSentWithShortTransportLayer => MasterToSlave
  | CIDataSentWithLongTransportLayer => MasterToSlave
  | CICosemDataWithLongTransportLayer => MasterToSlave
  | CICosemDataWithShortTransportLayer => MasterToSlave
  | CIObisDataReservedLongTransportLayer => MasterToSlave
  | CIObisDataReservedShortTransportLayer => MasterToSlave
  | CIApplicationLayerFormatFrameNoTransport => MasterToSlave
  | CIApplicationLayerFormatFrameShortTransport => MasterToSlave
  | CIApplicationLayerFormatFrameLongTransport => MasterToSlave
  | CIClockSyncAbsolute => MasterToSlave
  | CIClockSyncRelative => MasterToSlave
  | CIApplicationErrorShortTransport => SlaveToMaster
  | CIApplicationErrorLongTransport => SlaveToMaster
  | CIAlarmShortTransport => SlaveToMaster
  | CIAlarmLongTransport => SlaveToMaster
  | CIApplicationLayerNoTransport => SlaveToMaster
  | CIApplicationLayerCompactFrameNoTransport => SlaveToMaster
  | CIApplicationLayerShortTransport => SlaveToMaster
  | CIApplicationLayerCompactFrameShortTransport => SlaveToMaster
  | CICosemApplicationLayerLongTransport => SlaveToMaster
  | CICosemApplicationLayerShortTransport => SlaveToMaster
  | CIObisApplicationLayerReservedLongTransport => SlaveToMaster
  | CIObisApplicationLayerReservedShortTransport => SlaveToMaster
  | CITransportLayerLongReadoutToMeter => MasterToSlave
  | CINetworkLayerData => MasterToSlave
  | CIFutureUse => MasterToSlave
  | CINetworkManagementApplication => MasterToSlave
  | CITransportLayerCompactFrame => MasterToSlave
  | CITransportLayerFormatFrame => MasterToSlave
  | CINetworkManagementDataReserved => MasterToSlave
  | CITransportLayerShortMeterToReadout => SlaveToMaster
  | CITransportLayerLongMeterToReadout => SlaveToMaster
  | CIExtendedLinkLayerI => SlaveToMaster
  | CIExtendedLinkLayerII => SlaveToMaster
  | CIExtendedLinkLayerIII => SlaveToMaster
  end.

(** lib.rs:439-456 *)
Inductive application_reset_subcode :=
| ResetAll (b : N)
| ResetUserData (b : N)
| ResetSimpleBilling (b : N)
| ResetEnhancedBilling (b : N)
| ResetMultiTariffBilling (b : N)
| ResetInstantaneousValues (b : N)
| ResetLoadManagementValues (b : N)
| ResetReserved1 (b : N)
| ResetInstallationStartup (b : N)
| ResetTesting (b : N)
| ResetCalibration (b : N)
| ResetConfigurationUpdates (b : N)
| ResetManufacturing (b : N)
| ResetDevelopment (b : N)
| ResetSelftest (b : N)
| ResetReserved2 (b : N).

(** lib.rs:483-506, [ApplicationResetSubcode::from] *)
Definition reset_subcode_from (value : N) : application_reset_subcode :=
  let c := N.land value 0xF in
  if c =? 0 then ResetAll value else
  if c =? 1 then ResetUserData value else
  if c =? 2 then ResetSimpleBilling value else
  if c =? 3 then ResetEnhancedBilling value else
  if c =? 4 then ResetMultiTariffBilling value else
  if c =? 5 then ResetInstantaneousValues value else
  if c =? 6 then ResetLoadManagementValues value else
  if c =? 7 then ResetReserved1 value else
  if c =? 8 then ResetInstallationStartup value else
  if c =? 9 then ResetTesting value else
  if c =? 10 then ResetCalibration value else
  if c =? 11 then ResetConfigurationUpdates value else
  if c =? 12 then ResetManufacturing value else
  if c =? 13 then ResetDevelopment value else
  if c =? 14 then ResetSelftest value else
  ResetReserved2 value.

(** extended_link_layer.rs:16-19, 24-27, 6-11 *)
Record receiver_address := { ra_manufacturer : N; ra_address : list N }.
Record encryption_fields := { ef_session_number : list N; ef_payload_crc : N }.
Record extended_link_layer := {
  ell_communication_control : N;
  ell_access_number : N;
  ell_receiver_address : option receiver_address;
  ell_encryption : option encryption_fields
}.

(** extended_link_layer.rs:30-37 *)
Inductive ell_format := FormatI | FormatII | FormatIII.

(** extended_link_layer.rs:49-63, [parse_format_i] *)
Definition ell_parse_format_i (data : list N)
  : outcome application_layer_error (extended_link_layer * N) :=
  if len data <? 2 then Err InsufficientData else
  d0 <- index data 0 ;; d1 <- index data 1 ;;
  Ok ({| ell_communication_control := d0; ell_access_number := d1;
         ell_receiver_address := None; ell_encryption := None |}, 2).

(** extended_link_layer.rs:65-82, [parse_format_ii] *)
Definition ell_parse_format_ii (data : list N)
  : outcome application_layer_error (extended_link_layer * N) :=
  if len data <? 8 then Err InsufficientData else
  d0 <- index data 0 ;; d1 <- index data 1 ;; d2 <- index data 2 ;; d3 <- index data 3 ;;
  d4 <- index data 4 ;; d5 <- index data 5 ;; d6 <- index data 6 ;; d7 <- index data 7 ;;
  Ok ({| ell_communication_control := d0; ell_access_number := d1;
         ell_receiver_address := None;
         ell_encryption := Some {| ef_session_number := [d2; d3; d4; d5];
                                   ef_payload_crc := u16_le d6 d7 |} |}, 8).

(** extended_link_layer.rs:84-104, [parse_format_iii] *)
Definition ell_parse_format_iii (data : list N)
  : outcome application_layer_error (extended_link_layer * N) :=
  if len data <? 16 then Err InsufficientData else
  d0 <- index data 0 ;; d1 <- index data 1 ;; d2 <- index data 2 ;; d3 <- index data 3 ;;
  d4 <- index data 4 ;; d5 <- index data 5 ;; d6 <- index data 6 ;; d7 <- index data 7 ;;
  d8 <- index data 8 ;; d9 <- index data 9 ;; d10 <- index data 10 ;; d11 <- index data 11 ;;
  d12 <- index data 12 ;; d13 <- index data 13 ;; d14 <- index data 14 ;; d15 <- index data 15 ;;
  Ok ({| ell_communication_control := d0; ell_access_number := d1;
         ell_receiver_address := Some {| ra_manufacturer := u16_le d2 d3;
                                         ra_address := [d4; d5; d6; d7; d8; d9] |};
         ell_encryption := Some {| ef_session_number := [d10; d11; d12; d13];
                                   ef_payload_crc := u16_le d14 d15 |} |}, 16).

(** extended_link_layer.rs:39-47, [ExtendedLinkLayer::parse] *)
Definition ell_parse (data : list N) (f : ell_format)
  : outcome application_layer_error (extended_link_layer * N) :=
  match f with
  | FormatI => ell_parse_format_i data
  | FormatII => ell_parse_format_ii data
  | FormatIII => ell_parse_format_iii data
  end.

(** lib.rs:534-565; [Counter] (511-513) is its u32, [StatusField] its bits *)
Inductive user_data_block :=
| ResetAtApplicationLevel (subcode : application_reset_subcode)
| FixedDataStructure (identification_number access_number status device_type_and_unit
                      counter1 counter2 : N)
| VariableLong (ell : option extended_link_layer) (h : long_tpl_header) (block : list N)
| VariableShort (ell : option extended_link_layer) (h : short_tpl_header) (block : list N)
| VariableNone (ell : option extended_link_layer) (block : list N).

(** lib.rs:768-777, [ShortTplHeader::is_encrypted]: [!matches!(mode, NoEncryption)] *)
Definition short_is_encrypted (h : short_tpl_header) : bool :=
  match configuration_security_mode (sh_configuration_field h) with
  | NoEncryption => false
  | _ => true
  end.

(** lib.rs:757-766, [LongTplHeader::is_encrypted] *)
Definition long_is_encrypted (h : long_tpl_header) : bool :=
  short_is_encrypted (lh_short_tpl_header h).

(** lib.rs:858-906, arm [ResponseWithVariableDataStructure].  [iter] starts at byte 1;
    the struct fields are evaluated in source order. *)
Definition parse_long_tpl (data : list N) (lsb_order : bool)
  : outcome application_layer_error user_data_block :=
  let next i := ok_or (get data i) InsufficientData in
  b1 <- next 1 ;; b2 <- next 2 ;; b3 <- next 3 ;; b4 <- next 4 ;;
  let id := if lsb_order then [b4; b3; b2; b1] else [b1; b2; b3; b4] in
  number <- bcd_hex_digits_to_u32 id ;;
  b5 <- next 5 ;; b6 <- next 6 ;;
  b7 <- next 7 ;; b8 <- next 8 ;; b9 <- next 9 ;; b10 <- next 10 ;;
  b11 <- next 11 ;; b12 <- next 12 ;;
  block <- ok_or (get_range data 13 (len data)) InsufficientData ;;
  Ok (VariableLong None
        {| lh_identification_number := number;
           lh_manufacturer := mc_from_id (u16_le b5 b6);
           lh_version := b7;
           lh_device_type := device_type_from_u8 b8;
           lh_short_tpl_header :=
             {| sh_access_number := b9; sh_status := b10;
                sh_configuration_field := configuration_field_from_bytes b11 b12 |};
           lh_lsb_order := lsb_order |} block).

(** lib.rs:907-945, arm [ResponseWithFixedDataStructure] *)
Definition parse_fixed (data : list N) : outcome application_layer_error user_data_block :=
  let next i := ok_or (get data i) InsufficientData in
  b1 <- next 1 ;; b2 <- next 2 ;; b3 <- next 3 ;; b4 <- next 4 ;;
  number <- bcd_hex_digits_to_u32 [b1; b2; b3; b4] ;;
  b5 <- next 5 ;; b6 <- next 6 ;; b7 <- next 7 ;; b8 <- next 8 ;;
  b9 <- next 9 ;; b10 <- next 10 ;; b11 <- next 11 ;; b12 <- next 12 ;;
  counter1 <- bcd_hex_digits_to_u32 [b9; b10; b11; b12] ;;
  b13 <- next 13 ;; b14 <- next 14 ;; b15 <- next 15 ;; b16 <- next 16 ;;
  counter2 <- bcd_hex_digits_to_u32 [b13; b14; b15; b16] ;;
  Ok (FixedDataStructure number b5 b6 (u16_be b7 b8) counter1 counter2).

(** lib.rs:1026-1057, arm [ApplicationLayerShortTransport] *)
Definition parse_short_tpl (data : list N) : outcome application_layer_error user_data_block :=
  b0 <- index data 0 ;;
  let has_encryption_config_byte := b0 =? 0xA0 in
  let skip_count := if has_encryption_config_byte then 2 else 1 in
  let data_block_offset := if has_encryption_config_byte then 6 else 5 in
  let next i := ok_or (get data (skip_count + i)) InsufficientData in
  a <- next 0 ;; s <- next 1 ;; c0 <- next 2 ;; c1 <- next 3 ;;
  block <- ok_or (get_range data data_block_offset (len data)) InsufficientData ;;
  Ok (VariableShort None
        {| sh_access_number := a; sh_status := s;
           sh_configuration_field := configuration_field_from_bytes c0 c1 |} block).

(** lib.rs:1155-1179 and 1180-1204, arms [ExtendedLinkLayerII] and
    [ExtendedLinkLayerIII] *)
Definition parse_ell_short (data : list N) (f : ell_format)
  : outcome application_layer_error user_data_block :=
  rest <- ok_or (get_from data 1) InsufficientData ;;
  '(ell, ell_size) <- ell_parse rest f ;;
  let app_data_offset := 1 + ell_size in
  block <- ok_or (get_from data app_data_offset) InsufficientData ;;
  Ok (VariableShort (Some ell)
        {| sh_access_number := ell_access_number ell;
           sh_status := ell_communication_control ell;
           sh_configuration_field := configuration_field_from_bytes 0 0 |} block).

(** lib.rs:779-1207, [TryFrom<&[u8]> for UserDataBlock].  The 49 control informations
    whose arm is [Err(Unimplemented)] share the last case.  The recursion of the
    ELL I arm (1124-1154) is on the slice after three bytes. *)
Fixpoint user_data_try_from (data : list N) : outcome application_layer_error user_data_block :=
  match data with
  | [] => Err MissingControlInformation
  | first :: tail =>
      ci <- control_information_from first ;;
      match ci with
      | CIResetAtApplicationLevel =>
          b <- ok_or (get data 1) InsufficientData ;;
          Ok (ResetAtApplicationLevel (reset_subcode_from b))
      | CIResponseWithVariableDataStructure lsb_order => parse_long_tpl data lsb_order
      | CIResponseWithFixedDataStructure => parse_fixed data
      | CIApplicationLayerNoTransport =>
          block <- ok_or (get_range data 1 (len data)) InsufficientData ;;
          Ok (VariableNone None block)
      | CIApplicationLayerShortTransport => parse_short_tpl data
      | CIExtendedLinkLayerI =>
          match tail with
          | cc :: acc :: rest =>
              let ell := Some {| ell_communication_control := cc; ell_access_number := acc;
                                 ell_receiver_address := None; ell_encryption := None |} in
              match user_data_try_from rest with
              | Ok (VariableShort _ h block) => Ok (VariableShort ell h block)
              | Ok (VariableNone _ block) => Ok (VariableNone ell block)
              | Panic p => Panic p
              | _ => Err MissingControlInformation
              end
          | _ => Err InsufficientData
          end
      | CIExtendedLinkLayerII => parse_ell_short data FormatII
      | CIExtendedLinkLayerIII => parse_ell_short data FormatIII
      | _ => Err Unimplemented
      end
  end.

(** lib.rs:573-594, [UserDataBlock::data_records] *)
Definition user_data_records (u : user_data_block) : option data_records :=
  match u with
  | VariableLong _ h block =>
      if negb (long_is_encrypted h) then Some (records_new block (Some h)) else None
  | VariableShort _ h block =>
      if negb (short_is_encrypted h) then Some (records_new block None) else None
  | VariableNone _ block => Some (records_new block None)
  | _ => None
  end.

(** lib.rs:597-604, [UserDataBlock::is_encrypted] *)
Definition user_data_is_encrypted (u : user_data_block) : option bool :=
  match u with
  | VariableLong _ h _ => Some (long_is_encrypted h)
  | _ => None
  end.

(** lib.rs:608-624, [UserDataBlock::variable_data_len] *)
Definition variable_data_len (u : user_data_block) : N :=
  match u with
  | VariableLong _ _ block => len block
  | VariableShort _ _ block => len block
  | VariableNone _ block => len block
  | _ => 0
  end.

Section Cipher.
Variable aes_decrypt_block : list N -> list N -> list N.
(** the caller's [KeyProvider::get_key] *)
Variable get_key : key_context -> outcome decryption_error (list N).

(** lib.rs:627-678, [decrypt_variable_data]; result and output buffer *)
Definition decrypt_variable_data (u : user_data_block) (output : list N)
  : outcome decryption_error N * list N :=
  match u with
  | VariableLong _ h block =>
      if negb (long_is_encrypted h) then (Err NotEncrypted, output) else
      match lh_manufacturer h with
      | Ok m =>
          decrypt_into aes_decrypt_block get_key block
            {| kc_manufacturer := m;
               kc_identification_number := lh_identification_number h;
               kc_version := lh_version h;
               kc_device_type := lh_device_type h;
               kc_security_mode := configuration_security_mode
                                     (sh_configuration_field (lh_short_tpl_header h));
               kc_access_number := sh_access_number (lh_short_tpl_header h) |} output
      | Err _ => (Err DecryptionFailed, output)
      | Panic p => (Panic p, output)
      end
  | VariableShort _ h _ =>
      if negb (short_is_encrypted h) then (Err NotEncrypted, output)
      else (Err UnknownEncryptionState, output)
  | _ => (Err UnknownEncryptionState, output)
  end.

(** lib.rs:683-724, [decrypt_variable_data_with_context] *)
Definition decrypt_variable_data_with_context (u : user_data_block)
  (manufacturer : manufacturer_code) (identification_number version : N)
  (dt : device_type) (output : list N) : outcome decryption_error N * list N :=
  match u with
  | VariableShort _ h block =>
      if negb (short_is_encrypted h) then (Err NotEncrypted, output) else
      decrypt_into aes_decrypt_block get_key block
        {| kc_manufacturer := manufacturer;
           kc_identification_number := identification_number;
           kc_version := version;
           kc_device_type := dt;
           kc_security_mode := configuration_security_mode (sh_configuration_field h);
           kc_access_number := sh_access_number h |} output
  | VariableLong _ _ _ => decrypt_variable_data u output
  | _ => (Err UnknownEncryptionState, output)
  end.
End Cipher.
