(** The application layer of EN 13757-3 and the extended link layer of EN 13757-4, written
    without reference to the parser. *)
From Coq Require Import List NArith.
Import ListNotations.
From Verif Require Import Model.Base Model.Core Model.DataInfo Model.UserData Spec.CoreSpec.
Open Scope N_scope.

(** control information bytes *)
Definition control_codes : list (N * control_information) :=
  [ (0x50, CIResetAtApplicationLevel); (0x51, CISendData);
    (0x52, CISelectSlave); (0x54, CISynchronizeSlave);
    (0x5A, CIDataSentWithShortTransportLayer); (0x5B, CIDataSentWithLongTransportLayer);
    (0x60, CICosemDataWithLongTransportLayer); (0x61, CICosemDataWithShortTransportLayer);
    (0x64, CIObisDataReservedLongTransportLayer); (0x65, CIObisDataReservedShortTransportLayer);
    (0x69, CIApplicationLayerFormatFrameNoTransport); (0x6A, CIApplicationLayerFormatFrameShortTransport);
    (0x6B, CIApplicationLayerFormatFrameLongTransport); (0x6C, CIClockSyncAbsolute);
    (0x6D, CIClockSyncRelative); (0x6E, CIApplicationErrorShortTransport);
    (0x6F, CIApplicationErrorLongTransport); (0x70, CISendErrorStatus);
    (0x71, CISendAlarmStatus); (0x72, CIResponseWithVariableDataStructure false);
    (0x76, CIResponseWithVariableDataStructure true); (0x73, CIResponseWithFixedDataStructure);
    (0x77, CIResponseWithFixedDataStructure); (0x74, CIAlarmShortTransport);
    (0x75, CIAlarmLongTransport); (0x78, CIApplicationLayerNoTransport);
    (0x79, CIApplicationLayerCompactFrameNoTransport); (0x7A, CIApplicationLayerShortTransport);
    (0x7B, CIApplicationLayerCompactFrameShortTransport); (0x7C, CICosemApplicationLayerLongTransport);
    (0x7D, CICosemApplicationLayerShortTransport); (0x7E, CIObisApplicationLayerReservedLongTransport);
    (0x7F, CIObisApplicationLayerReservedShortTransport); (0x80, CITransportLayerLongReadoutToMeter);
    (0x81, CINetworkLayerData); (0x82, CIFutureUse);
    (0x83, CINetworkManagementApplication); (0x84, CITransportLayerCompactFrame);
    (0x85, CITransportLayerFormatFrame); (0x89, CINetworkManagementDataReserved);
    (0x8A, CITransportLayerShortMeterToReadout); (0x8B, CITransportLayerLongMeterToReadout);
    (0x8C, CIExtendedLinkLayerI); (0x8D, CIExtendedLinkLayerII);
    (0x8E, CIExtendedLinkLayerIII); (0x90, CIHashProcedure 0);
    (0x91, CIHashProcedure 1); (0x92, CIHashProcedure 2);
    (0x93, CIHashProcedure 3); (0x94, CIHashProcedure 4);
    (0x95, CIHashProcedure 5); (0x96, CIHashProcedure 6);
    (0x97, CIHashProcedure 7); (0xA0, CIApplicationLayerShortTransport);
    (0xA1, CIApplicationLayerShortTransport); (0xA2, CIApplicationLayerShortTransport);
    (0xA3, CIApplicationLayerShortTransport); (0xA4, CIApplicationLayerShortTransport);
    (0xA5, CIApplicationLayerShortTransport); (0xA6, CIApplicationLayerShortTransport);
    (0xA7, CIApplicationLayerShortTransport); (0xA8, CIApplicationLayerShortTransport);
    (0xA9, CIApplicationLayerShortTransport); (0xAA, CIApplicationLayerShortTransport);
    (0xAB, CIApplicationLayerShortTransport); (0xAC, CIApplicationLayerShortTransport);
    (0xAD, CIApplicationLayerShortTransport); (0xAE, CIApplicationLayerShortTransport);
    (0xAF, CIApplicationLayerShortTransport); (0xB1, CIOutputRAMContent);
    (0xB2, CIWriteRAMContent); (0xB3, CIStartCalibrationTestMode);
    (0xB4, CIReadEEPROM); (0xB6, CIStartSoftwareTest);
    (0xB8, CISetBaudRate300); (0xB9, CISetBaudRate600);
    (0xBA, CISetBaudRate1200); (0xBB, CISetBaudRate2400);
    (0xBC, CISetBaudRate4800); (0xBD, CISetBaudRate9600);
    (0xBE, CISetBaudRate19200); (0xBF, CISetBaudRate38400) ].

(** reset sub-codes, by the low half of the byte *)
Definition reset_codes : list (N -> application_reset_subcode) :=
  [ ResetAll; ResetUserData; ResetSimpleBilling; ResetEnhancedBilling;
    ResetMultiTariffBilling; ResetInstantaneousValues; ResetLoadManagementValues; ResetReserved1;
    ResetInstallationStartup; ResetTesting; ResetCalibration; ResetConfigurationUpdates;
    ResetManufacturing; ResetDevelopment; ResetSelftest; ResetReserved2 ].

(** security modes, by number; the modes 16-31 have no name *)
Definition security_codes : list security_mode :=
  [ NoEncryption; SecManufacturerSpecific; DesIvZero; DesIvNonZero; SpecificUsage4;
    AesCbc128IvNonZero; Reserved6; AesCbc128IvZero; AesCtr128Cmac; AesGcm128; AesCcm128;
    Reserved11; Reserved12; SpecificUsage13; Reserved14; SpecificUsage15 ].

(** device types: the named ones up to 1C, and [device_ranges] for the others *)
Definition device_codes : list device_type :=
  [ DevOther; DevOilMeter; DevElectricityMeter; DevGasMeter; DevHeatMeterReturn; DevSteamMeter;
    DevWarmWaterMeter; DevWaterMeter; DevHeatCostAllocator; DevCompressedAir; DevCoolingMeterReturn;
    DevCoolingMeterFlow; DevHeatMeterFlow; DevCombinedHeatCoolingMeter; DevBusSystemComponent;
    DevUnknownDevice; DevIrrigationWaterMeter; DevWaterDataLogger; DevGasDataLogger; DevGasConverter;
    DevCalorificValue; DevHotWaterMeter; DevColdWaterMeter; DevDualRegisterWaterMeter;
    DevPressureMeter; DevAdConverter; DevSmokeDetector; DevRoomSensor; DevGasDetector ].
Definition device_code (b : N) : device_type :=
  if b <=? 0x1C then nth (N.to_nat b) device_codes DevWildcard
  else if b <=? 0x1F then DevReservedSensor b
  else if b =? 0x20 then DevElectricityBreaker
  else if b =? 0x21 then DevValve
  else if b <=? 0x24 then DevReservedSwitch b
  else if b =? 0x25 then DevCustomerUnit
  else if b <=? 0x27 then DevReservedCustomer b
  else if b =? 0x28 then DevWasteWaterMeter
  else if b =? 0x29 then DevGarbage
  else if b =? 0x2A then DevReservedCO2
  else if b <=? 0x2F then DevReservedEnvironmental b
  else if b =? 0x30 then DevServiceTool
  else if b =? 0x31 then DevCommunicationController
  else if b =? 0x32 then DevUnidirectionalRepeater
  else if b =? 0x33 then DevBidirectionalRepeater
  else if b <=? 0x35 then DevReservedSystem b
  else if b =? 0x36 then DevRadioConverterSystemSide
  else if b =? 0x37 then DevRadioConverterMeterSide
  else if b =? 0x38 then DevBusConverterMeterSide
  else if b <=? 0x3F then DevReservedSystem b
  else if b <=? 0xFE then DevReserved b
  else DevWildcard.

(** the result of reading a manufacturer id: its three letters, or an error with the id *)
Definition manufacturer_read (id : N) (m : outcome application_layer_error manufacturer_code) : Prop :=
  (exists a b c, capital a /\ capital b /\ capital c /\ id = flag_id a b c /\
     m = Ok {| mc1 := a; mc2 := b; mc3 := c |}) \/
  ((forall a b c, capital a -> capital b -> capital c -> id <> flag_id a b c) /\
   m = Err (InvalidManufacturerCode id)).

(** the number spelled by packed decimal bytes *)
Definition bcd_number (bytes : list N) (n : N) : Prop :=
  exists digits, spells digits bytes /\ n = decimal digits.

(** the long transport header: identification number, manufacturer, version, device type,
    then the short header: access number, status, configuration *)
Definition short_header (acc st c0 c1 : N) : short_tpl_header :=
  {| sh_access_number := acc; sh_status := st; sh_configuration_field := c0 + 256 * c1 |}.
Definition long_header (ci : N) (id : list N) (m0 m1 v d acc st c0 c1 : N) (h : long_tpl_header) : Prop :=
  bcd_number (if ci =? 0x76 then rev id else id) (lh_identification_number h) /\
  manufacturer_read (m0 + 256 * m1) (lh_manufacturer h) /\
  lh_version h = v /\ lh_device_type h = device_code d /\
  lh_short_tpl_header h = short_header acc st c0 c1 /\
  lh_lsb_order h = (ci =? 0x76).

(** the extended link layer headers, after their control information byte *)
Definition ell_i (cc acc : N) : extended_link_layer :=
  {| ell_communication_control := cc; ell_access_number := acc;
     ell_receiver_address := None; ell_encryption := None |}.
Definition ell_ii (cc acc : N) (session : list N) (p0 p1 : N) : extended_link_layer :=
  {| ell_communication_control := cc; ell_access_number := acc; ell_receiver_address := None;
     ell_encryption := Some {| ef_session_number := session; ef_payload_crc := p0 + 256 * p1 |} |}.
Definition ell_iii (cc acc m0 m1 : N) (address session : list N) (p0 p1 : N) : extended_link_layer :=
  {| ell_communication_control := cc; ell_access_number := acc;
     ell_receiver_address := Some {| ra_manufacturer := m0 + 256 * m1; ra_address := address |};
     ell_encryption := Some {| ef_session_number := session; ef_payload_crc := p0 + 256 * p1 |} |}.

(** putting an ELL I header in front of an application payload *)
Inductive with_ell (ell : extended_link_layer) : user_data_block -> user_data_block -> Prop :=
| we_short e h block : with_ell ell (VariableShort e h block) (VariableShort (Some ell) h block)
| we_none e block : with_ell ell (VariableNone e block) (VariableNone (Some ell) block).

(** [app_meaning data u]: the bytes [data] are an application layer message with content [u] *)
Inductive app_meaning : list N -> user_data_block -> Prop :=
| AMReset b rest f :
    nth_error reset_codes (N.to_nat (b mod 16)) = Some f ->
    app_meaning (0x50 :: b :: rest) (ResetAtApplicationLevel (f b))
| AMLong ci i0 i1 i2 i3 m0 m1 v d acc st c0 c1 block h :
    ci = 0x72 \/ ci = 0x76 ->
    long_header ci [i0; i1; i2; i3] m0 m1 v d acc st c0 c1 h ->
    app_meaning ([ci; i0; i1; i2; i3; m0; m1; v; d; acc; st; c0; c1] ++ block) (VariableLong None h block)
| AMFixed ci i0 i1 i2 i3 acc st d u a0 a1 a2 a3 b0 b1 b2 b3 rest id n1 n2 :
    ci = 0x73 \/ ci = 0x77 ->
    bcd_number [i0; i1; i2; i3] id -> bcd_number [a0; a1; a2; a3] n1 -> bcd_number [b0; b1; b2; b3] n2 ->
    app_meaning ([ci; i0; i1; i2; i3; acc; st; d; u; a0; a1; a2; a3; b0; b1; b2; b3] ++ rest)
      (FixedDataStructure id acc st (256 * d + u) n1 n2)
| AMNone block : app_meaning (0x78 :: block) (VariableNone None block)
| AMShort ci acc st c0 c1 block :
    ci = 0x7A \/ 0xA1 <= ci <= 0xAF ->
    app_meaning ([ci; acc; st; c0; c1] ++ block) (VariableShort None (short_header acc st c0 c1) block)
| AMShortA0 x acc st c0 c1 block :
    app_meaning ([0xA0; x; acc; st; c0; c1] ++ block) (VariableShort None (short_header acc st c0 c1) block)
| AMEllI cc acc rest u u' :
    app_meaning rest u -> with_ell (ell_i cc acc) u u' ->
    app_meaning ([0x8C; cc; acc] ++ rest) u'
| AMEllII cc acc s0 s1 s2 s3 p0 p1 block :
    app_meaning ([0x8D; cc; acc; s0; s1; s2; s3; p0; p1] ++ block)
      (VariableShort (Some (ell_ii cc acc [s0; s1; s2; s3] p0 p1)) (short_header acc cc 0 0) block)
| AMEllIII cc acc m0 m1 a0 a1 a2 a3 a4 a5 s0 s1 s2 s3 p0 p1 block :
    app_meaning ([0x8E; cc; acc; m0; m1; a0; a1; a2; a3; a4; a5; s0; s1; s2; s3; p0; p1] ++ block)
      (VariableShort (Some (ell_iii cc acc m0 m1 [a0; a1; a2; a3; a4; a5] [s0; s1; s2; s3] p0 p1))
         (short_header acc cc 0 0) block).

(** control information bytes that are decoded, with the length of their fixed part *)
Definition fixed_part (ci : N) : option N :=
  if ci =? 0x50 then Some 2
  else if (ci =? 0x72) || (ci =? 0x76) then Some 13
  else if (ci =? 0x73) || (ci =? 0x77) then Some 17
  else if ci =? 0x78 then Some 1
  else if (ci =? 0x7A) || (0xA1 <=? ci) && (ci <=? 0xAF) then Some 5
  else if ci =? 0xA0 then Some 6
  else if ci =? 0x8C then Some 3
  else if ci =? 0x8D then Some 9
  else if ci =? 0x8E then Some 17
  else None.

(** why a message is refused *)
Inductive app_error : list N -> application_layer_error -> Prop :=
| AEEmpty : app_error [] MissingControlInformation
| AEUnknown b rest :
    (forall c, ~ In (b, c) control_codes) -> app_error (b :: rest) (InvalidControlInformation b)
| AEUnimplemented b c rest :
    In (b, c) control_codes -> fixed_part b = None -> app_error (b :: rest) Unimplemented
| AEShort b rest n :
    fixed_part b = Some n -> len (b :: rest) < n -> app_error (b :: rest) InsufficientData
| AENumber b pre ds post n :
    b = 0x72 \/ b = 0x73 \/ b = 0x76 \/ b = 0x77 ->
    length ds = 4%nat -> (forall m, ~ bcd_number ds m) ->
    app_error ([b] ++ pre ++ (if b =? 0x76 then rev ds else ds) ++ post) (IdentificationNumberError ds n)
| AEEll cc acc rest :
    (forall u u', app_meaning rest u -> ~ with_ell (ell_i cc acc) u u') ->
    app_error ([0x8C; cc; acc] ++ rest) MissingControlInformation.
