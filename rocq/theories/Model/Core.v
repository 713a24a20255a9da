(** Model of crates/m-bus-core/src/lib.rs. *)
From Verif Require Import Model.Base.

(** crates/m-bus-core/src/lib.rs:72-83.
    Simplified: the [&'static str] of [Unimplemented] is dropped. *)
Inductive application_layer_error :=
| MissingControlInformation
| InvalidControlInformation (b : N)
| IdentificationNumberError (digits : list N) (number : N)
| InvalidManufacturerCode (code : N)
| InsufficientData
| Unimplemented.

(** crates/m-bus-core/src/lib.rs:35-37; the three chars as code points. *)
Record manufacturer_code := { mc1 : N; mc2 : N; mc3 : N }.

(** [char::is_ascii_uppercase], used in crates/m-bus-core/src/lib.rs:45-47 *)
Definition is_ascii_uppercase (c : N) : bool := (65 <=? c) && (c <=? 90).

(** crates/m-bus-core/src/lib.rs:40-55, [ManufacturerCode::from_id].
    [id] is a u16, so [id / 1024 + 64 <= 127] and the casts to u8 lose nothing
    (written [mod 256] all the same). *)
Definition mc_from_id (id : N) : outcome application_layer_error manufacturer_code :=
  let first_letter := (id / 1024 + 64) mod 256 in
  let second_letter := ((id mod 1024) / 32 + 64) mod 256 in
  let third_letter := (id mod 32 + 64) mod 256 in
  if is_ascii_uppercase first_letter && is_ascii_uppercase second_letter
     && is_ascii_uppercase third_letter
  then Ok {| mc1 := first_letter; mc2 := second_letter; mc3 := third_letter |}
  else Err (InvalidManufacturerCode id).

(** crates/m-bus-core/src/lib.rs:57-62, [ManufacturerCode::to_id].
    Wrapping u16 arithmetic (release build).  For letters A-Z, the only codes the
    parser builds, nothing wraps; a caller-made code with a char below '@'
    would overflow in a debug build, which is not modelled here. *)
Definition mc_to_id (c : manufacturer_code) : N :=
  let w x := (x + 65536 - 64) mod 65536 in
  (w (mc1 c mod 65536) * 1024 + w (mc2 c mod 65536) * 32 + w (mc3 c mod 65536)) mod 65536.

(** crates/m-bus-core/src/lib.rs:121-128, the loop of [bcd_hex_digits_to_u32] over
    the digits in reversed order; [digits] is the array kept for the error. *)
Fixpoint bcd_loop (digits : list N) (number : N) (rest : list N)
  : outcome application_layer_error N :=
  match rest with
  | [] => Ok number
  | d :: rest' =>
      let lower := N.land d 0x0F in
      let upper := N.shiftr d 4 in
      if (9 <? lower) || (9 <? upper)
      then Err (IdentificationNumberError digits number)
      else bcd_loop digits (number * 100 + upper * 10 + lower) rest'
  end.

(** crates/m-bus-core/src/lib.rs:118-131, [bcd_hex_digits_to_u32].  The argument is
    [u8; 4] in Rust; at most 99999999 results, so u32 never overflows. *)
Definition bcd_hex_digits_to_u32 (digits : list N) : outcome application_layer_error N :=
  bcd_loop digits 0 (rev digits).

(** crates/m-bus-core/src/lib.rs:151-201 *)
Inductive device_type :=
| DevOther
| DevOilMeter
| DevElectricityMeter
| DevGasMeter
| DevHeatMeterReturn
| DevSteamMeter
| DevWarmWaterMeter
| DevWaterMeter
| DevHeatCostAllocator
| DevCompressedAir
| DevCoolingMeterReturn
| DevCoolingMeterFlow
| DevHeatMeterFlow
| DevCombinedHeatCoolingMeter
| DevBusSystemComponent
| DevUnknownDevice
| DevIrrigationWaterMeter
| DevWaterDataLogger
| DevGasDataLogger
| DevGasConverter
| DevCalorificValue
| DevHotWaterMeter
| DevColdWaterMeter
| DevDualRegisterWaterMeter
| DevPressureMeter
| DevAdConverter
| DevSmokeDetector
| DevRoomSensor
| DevGasDetector
| DevReservedSensor (code : N)
| DevElectricityBreaker
| DevValve
| DevReservedSwitch (code : N)
| DevCustomerUnit
| DevReservedCustomer (code : N)
| DevWasteWaterMeter
| DevGarbage
| DevReservedCO2
| DevReservedEnvironmental (code : N)
| DevServiceTool
| DevCommunicationController
| DevUnidirectionalRepeater
| DevBidirectionalRepeater
| DevReservedSystem (code : N)
| DevRadioConverterSystemSide
| DevRadioConverterMeterSide
| DevBusConverterMeterSide
| DevReserved (code : N)
| DevWildcard.

(** crates/m-bus-core/src/lib.rs:264-318, [From<DeviceType> for u8] *)
Definition device_type_to_u8 (d : device_type) : N :=
  match d with
  | DevOther => 0x00
  | DevOilMeter => 0x01
  | DevElectricityMeter => 0x02
  | DevGasMeter => 0x03
  | DevHeatMeterReturn => 0x04
  | DevSteamMeter => 0x05
  | DevWarmWaterMeter => 0x06
  | DevWaterMeter => 0x07
  | DevHeatCostAllocator => 0x08
  | DevCompressedAir => 0x09
  | DevCoolingMeterReturn => 0x0A
  | DevCoolingMeterFlow => 0x0B
  | DevHeatMeterFlow => 0x0C
  | DevCombinedHeatCoolingMeter => 0x0D
  | DevBusSystemComponent => 0x0E
  | DevUnknownDevice => 0x0F
  | DevIrrigationWaterMeter => 0x10
  | DevWaterDataLogger => 0x11
  | DevGasDataLogger => 0x12
  | DevGasConverter => 0x13
  | DevCalorificValue => 0x14
  | DevHotWaterMeter => 0x15
  | DevColdWaterMeter => 0x16
  | DevDualRegisterWaterMeter => 0x17
  | DevPressureMeter => 0x18
  | DevAdConverter => 0x19
  | DevSmokeDetector => 0x1A
  | DevRoomSensor => 0x1B
  | DevGasDetector => 0x1C
  | DevReservedSensor code => code
  | DevElectricityBreaker => 0x20
  | DevValve => 0x21
  | DevReservedSwitch code => code
  | DevCustomerUnit => 0x25
  | DevReservedCustomer code => code
  | DevWasteWaterMeter => 0x28
  | DevGarbage => 0x29
  | DevReservedCO2 => 0x2A
  | DevReservedEnvironmental code => code
  | DevServiceTool => 0x30
  | DevCommunicationController => 0x31
  | DevUnidirectionalRepeater => 0x32
  | DevBidirectionalRepeater => 0x33
  | DevReservedSystem code => code
  | DevRadioConverterSystemSide => 0x36
  | DevRadioConverterMeterSide => 0x37
  | DevBusConverterMeterSide => 0x38
  | DevReserved code => code
  | DevWildcard => 0xFF
  end.

(** crates/m-bus-core/src/lib.rs:319-374, [From<u8> for DeviceType].
    The Rust match is in ascending order of disjoint ranges; it is written as a
    chain of upper-bound tests in the same order. *)
Definition device_type_from_u8 (v : N) : device_type :=
  if v =? 0x00 then DevOther else
  if v =? 0x01 then DevOilMeter else
  if v =? 0x02 then DevElectricityMeter else
  if v =? 0x03 then DevGasMeter else
  if v =? 0x04 then DevHeatMeterReturn else
  if v =? 0x05 then DevSteamMeter else
  if v =? 0x06 then DevWarmWaterMeter else
  if v =? 0x07 then DevWaterMeter else
  if v =? 0x08 then DevHeatCostAllocator else
  if v =? 0x09 then DevCompressedAir else
  if v =? 0x0A then DevCoolingMeterReturn else
  if v =? 0x0B then DevCoolingMeterFlow else
  if v =? 0x0C then DevHeatMeterFlow else
  if v =? 0x0D then DevCombinedHeatCoolingMeter else
  if v =? 0x0E then DevBusSystemComponent else
  if v =? 0x0F then DevUnknownDevice else
  if v =? 0x10 then DevIrrigationWaterMeter else
  if v =? 0x11 then DevWaterDataLogger else
  if v =? 0x12 then DevGasDataLogger else
  if v =? 0x13 then DevGasConverter else
  if v =? 0x14 then DevCalorificValue else
  if v =? 0x15 then DevHotWaterMeter else
  if v =? 0x16 then DevColdWaterMeter else
  if v =? 0x17 then DevDualRegisterWaterMeter else
  if v =? 0x18 then DevPressureMeter else
  if v =? 0x19 then DevAdConverter else
  if v =? 0x1A then DevSmokeDetector else
  if v =? 0x1B then DevRoomSensor else
  if v =? 0x1C then DevGasDetector else
  if (0x1D <=? v) && (v <=? 0x1F) then DevReservedSensor v else
  if v =? 0x20 then DevElectricityBreaker else
  if v =? 0x21 then DevValve else
  if (0x22 <=? v) && (v <=? 0x24) then DevReservedSwitch v else
  if v =? 0x25 then DevCustomerUnit else
  if (0x26 <=? v) && (v <=? 0x27) then DevReservedCustomer v else
  if v =? 0x28 then DevWasteWaterMeter else
  if v =? 0x29 then DevGarbage else
  if v =? 0x2A then DevReservedCO2 else
  if (0x2B <=? v) && (v <=? 0x2F) then DevReservedEnvironmental v else
  if v =? 0x30 then DevServiceTool else
  if v =? 0x31 then DevCommunicationController else
  if v =? 0x32 then DevUnidirectionalRepeater else
  if v =? 0x33 then DevBidirectionalRepeater else
  if (0x34 <=? v) && (v <=? 0x35) then DevReservedSystem v else
  if v =? 0x36 then DevRadioConverterSystemSide else
  if v =? 0x37 then DevRadioConverterMeterSide else
  if v =? 0x38 then DevBusConverterMeterSide else
  if (0x39 <=? v) && (v <=? 0x3F) then DevReservedSystem v else
  if (0x40 <=? v) && (v <=? 0xFE) then DevReserved v else
  DevWildcard.

(** crates/m-bus-core/src/lib.rs:450-465 *)
Inductive function :=
| SndNk (prm : bool)
| SndUd (fcb : bool)
| SndUd2
| SndUd3
| SndNr
| SendIr
| AccNr
| AccDmd
| ReqUd1 (fcb : bool)
| ReqUd2 (fcb : bool)
| RspUd (acd dfc : bool)
| Ack
| Nack
| CnfIr.

(** crates/m-bus-core/src/lib.rs:484-496 *)
Inductive frame_error :=
| EmptyData
| InvalidStartByte
| InvalidStopByte
| WrongLengthIndication
| LengthShort
| LengthShorterThanSix (length : N)
| WrongLength (expected actual : N)
| WrongCrc (expected actual : N)
| WrongChecksum (expected actual : N)
| FInvalidControlInformation (b : N)
| InvalidFunction (b : N).

(** crates/m-bus-core/src/lib.rs:533-565, [TryFrom<u8> for Function] *)
Definition function_try_from (b : N) : outcome frame_error function :=
  if b =? 0x40 then Ok (SndNk false)
  else if b =? 0x44 then Ok SndNr
  else if b =? 0x53 then Ok (SndUd false)
  else if b =? 0x73 then Ok (SndUd true)
  else if b =? 0x5B then Ok (ReqUd2 false)
  else if b =? 0x7B then Ok (ReqUd2 true)
  else if b =? 0x5A then Ok (ReqUd1 false)
  else if b =? 0x7A then Ok (ReqUd1 true)
  else if b =? 0x08 then Ok (RspUd false false)
  else if b =? 0x18 then Ok (RspUd false true)
  else if b =? 0x28 then Ok (RspUd true false)
  else if b =? 0x38 then Ok (RspUd true true)
  else Err (InvalidFunction b).

(** crates/m-bus-core/src/lib.rs:575-593 *)
Inductive security_mode :=
| NoEncryption
| SecManufacturerSpecific
| DesIvZero
| DesIvNonZero
| SpecificUsage4
| AesCbc128IvNonZero
| Reserved6
| AesCbc128IvZero
| AesCtr128Cmac
| AesGcm128
| AesCcm128
| Reserved11
| Reserved12
| SpecificUsage13
| Reserved14
| SpecificUsage15
| ReservedHigher (mode : N).

(** crates/m-bus-core/src/lib.rs:597-617, [SecurityMode::from_bits] *)
Definition security_mode_from_bits (mode : N) : security_mode :=
  let m := N.land mode 0x1F in
  if m =? 0 then NoEncryption
  else if m =? 1 then SecManufacturerSpecific
  else if m =? 2 then DesIvZero
  else if m =? 3 then DesIvNonZero
  else if m =? 4 then SpecificUsage4
  else if m =? 5 then AesCbc128IvNonZero
  else if m =? 6 then Reserved6
  else if m =? 7 then AesCbc128IvZero
  else if m =? 8 then AesCtr128Cmac
  else if m =? 9 then AesGcm128
  else if m =? 10 then AesCcm128
  else if m =? 11 then Reserved11
  else if m =? 12 then Reserved12
  else if m =? 13 then SpecificUsage13
  else if m =? 14 then Reserved14
  else if m =? 15 then SpecificUsage15
  else ReservedHigher m.

(** crates/m-bus-core/src/lib.rs:620-640, [SecurityMode::to_bits] *)
Definition security_mode_to_bits (s : security_mode) : N :=
  match s with
  | NoEncryption => 0
  | SecManufacturerSpecific => 1
  | DesIvZero => 2
  | DesIvNonZero => 3
  | SpecificUsage4 => 4
  | AesCbc128IvNonZero => 5
  | Reserved6 => 6
  | AesCbc128IvZero => 7
  | AesCtr128Cmac => 8
  | AesGcm128 => 9
  | AesCcm128 => 10
  | Reserved11 => 11
  | Reserved12 => 12
  | SpecificUsage13 => 13
  | Reserved14 => 14
  | SpecificUsage15 => 15
  | ReservedHigher mode => N.land mode 0x1F
  end.

(** crates/m-bus-core/src/lib.rs:686-688; [ConfigurationField { raw }] is its raw u16.
    [from_bytes] is lines 696-700. *)
Definition configuration_field_from_bytes (lsb msb : N) : N := u16_le lsb msb.

(** crates/m-bus-core/src/lib.rs:711-714, [security_mode] *)
Definition configuration_security_mode (raw : N) : security_mode :=
  security_mode_from_bits (N.land (N.shiftr raw 8) 0x1F).

(** crates/m-bus-core/src/lib.rs:719-721, [mode_specific_lower] *)
Definition mode_specific_lower (raw : N) : N := N.land raw 0xFF.

(** crates/m-bus-core/src/lib.rs:726-728, [mode_specific_upper] *)
Definition mode_specific_upper (raw : N) : N := N.land (N.shiftr raw 13) 7.
