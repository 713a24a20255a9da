(** Text of values as the output shows them: [Display] impls of crates/m-bus-core/src/lib.rs,
    crates/wired-mbus-link-layer/src/lib.rs and crates/m-bus-application-layer/src, and the
    naming functions of src/output.rs. *)
From Coq Require Import String.
From Verif Require Import Model.Base Model.Text Model.Core Model.Wired Model.F64 Model.DataInfo Model.ValueInfo Model.Hex.

(** [n.to_string()]: decimal digits.  Standard library, no function of /repo; the fuel is
    enough since a number has at most as many decimal as binary digits. *)
Fixpoint dec_loop (fuel : nat) (n : N) : text :=
  match fuel with
  | O => []
  | S fuel' => (if n <? 10 then [] else dec_loop fuel' (n / 10)) ++ [48 + n mod 10]
  end.
(** [n.to_string()] *)
Definition dec (n : N) : text := dec_loop (S (N.to_nat (N.size n))) n.
(** [n.to_string()] of a signed number *)
Definition dec_Z (z : Z) : text := if (z <? 0)%Z then 45 :: dec (Z.abs_N z) else dec (Z.abs_N z).
(** [format!("{n:0w}")] *)
Definition dec_pad (w : nat) (n : N) : text := let d := dec n in zeros (w - length d) ++ d.
(** [format!("{b:02X}")] *)
Definition hex2 (b : N) : text := [hex_digit_upper (b / 16); hex_digit_upper (b mod 16)].
(** [format!("{w:04X}")] of a u16 *)
Definition hex4 (w : N) : text := hex2 (w / 256) ++ hex2 (w mod 256).
(** [bool::to_string] *)
Definition show_bool (b : bool) : text := if b then txt "true" else txt "false".

(** [x.join(sep)] *)
Fixpoint join (sep : text) (l : list text) : text :=
  match l with
  | [] => []
  | [x] => x
  | x :: l' => x ++ sep ++ join sep l'
  end.

(** crates/m-bus-core/src/lib.rs:65-69, [Display for ManufacturerCode] *)
Definition show_manufacturer (m : manufacturer_code) : text := [mc1 m; mc2 m; mc3 m].

(** crates/m-bus-core/src/lib.rs:140-144, [Display for IdentificationNumber]: {:08} *)
Definition show_identification (n : N) : text := dec_pad 8 n.

(** crates/m-bus-core/src/lib.rs:203-262, [Display for DeviceType] *)
Definition show_device_type (d : device_type) : text :=
  match d with
  | DevOther => txt "Other"
  | DevOilMeter => txt "Oil Meter"
  | DevElectricityMeter => txt "Electricity Meter"
  | DevGasMeter => txt "Gas Meter"
  | DevHeatMeterReturn => txt "Heat Meter (Return)"
  | DevSteamMeter => txt "Steam Meter"
  | DevWarmWaterMeter => txt "Warm Water Meter (30-90" ++ [0xB0] ++ txt "C)"
  | DevWaterMeter => txt "Water Meter"
  | DevHeatCostAllocator => txt "Heat Cost Allocator"
  | DevCompressedAir => txt "Compressed Air"
  | DevCoolingMeterReturn => txt "Cooling Meter (Return)"
  | DevCoolingMeterFlow => txt "Cooling Meter (Flow)"
  | DevHeatMeterFlow => txt "Heat Meter (Flow)"
  | DevCombinedHeatCoolingMeter => txt "Combined Heat/Cooling Meter"
  | DevBusSystemComponent => txt "Bus/System Component"
  | DevUnknownDevice => txt "Unknown Device"
  | DevIrrigationWaterMeter => txt "Irrigation Water Meter"
  | DevWaterDataLogger => txt "Water Data Logger"
  | DevGasDataLogger => txt "Gas Data Logger"
  | DevGasConverter => txt "Gas Converter"
  | DevCalorificValue => txt "Calorific Value"
  | DevHotWaterMeter => txt "Hot Water Meter (" ++ [0x2265] ++ txt "90" ++ [0xB0] ++ txt "C)"
  | DevColdWaterMeter => txt "Cold Water Meter"
  | DevDualRegisterWaterMeter => txt "Dual Register Water Meter"
  | DevPressureMeter => txt "Pressure Meter"
  | DevAdConverter => txt "A/D Converter"
  | DevSmokeDetector => txt "Smoke Detector"
  | DevRoomSensor => txt "Room Sensor"
  | DevGasDetector => txt "Gas Detector"
  | DevReservedSensor code => txt "Reserved Sensor (0x" ++ hex2 code ++ txt ")"
  | DevElectricityBreaker => txt "Breaker (Electricity)"
  | DevValve => txt "Valve (Gas/Water)"
  | DevReservedSwitch code => txt "Reserved Switch (0x" ++ hex2 code ++ txt ")"
  | DevCustomerUnit => txt "Customer Unit (Display)"
  | DevReservedCustomer code => txt "Reserved Customer Unit (0x" ++ hex2 code ++ txt ")"
  | DevWasteWaterMeter => txt "Waste Water Meter"
  | DevGarbage => txt "Garbage"
  | DevReservedCO2 => txt "Reserved (CO" ++ [0x2082] ++ txt ")"
  | DevReservedEnvironmental code => txt "Reserved Environmental (0x" ++ hex2 code ++ txt ")"
  | DevServiceTool => txt "Service Tool"
  | DevCommunicationController => txt "Communication Controller (Gateway)"
  | DevUnidirectionalRepeater => txt "Unidirectional Repeater"
  | DevBidirectionalRepeater => txt "Bidirectional Repeater"
  | DevReservedSystem code => txt "Reserved System (0x" ++ hex2 code ++ txt ")"
  | DevRadioConverterSystemSide => txt "Radio Converter (System Side)"
  | DevRadioConverterMeterSide => txt "Radio Converter (Meter Side)"
  | DevBusConverterMeterSide => txt "Bus Converter (Meter Side)"
  | DevReserved code => txt "Reserved (0x" ++ hex2 code ++ txt ")"
  | DevWildcard => txt "Wildcard"
  end.

(** crates/m-bus-core/src/lib.rs:643-666, [Display for SecurityMode] *)
Definition show_security_mode (s : security_mode) : text :=
  match s with
  | NoEncryption => txt "No encryption used"
  | SecManufacturerSpecific => txt "Manufacturer specific usage"
  | DesIvZero => txt "DES; IV = 0 (deprecated)"
  | DesIvNonZero => txt "DES; IV " ++ [0x2260] ++ txt " 0 (deprecated)"
  | SpecificUsage4 => txt "Specific usage (Bibliographical Entry [6])"
  | AesCbc128IvNonZero => txt "AES-CBC-128; IV " ++ [0x2260] ++ txt " 0"
  | Reserved6 => txt "Reserved for future use"
  | AesCbc128IvZero => txt "AES-CBC-128; IV = 0"
  | AesCtr128Cmac => txt "AES-CTR-128; CMAC"
  | AesGcm128 => txt "AES-GCM-128"
  | AesCcm128 => txt "AES-CCM-128"
  | Reserved11 => txt "Reserved for future use"
  | Reserved12 => txt "Reserved for future use"
  | SpecificUsage13 => txt "Specific usage (Bibliographical Entry [8])"
  | Reserved14 => txt "Reserved for future use"
  | SpecificUsage15 => txt "Specific usage (Bibliographical Entry [7])"
  | ReservedHigher mode => txt "Reserved for future use (mode " ++ dec mode ++ txt ")"
  end.

(** crates/wired-mbus-link-layer/src/lib.rs:41-53, [Display for Address] *)
Definition show_address (a : address) : text :=
  match a with
  | Uninitalized => txt "Uninitalized"
  | Primary b => txt "Primary (" ++ dec b ++ txt ")"
  | Secondary => txt "Secondary"
  | Broadcast reply => txt "Broadcast (Reply Required: " ++ show_bool reply ++ txt ")"
  end.

(** crates/m-bus-application-layer/src/lib.rs:187-220, [Display for StatusField]:
    [trim_end_matches(", ")] drops the separator after the last word (no word ends in one) *)
Definition show_status (bits : N) : text :=
  let words := flat_map (fun '(i, word) => if N.testbit bits i then [txt word] else [])
    [(0, "Counter binary signed"%string); (1, "Counter fixed date"%string); (2, "Power low"%string);
     (3, "Permanent error"%string); (4, "Temporary error"%string); (5, "Manufacturer specific 1"%string);
     (6, "Manufacturer specific 2"%string); (7, "Manufacturer specific 3"%string)] in
  match words with [] => txt "No Error(s)" | _ => join (txt ", ") words end.

(** src/output.rs:1309-1329, [frame_function_name] *)
Definition frame_function_name (f : function) : text :=
  match f with
  | SndNk prm => txt "SND_NKE (PRM: " ++ show_bool prm ++ txt ")"
  | SndUd fcb => txt "SND_UD (FCB: " ++ show_bool fcb ++ txt ")"
  | SndUd2 => txt "SND_UD2"
  | SndUd3 => txt "SND_UD3"
  | SndNr => txt "SND_NR"
  | SendIr => txt "SND_IR"
  | AccNr => txt "ACC_NR"
  | AccDmd => txt "ACC_DMD"
  | ReqUd1 fcb => txt "REQ_UD1 (FCB: " ++ show_bool fcb ++ txt ")"
  | ReqUd2 fcb => txt "REQ_UD2 (FCB: " ++ show_bool fcb ++ txt ")"
  | RspUd acd dfc => txt "RSP_UD (ACD: " ++ show_bool acd ++ txt ", DFC: " ++ show_bool dfc ++ txt ")"
  | Ack => txt "ACK"
  | Nack => txt "NACK"
  | CnfIr => txt "CNF_IR"
  end.

(** src/output.rs:1331-1339, [record_function_name] *)
Definition record_function_name (f : function_field) : text :=
  match f with
  | InstantaneousValue => txt "Instantaneous value"
  | MaximumValue => txt "Maximum value"
  | MinimumValue => txt "Minimum value"
  | ValueDuringErrorState => txt "Value during error state"
  end.

(** src/output.rs:1377-1386, [special_function_name] *)
Definition special_function_name (s : special_functions) : text :=
  match s with
  | SFManufacturerSpecific => txt "Manufacturer specific"
  | SFMoreRecordsFollow => txt "More records follow"
  | SFIdleFiller => txt "Idle filler"
  | SFReserved => txt "Reserved special function"
  | SFGlobalReadoutRequest => txt "Global readout request"
  end.

(** src/output.rs:1341-1349, [special_record_name]; the argument is the raw bytes *)
Definition special_record_name (raw : bytes) : text :=
  match hd_error raw with
  | None => txt "Special function"
  | Some dif =>
      let d := N.land dif 0x7F in
      if d =? 0x0F then txt "Manufacturer specific"
      else if d =? 0x1F then txt "More records follow"
      else if d =? 0x2F then txt "Idle filler"
      else if d =? 0x7F then txt "Global readout request"
      else txt "Special function"
  end.

(** src/output.rs:1351-1375, [data_coding_name] *)
Definition data_coding_name (c : data_field_coding) : text :=
  match c with
  | CNoData => txt "No data"
  | CInteger8Bit => txt "8-bit integer"
  | CInteger16Bit => txt "16-bit integer"
  | CInteger24Bit => txt "24-bit integer"
  | CInteger32Bit => txt "32-bit integer"
  | CReal32Bit => txt "32-bit real"
  | CInteger48Bit => txt "48-bit integer"
  | CInteger64Bit => txt "64-bit integer"
  | CSelectionForReadout => txt "Selection for readout"
  | CBCD2Digit => txt "2-digit BCD"
  | CBCD4Digit => txt "4-digit BCD"
  | CBCD6Digit => txt "6-digit BCD"
  | CBCD8Digit => txt "8-digit BCD"
  | CVariableLength => txt "Variable length"
  | CBCDDigit12 => txt "12-digit BCD"
  | CDateTypeG => txt "Date (type G)"
  | CDateTimeTypeF => txt "Date and time (type F)"
  | CDateTimeTypeJ => txt "Time (type J)"
  | CDateTimeTypeI => txt "Date and time (type I)"
  | CSpecialFunctions f => special_function_name f
  end.

(** [char::is_ascii_lowercase], [char::is_ascii_digit], [char::is_ascii_alphabetic] *)
Definition is_ascii_lowercase (c : N) : bool := (97 <=? c) && (c <=? 122).
Definition is_ascii_digit (c : N) : bool := (48 <=? c) && (c <=? 57).
Definition is_ascii_alphabetic (c : N) : bool := is_ascii_uppercase c || is_ascii_lowercase c.

(** src/output.rs:1405-1425, [sentence_case_identifier]: the loop over the characters with the
    previous one and the current word; the next one is the head of the rest *)
Fixpoint identifier_words (previous : option N) (characters word : text) : list text :=
  match characters with
  | [] => match word with [] => [] | _ => [word] end
  | c :: rest =>
      let next := hd_error rest in
      let is p (o : option N) := match o with Some v => p v | None => false end in
      let boundary :=
        negb (match word with [] => true | _ => false end)
        && is_ascii_uppercase c
        && (is (fun v => is_ascii_lowercase v || is_ascii_digit v) previous
            || (is is_ascii_uppercase previous && is is_ascii_lowercase next)) in
      if boundary then word :: identifier_words (Some c) rest [c]
      else identifier_words (Some c) rest (word ++ [c])
  end.

(** src/output.rs:1435-1451, [standardized_word] *)
Definition standardized_word (word : text) (first : bool) : text :=
  if text_eqb word (txt "Vif") then txt "VIF"
  else if text_eqb word (txt "Vife") then txt "VIFE"
  else if text_eqb word (txt "Obis") then txt "OBIS"
  else if text_eqb word (txt "Wmbus") then txt "wireless M-Bus"
  else if forallb is_ascii_uppercase (filter is_ascii_alphabetic word) then word
  else if first then word
  else to_ascii_lowercase word.

(** src/output.rs:1405-1433, [sentence_case_identifier] *)
Definition sentence_case_identifier (identifier : text) : text :=
  match identifier_words None identifier [] with
  | [] => []
  | w :: ws => join (txt " ") (standardized_word w true :: map (fun w => standardized_word w false) ws)
  end.

(** [format!("{label:?}")]: the derived [Debug] of [ValueLabel],
    crates/m-bus-application-layer/src/value_information.rs:1064-1239 *)
Definition label_identifier (l : value_label) : text :=
  match l with
  | LInstantaneous => txt "Instantaneous"
  | LReservedForObjectActions => txt "ReservedForObjectActions"
  | LReserved => txt "Reserved"
  | LAveraged => txt "Averaged"
  | LIntegral => txt "Integral"
  | LParameter => txt "Parameter"
  | LInverseCompactProfile => txt "InverseCompactProfile"
  | LRelativeDeviation => txt "RelativeDeviation"
  | LRecordErrorCodes => txt "RecordErrorCodes"
  | LStandardConformDataContent => txt "StandardConformDataContent"
  | LCompactProfileWithRegisterNumbers => txt "CompactProfileWithRegisterNumbers"
  | LCompactProfile => txt "CompactProfile"
  | LActualityDuration => txt "ActualityDuration"
  | LAveragingDuration => txt "AveragingDuration"
  | LDate => txt "Date"
  | LTime => txt "Time"
  | LDateTime => txt "DateTime"
  | LDateTimeWithSeconds => txt "DateTimeWithSeconds"
  | LFabricationNumber => txt "FabricationNumber"
  | LEnhancedIdentification => txt "EnhancedIdentification"
  | LAddress => txt "Address"
  | LPlainText => txt "PlainText"
  | LRevolutionOrMeasurement => txt "RevolutionOrMeasurement"
  | LIncrementPerInputPulseOnChannelP => txt "IncrementPerInputPulseOnChannelP"
  | LIncrementPerOutputPulseOnChannelP => txt "IncrementPerOutputPulseOnChannelP"
  | LHourMinuteSecond => txt "HourMinuteSecond"
  | LDayMonthYear => txt "DayMonthYear"
  | LStartDateOf => txt "StartDateOf"
  | LVifContainsUncorrectedUnitOrValue => txt "VifContainsUncorrectedUnitOrValue"
  | LAccumulationOnlyIfValueIsPositive => txt "AccumulationOnlyIfValueIsPositive"
  | LAccumulationOnlyIfValueIsNegative => txt "AccumulationOnlyIfValueIsNegative"
  | LNonMetricUnits => txt "NonMetricUnits"
  | LAlternativeNonMetricUnits => txt "AlternativeNonMetricUnits"
  | LValueAtBaseConditions => txt "ValueAtBaseConditions"
  | LObisDeclaration => txt "ObisDeclaration"
  | LUpperLimitValue => txt "UpperLimitValue"
  | LLowerLimitValue => txt "LowerLimitValue"
  | LNumberOfExceedsOfUpperLimitValue => txt "NumberOfExceedsOfUpperLimitValue"
  | LNumberOfExceedsOfLowerLimitValue => txt "NumberOfExceedsOfLowerLimitValue"
  | LDateOfBeginFirstLowerLimitExceed => txt "DateOfBeginFirstLowerLimitExceed"
  | LDateOfBeginFirstUpperLimitExceed => txt "DateOfBeginFirstUpperLimitExceed"
  | LDateOfBeginLastLowerLimitExceed => txt "DateOfBeginLastLowerLimitExceed"
  | LDateOfBeginLastUpperLimitExceed => txt "DateOfBeginLastUpperLimitExceed"
  | LDateOfEndLastLowerLimitExceed => txt "DateOfEndLastLowerLimitExceed"
  | LDateOfEndLastUpperLimitExceed => txt "DateOfEndLastUpperLimitExceed"
  | LDateOfEndFirstLowerLimitExceed => txt "DateOfEndFirstLowerLimitExceed"
  | LDateOfEndFirstUpperLimitExceed => txt "DateOfEndFirstUpperLimitExceed"
  | LDurationOfFirstLowerLimitExceed => txt "DurationOfFirstLowerLimitExceed"
  | LDurationOfFirstUpperLimitExceed => txt "DurationOfFirstUpperLimitExceed"
  | LDurationOfLastLowerLimitExceed => txt "DurationOfLastLowerLimitExceed"
  | LDurationOfLastUpperLimitExceed => txt "DurationOfLastUpperLimitExceed"
  | LDurationOfFirst => txt "DurationOfFirst"
  | LDurationOfLast => txt "DurationOfLast"
  | LValueDuringLowerValueExceed => txt "ValueDuringLowerValueExceed"
  | LValueDuringUpperValueExceed => txt "ValueDuringUpperValueExceed"
  | LLeakageValues => txt "LeakageValues"
  | LOverflowValues => txt "OverflowValues"
  | LDateOfBeginLast => txt "DateOfBeginLast"
  | LDateOfBeginFirst => txt "DateOfBeginFirst"
  | LDateOfEndLast => txt "DateOfEndLast"
  | LDateOfEndFirst => txt "DateOfEndFirst"
  | LExtensionOfCombinableOrthogonalVIFE => txt "ExtensionOfCombinableOrthogonalVIFE"
  | LFutureValue => txt "FutureValue"
  | LNextVIFEAndDataOfThisBlockAreManufacturerSpecific => txt "NextVIFEAndDataOfThisBlockAreManufacturerSpecific"
  | LCredit => txt "Credit"
  | LDebit => txt "Debit"
  | LUniqueMessageIdentificationOrAccessNumber => txt "UniqueMessageIdentificationOrAccessNumber"
  | LDeviceType => txt "DeviceType"
  | LManufacturer => txt "Manufacturer"
  | LParameterSetIdentification => txt "ParameterSetIdentification"
  | LModelOrVersion => txt "ModelOrVersion"
  | LHardwareVersion => txt "HardwareVersion"
  | LMetrologyFirmwareVersion => txt "MetrologyFirmwareVersion"
  | LOtherSoftwareVersion => txt "OtherSoftwareVersion"
  | LCustomerLocation => txt "CustomerLocation"
  | LCustomer => txt "Customer"
  | LAccessCodeUser => txt "AccessCodeUser"
  | LAccessCodeOperator => txt "AccessCodeOperator"
  | LAccessCodeSystemOperator => txt "AccessCodeSystemOperator"
  | LAccessCodeDeveloper => txt "AccessCodeDeveloper"
  | LPassword => txt "Password"
  | LErrorFlags => txt "ErrorFlags"
  | LErrorMask => txt "ErrorMask"
  | LSecurityKey => txt "SecurityKey"
  | LDigitalInput => txt "DigitalInput"
  | LDigitalOutput => txt "DigitalOutput"
  | LBinary => txt "Binary"
  | LBaudRate => txt "BaudRate"
  | LResponseDelayTime => txt "ResponseDelayTime"
  | LRetry => txt "Retry"
  | LRemoteControl => txt "RemoteControl"
  | LFirstStorageForCycleStorage => txt "FirstStorageForCycleStorage"
  | LLastStorageForCycleStorage => txt "LastStorageForCycleStorage"
  | LSizeOfStorageBlock => txt "SizeOfStorageBlock"
  | LDescriptionOfTariffAndSubunit => txt "DescriptionOfTariffAndSubunit"
  | LStorageInterval => txt "StorageInterval"
  | LDimensionless => txt "Dimensionless"
  | LDimensionlessHCA => txt "DimensionlessHCA"
  | LDataContainerForWmbusProtocol => txt "DataContainerForWmbusProtocol"
  | LPeriodOfNormalDataTransmission => txt "PeriodOfNormalDataTransmission"
  | LResetCounter => txt "ResetCounter"
  | LCumulationCounter => txt "CumulationCounter"
  | LControlSignal => txt "ControlSignal"
  | LDayOfWeek => txt "DayOfWeek"
  | LWeekNumber => txt "WeekNumber"
  | LTimePointOfChangeOfTariff => txt "TimePointOfChangeOfTariff"
  | LStateOfParameterActivation => txt "StateOfParameterActivation"
  | LSpecialSupplierInformation => txt "SpecialSupplierInformation"
  | LDurationSinceLastCumulation => txt "DurationSinceLastCumulation"
  | LOperatingTimeBattery => txt "OperatingTimeBattery"
  | LDateAndTimeOfBatteryChange => txt "DateAndTimeOfBatteryChange"
  | LRFPowerLevel => txt "RFPowerLevel"
  | LDaylightSavingBeginningEndingDeviation => txt "DaylightSavingBeginningEndingDeviation"
  | LListeningWindowManagementData => txt "ListeningWindowManagementData"
  | LRemainingBatteryLifeTime => txt "RemainingBatteryLifeTime"
  | LNumberOfTimesTheMeterWasStopped => txt "NumberOfTimesTheMeterWasStopped"
  | LDataContainerForManufacturerSpecificProtocol => txt "DataContainerForManufacturerSpecificProtocol"
  | LCurrentlySelectedApplication => txt "CurrentlySelectedApplication"
  | LEnergy => txt "Energy"
  | LReactiveEnergy => txt "ReactiveEnergy"
  | LApparentEnergy => txt "ApparentEnergy"
  | LCoefficientOfPerformance => txt "CoefficientOfPerformance"
  | LReactivePower => txt "ReactivePower"
  | LFrequency => txt "Frequency"
  | LApparentPower => txt "ApparentPower"
  | LAtPhaseL1 => txt "AtPhaseL1"
  | LAtPhaseL2 => txt "AtPhaseL2"
  | LAtPhaseL3 => txt "AtPhaseL3"
  | LAtNeutral => txt "AtNeutral"
  | LBetweenPhasesL1L2 => txt "BetweenPhasesL1L2"
  | LBetweenPhasesL2L3 => txt "BetweenPhasesL2L3"
  | LBetweenPhasesL3L1 => txt "BetweenPhasesL3L1"
  | LAtQuadrant1 => txt "AtQuadrant1"
  | LAtQuadrant2 => txt "AtQuadrant2"
  | LAtQuadrant3 => txt "AtQuadrant3"
  | LAtQuadrant4 => txt "AtQuadrant4"
  | LDeltaBetweenImportAndExport => txt "DeltaBetweenImportAndExport"
  | LAccumulationOfAbsoluteValueBothPositiveAndNegativeContribution => txt "AccumulationOfAbsoluteValueBothPositiveAndNegativeContribution"
  | LSecondarySensorMeasurement => txt "SecondarySensorMeasurement"
  | LHigherResolutionRegister => txt "HigherResolutionRegister"
  | LDataPresentedWithTypeC => txt "DataPresentedWithTypeC"
  | LDataPresentedWithTypeD => txt "DataPresentedWithTypeD"
  | LEndDate => txt "EndDate"
  | LDirectionFromCommunicationPartnerToMeter => txt "DirectionFromCommunicationPartnerToMeter"
  | LDirectionFromMeterToCommunicationPartner => txt "DirectionFromMeterToCommunicationPartner"
  | LRelativeHumidity => txt "RelativeHumidity"
  | LMoistureLevel => txt "MoistureLevel"
  | LPhaseUtoU => txt "PhaseUtoU"
  | LPhaseUtoI => txt "PhaseUtoI"
  | LPhaseItoU => txt "PhaseItoU"
  | LColdWarmTemperatureLimit => txt "ColdWarmTemperatureLimit"
  | LCumulativeMaximumOfActivePower => txt "CumulativeMaximumOfActivePower"
  | LResultingRatingFactor => txt "ResultingRatingFactor"
  | LThermalOutputRatingFactor => txt "ThermalOutputRatingFactor"
  | LThermalCouplingRatingFactorOverall => txt "ThermalCouplingRatingFactorOverall"
  | LThermalCouplingRatingRoomSide => txt "ThermalCouplingRatingRoomSide"
  | LThermalCouplingRatingFactorHeatingSide => txt "ThermalCouplingRatingFactorHeatingSide"
  | LLowTemperatureRatingFactor => txt "LowTemperatureRatingFactor"
  | LDisplayOutputScalingFactor => txt "DisplayOutputScalingFactor"
  | LManufacturerSpecific => txt "ManufacturerSpecific"
  | LOnTime => txt "OnTime"
  | LOperatingTime => txt "OperatingTime"
  | LVolume => txt "Volume"
  | LMass => txt "Mass"
  | LPower => txt "Power"
  | LVolumeFlow => txt "VolumeFlow"
  | LMassFlow => txt "MassFlow"
  | LPressure => txt "Pressure"
  | LVoltage => txt "Voltage"
  | LCurrent => txt "Current"
  | LFlowTemperature => txt "FlowTemperature"
  | LReturnTemperature => txt "ReturnTemperature"
  | LTemperatureDifference => txt "TemperatureDifference"
  | LExternalTemperature => txt "ExternalTemperature"
  end.

(** src/output.rs:1388-1403, [quantity_name] *)
Definition quantity_name (l : value_label) : text :=
  match l with
  | LDate => txt "Time point (date)"
  | LTime => txt "Time point (time)"
  | LDateTime | LDateTimeWithSeconds => txt "Time point (date and time)"
  | LDataContainerForWmbusProtocol => txt "Data container for wireless M-Bus protocol"
  | LPhaseUtoU => txt "Phase U-to-U"
  | LPhaseUtoI => txt "Phase U-to-I"
  | LPhaseItoU => txt "Phase I-to-U"
  | _ => sentence_case_identifier (label_identifier l)
  end.

(** crates/m-bus-application-layer/src/value_information.rs:1336-1383, [Display for UnitName] *)
Definition show_unit_name (u : unit_name) : text :=
  match u with
  | UWatt => txt "W"
  | UReactiveWatt => txt "W (reactive)"
  | UApparentWatt => txt "W (apparent)"
  | UJoul => txt "J"
  | UKilogram => txt "Kg"
  | UTonne => txt "t"
  | UMeter => txt "m"
  | UFeet => txt "ft"
  | UCelsius => [0xB0] ++ txt "C"
  | UKelvin => [0xB0] ++ txt "K"
  | UBar => txt "Bar"
  | UHCA => txt "HCA"
  | UReserved => txt "Reserved"
  | UWithoutUnits => txt "-"
  | USecond => txt "s"
  | UMinute => txt "min"
  | UHour => txt "h"
  | UDay => txt "day"
  | UWeek => txt "week"
  | UMonth => txt "month"
  | UYear => txt "year"
  | URevolution => txt "revolution"
  | UIncrement => txt "increment"
  | UInputPulseOnChannel0 => txt "InputPulseOnChannel0"
  | UOutputPulseOnChannel0 => txt "OutputPulseOnChannel0"
  | UInputPulseOnChannel1 => txt "InputPulseOnChannel1"
  | UOutputPulseOnChannel1 => txt "OutputPulseOnChannel1"
  | ULiter => txt "l"
  | UVolt => txt "V"
  | UAmpere => txt "A"
  | ULocalMoneyCurrency => txt "$ (local)"
  | USymbol => txt "Symbol"
  | UBitTime => txt "BitTime"
  | UDecibelMilliWatt => txt "dBmW"
  | UPercent => txt "%"
  | UDegree => [0xB0]
  | UHertz => txt "Hz"
  | UHCAUnit => txt "HCAUnit"
  | UFahrenheit => [0xB0] ++ txt "F"
  | UAmericanGallon => txt "UsGal"
  | UCalorie => txt "cal"
  end.

(** value_information.rs:1244, [superscripts]; used below with a digit only *)
Definition superscript (d : N) : N :=
  if d =? 1 then 0xB9 else if d =? 2 then 0xB2 else if d =? 3 then 0xB3 else 0x2070 + d.

(** value_information.rs:1242-1287, [Display for Unit]; 0x207B is the superscript minus *)
Definition show_unit (u : unit_) : text :=
  let e := u_exponent u in
  let name := show_unit_name (u_name u) in
  if (e =? 1)%Z then name
  else if (0 <=? e)%Z && (e <=? 9)%Z then name ++ [superscript (Z.to_N e)]
  else if (10 <=? e)%Z && (e <=? 19)%Z then name ++ [superscript 1; superscript (Z.to_N (e - 10))]
  else if (-9 <=? e)%Z && (e <? 0)%Z then name ++ [0x207B; superscript (Z.to_N (- e))]
  else if (-19 <=? e)%Z && (e <? 0)%Z then name ++ [0x207B; superscript 1; superscript (Z.to_N (- e - 10))]
  else name ++ txt "^" ++ dec_Z e.

(** [Option::unwrap_or_default] on a string, src/output.rs:2005-2056, src/mbus_data.rs:778-810 *)
Definition or_empty (o : option text) : text := match o with Some t => t | None => [] end.

(** src/output.rs:1892-1918, [ucum_component]: the symbol *)
Definition ucum_symbol (u : unit_name) : option text :=
  match u with
  | UWatt => Some (txt "W")
  | UJoul => Some (txt "J")
  | UKilogram => Some (txt "kg")
  | UTonne => Some (txt "t")
  | UMeter => Some (txt "m")
  | UFeet => Some (txt "[ft_i]")
  | UCelsius => Some (txt "Cel")
  | UKelvin => Some (txt "K")
  | UBar => Some (txt "bar")
  | USecond => Some (txt "s")
  | UMinute => Some (txt "min")
  | UHour => Some (txt "h")
  | UDay => Some (txt "d")
  | UWeek => Some (txt "wk")
  | UMonth => Some (txt "mo")
  | UYear => Some (txt "a")
  | ULiter => Some (txt "L")
  | UVolt => Some (txt "V")
  | UAmpere => Some (txt "A")
  | UPercent => Some (txt "%")
  | UHertz => Some (txt "Hz")
  | UFahrenheit => Some (txt "[degF]")
  | UAmericanGallon => Some (txt "[gal_us]")
  | UCalorie => Some (txt "cal")
  | _ => None
  end.

(** src/output.rs:1892-1925, [ucum_component] *)
Definition ucum_component (u : unit_) : option text :=
  match ucum_symbol (u_name u) with
  | None => None
  | Some symbol => Some (if (u_exponent u =? 1)%Z then symbol else symbol ++ dec_Z (u_exponent u))
  end.

(** [collect::<Option<Vec<_>>>()] *)
Fixpoint all_some {A} (l : list (option A)) : option (list A) :=
  match l with
  | [] => Some []
  | o :: l' => match o, all_some l' with Some x, Some r => Some (x :: r) | _, _ => None end
  end.

(** src/output.rs:1883-1890, [unit_output] *)
Definition unit_output (units : list unit_) : text :=
  match all_some (map ucum_component units) with
  | Some components => join (txt ".") components
  | None => concat (map show_unit units)
  end.

(** data_information.rs:319-332 with the derived [Serialize]: the variant name *)
Definition month_identifier (m : month) : text :=
  txt match m with
      | January => "January" | February => "February" | March => "March" | April => "April"
      | May => "May" | June => "June" | July => "July" | August => "August"
      | September => "September" | October => "October" | November => "November"
      | December => "December"
      end.

(** src/output.rs:1613-1630, [month_number] *)
Definition month_number (m : month) : N :=
  match m with
  | January => 1 | February => 2 | March => 3 | April => 4 | May => 5 | June => 6
  | July => 7 | August => 8 | September => 9 | October => 10 | November => 11 | December => 12
  end.

(** [String::from_utf8]: the scalar values of well-formed UTF-8, [None] otherwise (standard
    library, no function of /repo; the ranges are those of the Unicode standard, table 3-7) *)
Definition continuation (b : N) : bool := (0x80 <=? b) && (b <=? 0xBF).
(** [String::from_utf8] *)
Fixpoint from_utf8 (data : bytes) : option text :=
  let cons c rest := match from_utf8 rest with Some t => Some (c :: t) | None => None end in
  match data with
  | [] => Some []
  | a :: rest1 =>
      if a <? 0x80 then cons a rest1
      else match rest1 with
      | [] => None
      | b :: rest2 =>
          if (0xC2 <=? a) && (a <=? 0xDF) then
            (if continuation b then cons ((a - 0xC0) * 64 + (b - 0x80)) rest2 else None)
          else match rest2 with
          | [] => None
          | c :: rest3 =>
              if (0xE0 <=? a) && (a <=? 0xEF) then
                (if continuation b && continuation c
                    && (negb (a =? 0xE0) || (0xA0 <=? b)) && (negb (a =? 0xED) || (b <=? 0x9F))
                 then cons ((a - 0xE0) * 4096 + (b - 0x80) * 64 + (c - 0x80)) rest3 else None)
              else match rest3 with
              | [] => None
              | d :: rest4 =>
                  if (0xF0 <=? a) && (a <=? 0xF4)
                     && continuation b && continuation c && continuation d
                     && (negb (a =? 0xF0) || (0x90 <=? b)) && (negb (a =? 0xF4) || (b <=? 0x8F))
                  then cons ((a - 0xF0) * 262144 + (b - 0x80) * 4096 + (c - 0x80) * 64 + (d - 0x80)) rest4
                  else None
              end
          end
      end
  end.

(** data_information.rs:306-313, [decode_text_unit]: the bytes in reverse order as UTF-8, or
    else each byte as the character of that number *)
Definition decode_text_unit (input : bytes) : text :=
  match from_utf8 (rev input) with
  | Some value => value
  | None => rev input
  end.

(** [format!("{x:.0}")] of an f64: rounded to an integer, ties to even (standard library, no
    function of /repo) *)
Definition show_f64_0 (x : f64) : text :=
  let sign (s : bool) := if s then [45] else [] in
  match x with
  | S754_zero s => sign s ++ txt "0"
  | S754_infinity s => sign s ++ txt "inf"
  | S754_nan => txt "NaN"
  | S754_finite s m e =>
      let n :=
        if (0 <=? e)%Z then N.pos m * 2 ^ Z.to_N e
        else
          let d := 2 ^ Z.to_N (- e) in
          let q := N.pos m / d in
          let r := N.pos m mod d in
          if 2 * r <? d then q
          else if d <? 2 * r then q + 1
          else if N.even q then q else q + 1 in
      sign s ++ dec n
  end.
