(** What the older JSON output ("json-legacy") should say: of the frame, of its user data, of its records, and in summary. *)
From Coq Require Import List NArith ZArith Bool String.
Import ListNotations.
From Verif Require Import Model.Base Model.Text Model.Core Model.F64 Model.Hex Model.Wired Model.Wireless Model.DataInfo
  Model.ValueInfo Model.UserData Model.Record Model.Show Model.Json Model.Legacy
  Spec.WiredSpec Spec.WirelessSpec Spec.AppSpec Spec.AnnotateSpec Spec.MbusSpec Spec.DetailSpec Spec.JsonSpec.
Open Scope N_scope.
Open Scope list_scope.

(** a case by its name alone, or with what is in it: {"name": contents} *)
Definition named (v : json) (name : string) : Prop := v = VString (txt name).
Definition holds (v : json) (name : string) (inner : json -> Prop) : Prop := exists w, v = VObject [(txt name, w)] /\ inner w.
(** something that may be missing: then there is null *)
Definition or_nothing {A} (is : A -> json -> Prop) (o : option json) (x : option A) : Prop :=
  match x with Some a => inside (is a) o | None => o = Some VNull end.
(** numbers: with a sign, and those that need not be integers ([number] is the text of one); one that is not finite is null *)
Definition is_number (n : N) (v : json) : Prop := v = VNumber (dec n).
Definition is_signed (z : Z) (v : json) : Prop := v = VNumber (dec_Z z).
Definition is_float (number : f64 -> text) (x : f64) (v : json) : Prop :=
  (finite x /\ v = VNumber (number x)) \/ (~ finite x /\ v = VNull).
Definition is_text (t : text) (v : json) : Prop := v = VString t.
Definition flagged (name : string) (b : bool) (v : json) : Prop := flag_of (field v name) b.

(** ** The frame *)
Definition says_function (f : function) (v : json) : Prop :=
  match f with
  | SndNk prm => holds v "SndNk" (flagged "prm" prm)
  | SndUd fcb => holds v "SndUd" (flagged "fcb" fcb)
  | ReqUd1 fcb => holds v "ReqUd1" (flagged "fcb" fcb)
  | ReqUd2 fcb => holds v "ReqUd2" (flagged "fcb" fcb)
  | RspUd acd dfc => holds v "RspUd" (fun w => flagged "acd" acd w /\ flagged "dfc" dfc w)
  | SndUd2 => named v "SndUd2"
  | SndUd3 => named v "SndUd3"
  | SndNr => named v "SndNr"
  | SendIr => named v "SendIr"
  | AccNr => named v "AccNr"
  | AccDmd => named v "AccDmd"
  | Ack => named v "Ack"
  | Nack => named v "Nack"
  | CnfIr => named v "CnfIr"
  end.
Definition says_address (a : address) (v : json) : Prop :=
  match a with
  | Uninitalized => named v "Uninitalized"
  | Primary b => holds v "Primary" (is_number b)
  | Secondary => named v "Secondary"
  | Broadcast reply => holds v "Broadcast" (flagged "reply_required" reply)
  end.
Definition says_link (f : function) (a : address) (v : json) : Prop :=
  inside (says_function f) (field v "function") /\ inside (says_address a) (field v "address").
(** three letters *)
Definition says_code (c : manufacturer_code) (v : json) : Prop :=
  field v "code" = Some (VArray [VString [mc1 c]; VString [mc2 c]; VString [mc3 c]]).
(** a kind of device that has a name is named; the others have the code after the name of their group *)
Definition device_names : list (device_type * string) :=
  [(DevOther, "Other"); (DevOilMeter, "OilMeter"); (DevElectricityMeter, "ElectricityMeter"); (DevGasMeter, "GasMeter");
   (DevHeatMeterReturn, "HeatMeterReturn"); (DevSteamMeter, "SteamMeter"); (DevWarmWaterMeter, "WarmWaterMeter");
   (DevWaterMeter, "WaterMeter"); (DevHeatCostAllocator, "HeatCostAllocator"); (DevCompressedAir, "CompressedAir");
   (DevCoolingMeterReturn, "CoolingMeterReturn"); (DevCoolingMeterFlow, "CoolingMeterFlow"); (DevHeatMeterFlow, "HeatMeterFlow");
   (DevCombinedHeatCoolingMeter, "CombinedHeatCoolingMeter"); (DevBusSystemComponent, "BusSystemComponent");
   (DevUnknownDevice, "UnknownDevice"); (DevIrrigationWaterMeter, "IrrigationWaterMeter"); (DevWaterDataLogger, "WaterDataLogger");
   (DevGasDataLogger, "GasDataLogger"); (DevGasConverter, "GasConverter"); (DevCalorificValue, "CalorificValue");
   (DevHotWaterMeter, "HotWaterMeter"); (DevColdWaterMeter, "ColdWaterMeter"); (DevDualRegisterWaterMeter, "DualRegisterWaterMeter");
   (DevPressureMeter, "PressureMeter"); (DevAdConverter, "AdConverter"); (DevSmokeDetector, "SmokeDetector");
   (DevRoomSensor, "RoomSensor"); (DevGasDetector, "GasDetector"); (DevElectricityBreaker, "ElectricityBreaker"); (DevValve, "Valve");
   (DevCustomerUnit, "CustomerUnit"); (DevWasteWaterMeter, "WasteWaterMeter"); (DevGarbage, "Garbage");
   (DevReservedCO2, "ReservedCO2"); (DevServiceTool, "ServiceTool"); (DevCommunicationController, "CommunicationController");
   (DevUnidirectionalRepeater, "UnidirectionalRepeater"); (DevBidirectionalRepeater, "BidirectionalRepeater");
   (DevRadioConverterSystemSide, "RadioConverterSystemSide"); (DevRadioConverterMeterSide, "RadioConverterMeterSide");
   (DevBusConverterMeterSide, "BusConverterMeterSide"); (DevWildcard, "Wildcard")]%string.
Definition says_device (d : device_type) (v : json) : Prop :=
  match d with
  | DevReservedSensor c => holds v "ReservedSensor" (is_number c)
  | DevReservedSwitch c => holds v "ReservedSwitch" (is_number c)
  | DevReservedCustomer c => holds v "ReservedCustomer" (is_number c)
  | DevReservedEnvironmental c => holds v "ReservedEnvironmental" (is_number c)
  | DevReservedSystem c => holds v "ReservedSystem" (is_number c)
  | DevReserved c => holds v "Reserved" (is_number c)
  | _ => exists name, In (d, name) device_names /\ named v name
  end.
Definition says_meter_id (m : manufacturer_id) (v : json) : Prop :=
  inside (says_code (mi_manufacturer_code m)) (field v "manufacturer_code") /\
  inside (fun w => number_of (field w "number") (mi_identification_number m)) (field v "identification_number") /\
  inside (says_device (mi_device_type m)) (field v "device_type") /\ number_of (field v "version") (mi_version m) /\
  flag_of (field v "is_unique_globally") (mi_is_unique_globally m).
Definition says_any_frame (f : wired_frame + wireless_frame) (v : json) : Prop :=
  match f with
  | inl (SingleCharacter c) => holds v "SingleCharacter" (fun w => number_of (field w "character") c)
  | inl (ShortFrame f a) => holds v "ShortFrame" (says_link f a)
  | inl (LongFrame f a _) => holds v "LongFrame" (says_link f a)
  | inl (ControlFrame f a _) => holds v "ControlFrame" (says_link f a)
  | inr w =>
      number_of (field v "control_field") (wf_control_field w) /\
      or_nothing says_function (field v "function") (wf_function w) /\
      inside (says_meter_id (wf_manufacturer_id w)) (field v "manufacturer_id") /\
      text_of (field v "data") (hex_string (wf_data w))
  end.

(** ** The user data: the headers, not the data *)

(** the bits of a status, each with its name *)
Definition status_names : list (N * string) :=
  [(0, "COUNTER_BINARY_SIGNED"); (1, "COUNTER_FIXED_DATE"); (2, "POWER_LOW"); (3, "PERMANENT_ERROR");
   (4, "TEMPORARY_ERROR"); (5, "MANUFACTURER_SPECIFIC_1"); (6, "MANUFACTURER_SPECIFIC_2"); (7, "MANUFACTURER_SPECIFIC_3")]%string.
(** the names of the bits set, with " | " between them *)
Inductive flag_words (bits : N) : list (N * string) -> list text -> Prop :=
| NoWords : flag_words bits [] []
| WordSet i name rest ws : N.testbit bits i = true -> flag_words bits rest ws -> flag_words bits ((i, name) :: rest) (txt name :: ws)
| WordNot i name rest ws : N.testbit bits i = false -> flag_words bits rest ws -> flag_words bits ((i, name) :: rest) ws.
Inductive strung (sep : text) : list text -> text -> Prop :=
| StrungNone : strung sep [] []
| StrungOne t : strung sep [t] t
| StrungMore t u l r : strung sep (u :: l) r -> strung sep (t :: u :: l) (t ++ sep ++ r).
Definition says_flags (bits : N) (o : option json) : Prop :=
  exists ws t, flag_words bits status_names ws /\ strung (txt " | ") ws t /\ text_of o t.
Definition says_short_header (h : short_tpl_header) (v : json) : Prop :=
  number_of (field v "access_number") (sh_access_number h) /\ says_flags (sh_status h) (field v "status") /\
  inside (fun w => number_of (field w "raw") (sh_configuration_field h)) (field v "configuration_field").
(** the manufacturer's code, or the number that is none *)
Definition says_maker (m : outcome application_layer_error manufacturer_code) (v : json) : Prop :=
  match m with
  | Ok c => holds v "Ok" (says_code c)
  | Err (InvalidManufacturerCode n) =>
      holds v "Err" (fun w => holds w "InvalidManufacturerCode" (fun x => number_of (field x "code") n))
  | _ => False
  end.
Definition says_long_header (h : long_tpl_header) (v : json) : Prop :=
  inside (fun w => number_of (field w "number") (lh_identification_number h)) (field v "identification_number") /\
  inside (says_maker (lh_manufacturer h)) (field v "manufacturer") /\ number_of (field v "version") (lh_version h) /\
  inside (says_device (lh_device_type h)) (field v "device_type") /\
  inside (says_short_header (lh_short_tpl_header h)) (field v "short_tpl_header") /\
  flag_of (field v "lsb_order") (lh_lsb_order h).
Definition says_receiver (r : receiver_address) (v : json) : Prop :=
  number_of (field v "manufacturer") (ra_manufacturer r) /\ list_of is_number (field v "address") (ra_address r).
Definition says_encryption (e : encryption_fields) (v : json) : Prop :=
  list_of is_number (field v "session_number") (ef_session_number e) /\ number_of (field v "payload_crc") (ef_payload_crc e).
Definition says_extended (e : extended_link_layer) (v : json) : Prop :=
  number_of (field v "communication_control") (ell_communication_control e) /\
  number_of (field v "access_number") (ell_access_number e) /\
  or_nothing says_receiver (field v "receiver_address") (ell_receiver_address e) /\
  or_nothing says_encryption (field v "encryption") (ell_encryption e).
(** the names of the sixteen subcodes of an application reset, by their low four bits; the byte follows *)
Definition subcode_names : list string :=
  ["All"; "UserData"; "SimpleBilling"; "EnhancedBilling"; "MultiTariffBilling"; "InstantaneousValues"; "LoadManagementValues";
   "Reserved1"; "InstallationStartup"; "Testing"; "Calibration"; "ConfigurationUpdates"; "Manufacturing"; "Development";
   "Selftest"; "Reserved2"]%string.
Definition says_subcode (b : N) (v : json) : Prop :=
  exists name, nth_error subcode_names (N.to_nat (b mod 16)) = Some name /\ holds v name (is_number b).
Definition says_user_data (u : user_data_block) (v : json) : Prop :=
  match u with
  | ResetAtApplicationLevel s =>
      holds v "ResetAtApplicationLevel" (fun w =>
        exists b code, nth_error reset_codes (N.to_nat (b mod 16)) = Some code /\ s = code b /\ inside (says_subcode b) (field w "subcode"))
  | FixedDataStructure id access status device_and_unit counter1 counter2 =>
      holds v "FixedDataStructure" (fun w =>
        inside (fun x => number_of (field x "number") id) (field w "identification_number") /\
        number_of (field w "access_number") access /\ says_flags status (field w "status") /\
        number_of (field w "device_type_and_unit") device_and_unit /\
        inside (fun x => number_of (field x "count") counter1) (field w "counter1") /\
        inside (fun x => number_of (field x "count") counter2) (field w "counter2"))
  | VariableLong ell h _ =>
      holds v "VariableDataStructureWithLongTplHeader" (fun w =>
        or_nothing says_extended (field w "extended_link_layer") ell /\ inside (says_long_header h) (field w "long_tpl_header"))
  | VariableShort ell h _ =>
      holds v "VariableDataStructureWithShortTplHeader" (fun w =>
        or_nothing says_extended (field w "extended_link_layer") ell /\ inside (says_short_header h) (field w "short_tpl_header"))
  | VariableNone ell _ =>
      holds v "VariableDataStructureWithoutTplHeader" (fun w => or_nothing says_extended (field w "extended_link_layer") ell)
  end.

(** ** The records *)
Definition data_byte (b : N) (v : json) : Prop := number_of (field v "data") b.
Definition letter (c : N) (v : json) : Prop := v = VString [c].
Definition numbers_in (l : list N) (v : json) : Prop := list_of is_number (Some v) l.
Definition says_raw_header (h : raw_data_record_header) (v : json) : Prop :=
  inside (fun w =>
    inside (data_byte (dib_dif (rh_dib h))) (field w "data_information_field") /\
    or_nothing numbers_in (field w "data_information_field_extension") (dib_difes (rh_dib h))) (field v "data_information_block") /\
  or_nothing (fun b w =>
    inside (data_byte (vib_vif b)) (field w "value_information") /\
    or_nothing (fun l x => list_of data_byte (Some x) l) (field w "value_information_extension") (vib_vifes b) /\
    or_nothing (fun l x => list_of letter (Some x) l) (field w "plaintext_vife") (vib_plaintext b))
    (field v "value_information_block") (rh_vib h).
Definition function_names (f : function_field) : string :=
  match f with
  | InstantaneousValue => "InstantaneousValue"
  | MaximumValue => "MaximumValue"
  | MinimumValue => "MinimumValue"
  | ValueDuringErrorState => "ValueDuringErrorState"
  end.
(** the names of the codings, by the low four bits of the DIF *)
Definition coding_names : list (data_field_coding * string) :=
  [(CNoData, "NoData"); (CInteger8Bit, "Integer8Bit"); (CInteger16Bit, "Integer16Bit"); (CInteger24Bit, "Integer24Bit");
   (CInteger32Bit, "Integer32Bit"); (CReal32Bit, "Real32Bit"); (CInteger48Bit, "Integer48Bit"); (CInteger64Bit, "Integer64Bit");
   (CSelectionForReadout, "SelectionForReadout"); (CBCD2Digit, "BCD2Digit"); (CBCD4Digit, "BCD4Digit");
   (CBCD6Digit, "BCD6Digit"); (CBCD8Digit, "BCD8Digit"); (CVariableLength, "VariableLength"); (CBCDDigit12, "BCDDigit12");
   (CDateTypeG, "DateTypeG"); (CDateTimeTypeF, "DateTimeTypeF"); (CDateTimeTypeJ, "DateTimeTypeJ"); (CDateTimeTypeI, "DateTimeTypeI")]%string.
Definition special_names : list (special_functions * string) :=
  [(SFManufacturerSpecific, "ManufacturerSpecific"); (SFMoreRecordsFollow, "MoreRecordsFollow"); (SFIdleFiller, "IdleFiller");
   (SFReserved, "Reserved"); (SFGlobalReadoutRequest, "GlobalReadoutRequest")]%string.
Definition says_coding (c : data_field_coding) (v : json) : Prop :=
  (exists name, In (c, name) coding_names /\ named v name) \/
  (exists s name, c = CSpecialFunctions s /\ In (s, name) special_names /\ holds v "SpecialFunctions" (fun w => named w name)).
Definition says_information (d : data_information) (v : json) : Prop :=
  number_of (field v "storage_number") (di_storage_number d) /\ number_of (field v "tariff") (di_tariff d) /\
  number_of (field v "device") (di_device d) /\
  field v "data_information_extension" = Some (if di_extension d then VObject [] else VNull) /\
  text_of (field v "function_field") (txt (function_names (di_function_field d))) /\
  inside (says_coding (di_data_field_coding d)) (field v "data_field_coding") /\ number_of (field v "size") (di_size d).
(** the names of the units *)
Definition unit_names : list (unit_name * string) :=
  [(UWatt, "Watt"); (UReactiveWatt, "ReactiveWatt"); (UApparentWatt, "ApparentWatt"); (UJoul, "Joul"); (UKilogram, "Kilogram");
   (UTonne, "Tonne"); (UMeter, "Meter"); (UFeet, "Feet"); (UCelsius, "Celsius"); (UKelvin, "Kelvin"); (UBar, "Bar"); (UHCA, "HCA");
   (UReserved, "Reserved"); (UWithoutUnits, "WithoutUnits"); (USecond, "Second"); (UMinute, "Minute"); (UHour, "Hour"); (UDay, "Day");
   (UWeek, "Week"); (UMonth, "Month"); (UYear, "Year"); (URevolution, "Revolution"); (UIncrement, "Increment");
   (UInputPulseOnChannel0, "InputPulseOnChannel0"); (UOutputPulseOnChannel0, "OutputPulseOnChannel0");
   (UInputPulseOnChannel1, "InputPulseOnChannel1"); (UOutputPulseOnChannel1, "OutputPulseOnChannel1"); (ULiter, "Liter");
   (UVolt, "Volt"); (UAmpere, "Ampere"); (ULocalMoneyCurrency, "LocalMoneyCurrency"); (USymbol, "Symbol"); (UBitTime, "BitTime");
   (UDecibelMilliWatt, "DecibelMilliWatt"); (UPercent, "Percent"); (UDegree, "Degree"); (UHertz, "Hertz"); (UHCAUnit, "HCAUnit");
   (UFahrenheit, "Fahrenheit"); (UAmericanGallon, "AmericanGallon"); (UCalorie, "Calorie")]%string.
Definition says_unit (u : unit_) (v : json) : Prop :=
  (exists name, In (u_name u, name) unit_names /\ text_of (field v "name") (txt name)) /\
  inside (is_signed (u_exponent u)) (field v "exponent").
(** the names of the labels *)
Definition label_names : list (value_label * string) :=
  [(LInstantaneous, "Instantaneous"); (LReservedForObjectActions, "ReservedForObjectActions"); (LReserved, "Reserved");
   (LAveraged, "Averaged"); (LIntegral, "Integral"); (LParameter, "Parameter"); (LInverseCompactProfile, "InverseCompactProfile");
   (LRelativeDeviation, "RelativeDeviation"); (LRecordErrorCodes, "RecordErrorCodes");
   (LStandardConformDataContent, "StandardConformDataContent");
   (LCompactProfileWithRegisterNumbers, "CompactProfileWithRegisterNumbers"); (LCompactProfile, "CompactProfile");
   (LActualityDuration, "ActualityDuration"); (LAveragingDuration, "AveragingDuration"); (LDate, "Date"); (LTime, "Time");
   (LDateTime, "DateTime"); (LDateTimeWithSeconds, "DateTimeWithSeconds"); (LFabricationNumber, "FabricationNumber");
   (LEnhancedIdentification, "EnhancedIdentification"); (LAddress, "Address"); (LPlainText, "PlainText");
   (LRevolutionOrMeasurement, "RevolutionOrMeasurement"); (LIncrementPerInputPulseOnChannelP, "IncrementPerInputPulseOnChannelP");
   (LIncrementPerOutputPulseOnChannelP, "IncrementPerOutputPulseOnChannelP"); (LHourMinuteSecond, "HourMinuteSecond");
   (LDayMonthYear, "DayMonthYear"); (LStartDateOf, "StartDateOf");
   (LVifContainsUncorrectedUnitOrValue, "VifContainsUncorrectedUnitOrValue");
   (LAccumulationOnlyIfValueIsPositive, "AccumulationOnlyIfValueIsPositive");
   (LAccumulationOnlyIfValueIsNegative, "AccumulationOnlyIfValueIsNegative"); (LNonMetricUnits, "NonMetricUnits");
   (LAlternativeNonMetricUnits, "AlternativeNonMetricUnits"); (LValueAtBaseConditions, "ValueAtBaseConditions");
   (LObisDeclaration, "ObisDeclaration"); (LUpperLimitValue, "UpperLimitValue"); (LLowerLimitValue, "LowerLimitValue");
   (LNumberOfExceedsOfUpperLimitValue, "NumberOfExceedsOfUpperLimitValue");
   (LNumberOfExceedsOfLowerLimitValue, "NumberOfExceedsOfLowerLimitValue");
   (LDateOfBeginFirstLowerLimitExceed, "DateOfBeginFirstLowerLimitExceed");
   (LDateOfBeginFirstUpperLimitExceed, "DateOfBeginFirstUpperLimitExceed");
   (LDateOfBeginLastLowerLimitExceed, "DateOfBeginLastLowerLimitExceed");
   (LDateOfBeginLastUpperLimitExceed, "DateOfBeginLastUpperLimitExceed");
   (LDateOfEndLastLowerLimitExceed, "DateOfEndLastLowerLimitExceed");
   (LDateOfEndLastUpperLimitExceed, "DateOfEndLastUpperLimitExceed");
   (LDateOfEndFirstLowerLimitExceed, "DateOfEndFirstLowerLimitExceed");
   (LDateOfEndFirstUpperLimitExceed, "DateOfEndFirstUpperLimitExceed");
   (LDurationOfFirstLowerLimitExceed, "DurationOfFirstLowerLimitExceed");
   (LDurationOfFirstUpperLimitExceed, "DurationOfFirstUpperLimitExceed");
   (LDurationOfLastLowerLimitExceed, "DurationOfLastLowerLimitExceed");
   (LDurationOfLastUpperLimitExceed, "DurationOfLastUpperLimitExceed"); (LDurationOfFirst, "DurationOfFirst");
   (LDurationOfLast, "DurationOfLast"); (LValueDuringLowerValueExceed, "ValueDuringLowerValueExceed");
   (LValueDuringUpperValueExceed, "ValueDuringUpperValueExceed"); (LLeakageValues, "LeakageValues");
   (LOverflowValues, "OverflowValues"); (LDateOfBeginLast, "DateOfBeginLast"); (LDateOfBeginFirst, "DateOfBeginFirst");
   (LDateOfEndLast, "DateOfEndLast"); (LDateOfEndFirst, "DateOfEndFirst");
   (LExtensionOfCombinableOrthogonalVIFE, "ExtensionOfCombinableOrthogonalVIFE"); (LFutureValue, "FutureValue");
   (LNextVIFEAndDataOfThisBlockAreManufacturerSpecific, "NextVIFEAndDataOfThisBlockAreManufacturerSpecific"); (LCredit, "Credit");
   (LDebit, "Debit"); (LUniqueMessageIdentificationOrAccessNumber, "UniqueMessageIdentificationOrAccessNumber");
   (LDeviceType, "DeviceType"); (LManufacturer, "Manufacturer"); (LParameterSetIdentification, "ParameterSetIdentification");
   (LModelOrVersion, "ModelOrVersion"); (LHardwareVersion, "HardwareVersion");
   (LMetrologyFirmwareVersion, "MetrologyFirmwareVersion"); (LOtherSoftwareVersion, "OtherSoftwareVersion");
   (LCustomerLocation, "CustomerLocation"); (LCustomer, "Customer"); (LAccessCodeUser, "AccessCodeUser");
   (LAccessCodeOperator, "AccessCodeOperator"); (LAccessCodeSystemOperator, "AccessCodeSystemOperator");
   (LAccessCodeDeveloper, "AccessCodeDeveloper"); (LPassword, "Password"); (LErrorFlags, "ErrorFlags"); (LErrorMask, "ErrorMask");
   (LSecurityKey, "SecurityKey"); (LDigitalInput, "DigitalInput"); (LDigitalOutput, "DigitalOutput"); (LBinary, "Binary");
   (LBaudRate, "BaudRate"); (LResponseDelayTime, "ResponseDelayTime"); (LRetry, "Retry"); (LRemoteControl, "RemoteControl");
   (LFirstStorageForCycleStorage, "FirstStorageForCycleStorage"); (LLastStorageForCycleStorage, "LastStorageForCycleStorage");
   (LSizeOfStorageBlock, "SizeOfStorageBlock"); (LDescriptionOfTariffAndSubunit, "DescriptionOfTariffAndSubunit");
   (LStorageInterval, "StorageInterval"); (LDimensionless, "Dimensionless"); (LDimensionlessHCA, "DimensionlessHCA");
   (LDataContainerForWmbusProtocol, "DataContainerForWmbusProtocol");
   (LPeriodOfNormalDataTransmission, "PeriodOfNormalDataTransmission"); (LResetCounter, "ResetCounter");
   (LCumulationCounter, "CumulationCounter"); (LControlSignal, "ControlSignal"); (LDayOfWeek, "DayOfWeek");
   (LWeekNumber, "WeekNumber"); (LTimePointOfChangeOfTariff, "TimePointOfChangeOfTariff");
   (LStateOfParameterActivation, "StateOfParameterActivation"); (LSpecialSupplierInformation, "SpecialSupplierInformation");
   (LDurationSinceLastCumulation, "DurationSinceLastCumulation"); (LOperatingTimeBattery, "OperatingTimeBattery");
   (LDateAndTimeOfBatteryChange, "DateAndTimeOfBatteryChange"); (LRFPowerLevel, "RFPowerLevel");
   (LDaylightSavingBeginningEndingDeviation, "DaylightSavingBeginningEndingDeviation");
   (LListeningWindowManagementData, "ListeningWindowManagementData"); (LRemainingBatteryLifeTime, "RemainingBatteryLifeTime");
   (LNumberOfTimesTheMeterWasStopped, "NumberOfTimesTheMeterWasStopped");
   (LDataContainerForManufacturerSpecificProtocol, "DataContainerForManufacturerSpecificProtocol");
   (LCurrentlySelectedApplication, "CurrentlySelectedApplication"); (LEnergy, "Energy"); (LReactiveEnergy, "ReactiveEnergy");
   (LApparentEnergy, "ApparentEnergy"); (LCoefficientOfPerformance, "CoefficientOfPerformance"); (LReactivePower, "ReactivePower");
   (LFrequency, "Frequency"); (LApparentPower, "ApparentPower"); (LAtPhaseL1, "AtPhaseL1"); (LAtPhaseL2, "AtPhaseL2");
   (LAtPhaseL3, "AtPhaseL3"); (LAtNeutral, "AtNeutral"); (LBetweenPhasesL1L2, "BetweenPhasesL1L2");
   (LBetweenPhasesL2L3, "BetweenPhasesL2L3"); (LBetweenPhasesL3L1, "BetweenPhasesL3L1"); (LAtQuadrant1, "AtQuadrant1");
   (LAtQuadrant2, "AtQuadrant2"); (LAtQuadrant3, "AtQuadrant3"); (LAtQuadrant4, "AtQuadrant4");
   (LDeltaBetweenImportAndExport, "DeltaBetweenImportAndExport");
   (LAccumulationOfAbsoluteValueBothPositiveAndNegativeContribution, "AccumulationOfAbsoluteValueBothPositiveAndNegativeContribution");
   (LSecondarySensorMeasurement, "SecondarySensorMeasurement"); (LHigherResolutionRegister, "HigherResolutionRegister");
   (LDataPresentedWithTypeC, "DataPresentedWithTypeC"); (LDataPresentedWithTypeD, "DataPresentedWithTypeD"); (LEndDate, "EndDate");
   (LDirectionFromCommunicationPartnerToMeter, "DirectionFromCommunicationPartnerToMeter");
   (LDirectionFromMeterToCommunicationPartner, "DirectionFromMeterToCommunicationPartner"); (LRelativeHumidity, "RelativeHumidity");
   (LMoistureLevel, "MoistureLevel"); (LPhaseUtoU, "PhaseUtoU"); (LPhaseUtoI, "PhaseUtoI"); (LPhaseItoU, "PhaseItoU");
   (LColdWarmTemperatureLimit, "ColdWarmTemperatureLimit"); (LCumulativeMaximumOfActivePower, "CumulativeMaximumOfActivePower");
   (LResultingRatingFactor, "ResultingRatingFactor"); (LThermalOutputRatingFactor, "ThermalOutputRatingFactor");
   (LThermalCouplingRatingFactorOverall, "ThermalCouplingRatingFactorOverall");
   (LThermalCouplingRatingRoomSide, "ThermalCouplingRatingRoomSide");
   (LThermalCouplingRatingFactorHeatingSide, "ThermalCouplingRatingFactorHeatingSide");
   (LLowTemperatureRatingFactor, "LowTemperatureRatingFactor"); (LDisplayOutputScalingFactor, "DisplayOutputScalingFactor");
   (LManufacturerSpecific, "ManufacturerSpecific"); (LOnTime, "OnTime"); (LOperatingTime, "OperatingTime"); (LVolume, "Volume");
   (LMass, "Mass"); (LPower, "Power"); (LVolumeFlow, "VolumeFlow"); (LMassFlow, "MassFlow"); (LPressure, "Pressure");
   (LVoltage, "Voltage"); (LCurrent, "Current"); (LFlowTemperature, "FlowTemperature"); (LReturnTemperature, "ReturnTemperature");
   (LTemperatureDifference, "TemperatureDifference"); (LExternalTemperature, "ExternalTemperature")]%string.
Definition says_quantity (x : value_information) (v : json) : Prop :=
  inside (is_signed (vi_decimal_offset_exponent x)) (field v "decimal_offset_exponent") /\
  inside (is_signed (vi_decimal_scale_exponent x)) (field v "decimal_scale_exponent") /\
  list_of (fun l w => exists name, In (l, name) label_names /\ named w name) (field v "labels") (vi_labels x) /\
  list_of says_unit (field v "units") (vi_units x).
(** one part of a date or time *)
Definition says_single {A} (is : A -> json -> Prop) (x : single_every_or_invalid A) (v : json) : Prop :=
  match x with
  | Single a => holds v "Single" (is a)
  | Every => holds v "Every" (fun w => w = VArray [])
  | Invalid => holds v "Invalid" (fun w => w = VArray [])
  end.
Definition month_names : list (month * string) :=
  [(January, "January"); (February, "February"); (March, "March"); (April, "April"); (May, "May"); (June, "June"); (July, "July");
   (August, "August"); (September, "September"); (October, "October"); (November, "November"); (December, "December")]%string.
Definition says_month (m : month) (v : json) : Prop := exists name, In (m, name) month_names /\ named v name.
Definition says_parts (parts : list (json -> Prop)) (v : json) : Prop :=
  exists l, v = VArray l /\ Forall2 (fun (is : json -> Prop) w => is w) parts l.
Definition says_data_value (number : f64 -> text) (d : data_type) (v : json) : Prop :=
  let part := says_single is_number in
  match d with
  | Text t => holds v "Text" (fun w => exists s, reads_text t s /\ w = VString s)
  | Number x => holds v "Number" (is_float number x)
  | LossyNumber x => holds v "LossyNumber" (is_float number x)
  | Date day m year => holds v "Date" (says_parts [part day; says_single says_month m; part year])
  | Time second minute hour => holds v "Time" (says_parts [part second; part minute; part hour])
  | DateTime day m year hour minute =>
      holds v "DateTime" (says_parts [part day; says_single says_month m; part year; part hour; part minute])
  | DateTimeWithSeconds day m year hour minute second =>
      holds v "DateTimeWithSeconds"
        (says_parts [part day; says_single says_month m; part year; part hour; part minute; part second])
  | ManufacturerSpecific l => holds v "ManufacturerSpecific" (is_text (hex_string l))
  end.
Definition says_data_record (number : f64 -> text) (r : data_record) (v : json) : Prop :=
  text_of (field v "raw_bytes") (hex_string (dr_raw_bytes r)) /\
  inside (fun w => or_nothing (says_data_value number) (field w "value") (d_value (dr_data r)) /\
                   number_of (field w "size") (d_size (dr_data r))) (field v "data") /\
  inside (fun w =>
    inside (says_raw_header (drh_raw (dr_header r))) (field w "raw_data_record_header") /\
    inside (fun x =>
      or_nothing says_information (field x "data_information") (ph_data_information (drh_processed (dr_header r))) /\
      or_nothing says_quantity (field x "value_information") (ph_value_information (drh_processed (dr_header r))))
      (field w "processed_data_record_header")) (field v "data_record_header").

(** ** The summary *)
Definition says_maker_summary (m : manufacturer_summary) (v : json) : Prop :=
  text_of (field v "code") (ms_code m) /\
  match ms_info m with
  | Some (name, website, description) =>
      text_of (field v "name") name /\ text_of (field v "website") website /\ text_of (field v "description") description
  | None => field v "name" = None /\ field v "website" = None /\ field v "description" = None
  end.
Definition says_record_summary (number : f64 -> text) (r : record_summary) (v : json) : Prop :=
  text_of (field v "display") (rs_display r) /\
  if_there (fun o x => inside (is_float number x) o) (field v "value") (rs_value r) /\
  if_there (fun o z => inside (is_signed z) o) (field v "exponent") (rs_exponent r) /\
  if_there text_of (field v "unit") (rs_unit r) /\ if_there text_of (field v "quantity") (rs_quantity r) /\
  text_of (field v "data_information") (rs_data_information r) /\
  text_of (field v "header_hex") (rs_header_hex r) /\ text_of (field v "data_hex") (rs_data_hex r).
Definition says_summary (number : f64 -> text) (s : Legacy.frame_summary) (v : json) : Prop :=
  text_of (field v "frame_type") (fs_frame_type s) /\ if_there text_of (field v "function") (fs_function s) /\
  if_there text_of (field v "address") (fs_address s) /\
  if_there text_of (field v "identification_number") (fs_identification_number s) /\
  if_there (fun o m => inside (says_maker_summary m) o) (field v "manufacturer") (fs_manufacturer s) /\
  if_there number_of (field v "access_number") (fs_access_number s) /\ if_there text_of (field v "status") (fs_status s) /\
  if_there text_of (field v "security_mode") (fs_security_mode s) /\ if_there number_of (field v "version") (fs_version s) /\
  if_there text_of (field v "device_type") (fs_device_type s) /\ flag_of (field v "encrypted") (fs_encrypted s) /\
  flag_of (field v "decrypted") (fs_decrypted s) /\
  if_there text_of (field v "encrypted_payload_hex") (fs_encrypted_payload_hex s) /\
  list_of (says_record_summary number) (field v "records") (fs_records s).

(** all of it *)
Definition says_older (number : f64 -> text) (o : parsed_output) (v : json) : Prop :=
  inside (says_any_frame (po_frame o)) (field v "frame") /\
  or_nothing says_user_data (field v "user_data") (po_user_data o) /\
  or_nothing (fun rs w => list_of (says_data_record number) (Some w) rs) (field v "data_records") (po_records o) /\
  inside (says_summary number (po_summary o)) (field v "summary").

(** the frame in received bytes, and its payload if it has one *)
Inductive any_frame (data : list N) : wired_frame + wireless_frame -> option (list N) -> Prop :=
| AnyLong f a payload : wired_meaning data (LongFrame f a payload) -> any_frame data (inl (LongFrame f a payload)) (Some payload)
| AnyWired w : wired_meaning data w -> (forall f a payload, w <> LongFrame f a payload) -> any_frame data (inl w) None
| AnyAir w fr : not_wired data -> received data w -> wireless_meaning w fr -> any_frame data (inr fr) (Some (wf_data fr)).
(** the user data of a payload, if they can be read *)
Definition application_of (payload : option (list N)) (u : option user_data_block) : Prop :=
  match payload, u with
  | Some p, Some x => app_meaning p x
  | Some p, None => forall x, ~ app_meaning p x
  | None, _ => u = None
  end.

(** ** What of it can be told from the JSON *)

(** a frame without its payload, which a wired frame does not show; user data without the data *)
Definition frame_head (f : wired_frame + wireless_frame) : wired_frame + wireless_frame :=
  match f with
  | inl (LongFrame f a _) => inl (LongFrame f a [])
  | inl (ControlFrame f a _) => inl (ControlFrame f a [])
  | _ => f
  end.
Definition user_data_head (u : user_data_block) : user_data_block :=
  match u with
  | VariableLong ell h _ => VariableLong ell h []
  | VariableShort ell h _ => VariableShort ell h []
  | VariableNone ell _ => VariableNone ell []
  | _ => u
  end.
(** frames that the JSON does not tell apart: of a wireless frame it shows the data, in hexadecimal *)
Definition frame_shown (f f' : wired_frame + wireless_frame) : Prop :=
  match f, f' with
  | inr w, inr w' =>
      wf_control_field w = wf_control_field w' /\ wf_function w = wf_function w' /\ wf_manufacturer_id w = wf_manufacturer_id w' /\
      hex_string (wf_data w) = hex_string (wf_data w')
  | _, _ => frame_head f = frame_head f'
  end.
(** the bytes of the records, in hexadecimal *)
Definition record_bytes (o : parsed_output) : option (list text) :=
  option_map (map (fun r => hex_string (dr_raw_bytes r))) (po_records o).
(** two summaries of a record that say the same, except that values that are not finite are not told apart *)
Definition alike (r r' : record_summary) : Prop :=
  rs_display r = rs_display r' /\
  (rs_value r = rs_value r' \/ exists x x', rs_value r = Some x /\ rs_value r' = Some x' /\ ~ finite x /\ ~ finite x') /\
  rs_exponent r = rs_exponent r' /\ rs_unit r = rs_unit r' /\ rs_quantity r = rs_quantity r' /\
  rs_data_information r = rs_data_information r' /\ rs_header_hex r = rs_header_hex r' /\ rs_data_hex r = rs_data_hex r'.
Definition alike_summaries (s s' : Legacy.frame_summary) : Prop :=
  fs_frame_type s = fs_frame_type s' /\ fs_function s = fs_function s' /\ fs_address s = fs_address s' /\
  fs_identification_number s = fs_identification_number s' /\ fs_manufacturer s = fs_manufacturer s' /\
  fs_access_number s = fs_access_number s' /\ fs_status s = fs_status s' /\ fs_security_mode s = fs_security_mode s' /\
  fs_version s = fs_version s' /\ fs_device_type s = fs_device_type s' /\ fs_encrypted s = fs_encrypted s' /\
  fs_decrypted s = fs_decrypted s' /\ fs_encrypted_payload_hex s = fs_encrypted_payload_hex s' /\
  Forall2 alike (fs_records s) (fs_records s').
