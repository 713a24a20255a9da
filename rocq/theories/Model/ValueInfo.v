(** Model of crates/m-bus-application-layer/src/value_information.rs.

    The match arms below were transcribed mechanically from the Rust source: one
    [if] per arm, in source order, each arm the list of its effects. *)
From Verif Require Import Model.Base Model.DataInfo.

(** value_information.rs:1292-1334 *)
Inductive unit_name :=
| UWatt
| UReactiveWatt
| UApparentWatt
| UJoul
| UKilogram
| UTonne
| UMeter
| UFeet
| UCelsius
| UKelvin
| UBar
| UHCA
| UReserved
| UWithoutUnits
| USecond
| UMinute
| UHour
| UDay
| UWeek
| UMonth
| UYear
| URevolution
| UIncrement
| UInputPulseOnChannel0
| UOutputPulseOnChannel0
| UInputPulseOnChannel1
| UOutputPulseOnChannel1
| ULiter
| UVolt
| UAmpere
| ULocalMoneyCurrency
| USymbol
| UBitTime
| UDecibelMilliWatt
| UPercent
| UDegree
| UHertz
| UHCAUnit
| UFahrenheit
| UAmericanGallon
| UCalorie.

(** value_information.rs:1064-1239 *)
Inductive value_label :=
| LInstantaneous
| LReservedForObjectActions
| LReserved
| LAveraged
| LIntegral
| LParameter
| LInverseCompactProfile
| LRelativeDeviation
| LRecordErrorCodes
| LStandardConformDataContent
| LCompactProfileWithRegisterNumbers
| LCompactProfile
| LActualityDuration
| LAveragingDuration
| LDate
| LTime
| LDateTime
| LDateTimeWithSeconds
| LFabricationNumber
| LEnhancedIdentification
| LAddress
| LPlainText
| LRevolutionOrMeasurement
| LIncrementPerInputPulseOnChannelP
| LIncrementPerOutputPulseOnChannelP
| LHourMinuteSecond
| LDayMonthYear
| LStartDateOf
| LVifContainsUncorrectedUnitOrValue
| LAccumulationOnlyIfValueIsPositive
| LAccumulationOnlyIfValueIsNegative
| LNonMetricUnits
| LAlternativeNonMetricUnits
| LValueAtBaseConditions
| LObisDeclaration
| LUpperLimitValue
| LLowerLimitValue
| LNumberOfExceedsOfUpperLimitValue
| LNumberOfExceedsOfLowerLimitValue
| LDateOfBeginFirstLowerLimitExceed
| LDateOfBeginFirstUpperLimitExceed
| LDateOfBeginLastLowerLimitExceed
| LDateOfBeginLastUpperLimitExceed
| LDateOfEndLastLowerLimitExceed
| LDateOfEndLastUpperLimitExceed
| LDateOfEndFirstLowerLimitExceed
| LDateOfEndFirstUpperLimitExceed
| LDurationOfFirstLowerLimitExceed
| LDurationOfFirstUpperLimitExceed
| LDurationOfLastLowerLimitExceed
| LDurationOfLastUpperLimitExceed
| LDurationOfFirst
| LDurationOfLast
| LValueDuringLowerValueExceed
| LValueDuringUpperValueExceed
| LLeakageValues
| LOverflowValues
| LDateOfBeginLast
| LDateOfBeginFirst
| LDateOfEndLast
| LDateOfEndFirst
| LExtensionOfCombinableOrthogonalVIFE
| LFutureValue
| LNextVIFEAndDataOfThisBlockAreManufacturerSpecific
| LCredit
| LDebit
| LUniqueMessageIdentificationOrAccessNumber
| LDeviceType
| LManufacturer
| LParameterSetIdentification
| LModelOrVersion
| LHardwareVersion
| LMetrologyFirmwareVersion
| LOtherSoftwareVersion
| LCustomerLocation
| LCustomer
| LAccessCodeUser
| LAccessCodeOperator
| LAccessCodeSystemOperator
| LAccessCodeDeveloper
| LPassword
| LErrorFlags
| LErrorMask
| LSecurityKey
| LDigitalInput
| LDigitalOutput
| LBinary
| LBaudRate
| LResponseDelayTime
| LRetry
| LRemoteControl
| LFirstStorageForCycleStorage
| LLastStorageForCycleStorage
| LSizeOfStorageBlock
| LDescriptionOfTariffAndSubunit
| LStorageInterval
| LDimensionless
| LDimensionlessHCA
| LDataContainerForWmbusProtocol
| LPeriodOfNormalDataTransmission
| LResetCounter
| LCumulationCounter
| LControlSignal
| LDayOfWeek
| LWeekNumber
| LTimePointOfChangeOfTariff
| LStateOfParameterActivation
| LSpecialSupplierInformation
| LDurationSinceLastCumulation
| LOperatingTimeBattery
| LDateAndTimeOfBatteryChange
| LRFPowerLevel
| LDaylightSavingBeginningEndingDeviation
| LListeningWindowManagementData
| LRemainingBatteryLifeTime
| LNumberOfTimesTheMeterWasStopped
| LDataContainerForManufacturerSpecificProtocol
| LCurrentlySelectedApplication
| LEnergy
| LReactiveEnergy
| LApparentEnergy
| LCoefficientOfPerformance
| LReactivePower
| LFrequency
| LApparentPower
| LAtPhaseL1
| LAtPhaseL2
| LAtPhaseL3
| LAtNeutral
| LBetweenPhasesL1L2
| LBetweenPhasesL2L3
| LBetweenPhasesL3L1
| LAtQuadrant1
| LAtQuadrant2
| LAtQuadrant3
| LAtQuadrant4
| LDeltaBetweenImportAndExport
| LAccumulationOfAbsoluteValueBothPositiveAndNegativeContribution
| LSecondarySensorMeasurement
| LHigherResolutionRegister
| LDataPresentedWithTypeC
| LDataPresentedWithTypeD
| LEndDate
| LDirectionFromCommunicationPartnerToMeter
| LDirectionFromMeterToCommunicationPartner
| LRelativeHumidity
| LMoistureLevel
| LPhaseUtoU
| LPhaseUtoI
| LPhaseItoU
| LColdWarmTemperatureLimit
| LCumulativeMaximumOfActivePower
| LResultingRatingFactor
| LThermalOutputRatingFactor
| LThermalCouplingRatingFactorOverall
| LThermalCouplingRatingRoomSide
| LThermalCouplingRatingFactorHeatingSide
| LLowTemperatureRatingFactor
| LDisplayOutputScalingFactor
| LManufacturerSpecific
| LOnTime
| LOperatingTime
| LVolume
| LMass
| LPower
| LVolumeFlow
| LMassFlow
| LPressure
| LVoltage
| LCurrent
| LFlowTemperature
| LReturnTemperature
| LTemperatureDifference
| LExternalTemperature.

(** value_information.rs:12-15 *)
Record unit_ := { u_name : unit_name; u_exponent : Z }.

(** value_information.rs:988-993 *)
Record value_information := {
  vi_decimal_offset_exponent : Z;
  vi_labels : list value_label;
  vi_decimal_scale_exponent : Z;
  vi_units : list unit_
}.

(** One statement of a match arm: a push onto [units] or [labels], an assignment or
    addition to [decimal_scale_exponent], an addition to
    [decimal_offset_exponent] (value_information.rs:215-218 declares the four
    variables). *)
Inductive vi_op :=
| PushUnit (n : unit_name) (e : Z)
| PushLabel (l : value_label)
| SetScale (z : Z)
| AddScale (z : Z)
| AddOffset (z : Z).

(** value_information.rs:215-216: both vectors are [ArrayVec<_, 10>], whose [push]
    panics when full.  The isize additions are bounded by ten steps of at most 9
    and are not wrapped. *)
Definition vi_run (op : vi_op) (s : value_information) : outcome data_information_error value_information :=
  match op with
  | PushUnit n e =>
      if len (vi_units s) <? 10 then
        Ok {| vi_decimal_offset_exponent := vi_decimal_offset_exponent s;
              vi_labels := vi_labels s;
              vi_decimal_scale_exponent := vi_decimal_scale_exponent s;
              vi_units := vi_units s ++ [{| u_name := n; u_exponent := e |}] |}
      else Panic PCapacity
  | PushLabel l =>
      if len (vi_labels s) <? 10 then
        Ok {| vi_decimal_offset_exponent := vi_decimal_offset_exponent s;
              vi_labels := vi_labels s ++ [l];
              vi_decimal_scale_exponent := vi_decimal_scale_exponent s;
              vi_units := vi_units s |}
      else Panic PCapacity
  | SetScale z =>
      Ok {| vi_decimal_offset_exponent := vi_decimal_offset_exponent s;
            vi_labels := vi_labels s;
            vi_decimal_scale_exponent := z;
            vi_units := vi_units s |}
  | AddScale z =>
      Ok {| vi_decimal_offset_exponent := vi_decimal_offset_exponent s;
            vi_labels := vi_labels s;
            vi_decimal_scale_exponent := (vi_decimal_scale_exponent s + z)%Z;
            vi_units := vi_units s |}
  | AddOffset z =>
      Ok {| vi_decimal_offset_exponent := (vi_decimal_offset_exponent s + z)%Z;
            vi_labels := vi_labels s;
            vi_decimal_scale_exponent := vi_decimal_scale_exponent s;
            vi_units := vi_units s |}
  end.

(** statements in sequence *)
Fixpoint vi_runs (ops : list vi_op) (s : value_information) : outcome data_information_error value_information :=
  match ops with
  | [] => Ok s
  | op :: ops => s' <- vi_run op s ;; vi_runs ops s'
  end.

(** value_information.rs:225-357: arms of the primary VIF table on
    [v & 0x7F]; [None] is the [Unimplemented] error.  The inner matches on [v & 3]
    (253-259, 263-269) have an [unreachable!] arm that 2 bits cannot reach. *)
Definition primary_ops (v : N) : option (list vi_op) :=
  let c := N.land v 0x7F in
  if (0x0 <=? c) && (c <=? 0x7) then Some [PushUnit UWatt (1); PushUnit UHour (1); PushLabel LEnergy; SetScale (Z.of_N (N.land v 7) - 3)%Z] else
  if (0x8 <=? c) && (c <=? 0xF) then Some [PushUnit UJoul (1); PushLabel LEnergy; SetScale (Z.of_N (N.land v 7))%Z] else
  if (0x10 <=? c) && (c <=? 0x17) then Some [PushUnit UMeter (3); PushLabel LVolume; SetScale (Z.of_N (N.land v 7) - 6)%Z] else
  if (0x18 <=? c) && (c <=? 0x1F) then Some [PushUnit UKilogram (1); PushLabel LMass; SetScale (Z.of_N (N.land v 7) - 3)%Z] else
  if (0x20 <=? c) && (c <=? 0x23) then Some ([PushLabel LOnTime] ++ (if N.land v 0x03 =? 0x00 then [PushUnit USecond (1)] else if N.land v 0x03 =? 0x01 then [PushUnit UMinute (1)] else if N.land v 0x03 =? 0x02 then [PushUnit UHour (1)] else [PushUnit UDay (1)])) else
  if (0x24 <=? c) && (c <=? 0x27) then Some ([PushLabel LOperatingTime] ++ (if N.land v 0x03 =? 0x00 then [PushUnit USecond (1)] else if N.land v 0x03 =? 0x01 then [PushUnit UMinute (1)] else if N.land v 0x03 =? 0x02 then [PushUnit UHour (1)] else [PushUnit UDay (1)])) else
  if (0x28 <=? c) && (c <=? 0x2F) then Some [PushUnit UWatt (1); PushLabel LPower; AddScale (Z.of_N (N.land v 7) - 3)%Z] else
  if (0x30 <=? c) && (c <=? 0x37) then Some [PushUnit UJoul (1); PushUnit UHour (-1); PushLabel LPower; AddScale (Z.of_N (N.land v 7))%Z] else
  if (0x38 <=? c) && (c <=? 0x3F) then Some [PushUnit UMeter (3); PushUnit UHour (-1); PushLabel LVolumeFlow; AddScale (Z.of_N (N.land v 7) - 6)%Z] else
  if (0x40 <=? c) && (c <=? 0x47) then Some [PushUnit UMeter (3); PushUnit UMinute (-1); PushLabel LVolumeFlow; AddScale (Z.of_N (N.land v 7) - 7)%Z] else
  if (0x48 <=? c) && (c <=? 0x4F) then Some [PushUnit UMeter (3); PushUnit USecond (-1); PushLabel LVolumeFlow; AddScale (Z.of_N (N.land v 7) - 9)%Z] else
  if (0x50 <=? c) && (c <=? 0x57) then Some [PushUnit UKilogram (1); PushUnit UHour (-1); PushLabel LMassFlow; AddScale (Z.of_N (N.land v 7) - 3)%Z] else
  if (0x58 <=? c) && (c <=? 0x5B) then Some [PushUnit UCelsius (1); PushLabel LFlowTemperature; AddScale (Z.of_N (N.land v 3) - 3)%Z] else
  if (0x5C <=? c) && (c <=? 0x5F) then Some [PushUnit UCelsius (1); PushLabel LReturnTemperature; AddScale (Z.of_N (N.land v 3) - 3)%Z] else
  if (0x60 <=? c) && (c <=? 0x63) then Some [PushUnit UKelvin (1); PushLabel LTemperatureDifference; AddScale (Z.of_N (N.land v 3) - 3)%Z] else
  if (0x64 <=? c) && (c <=? 0x67) then Some [PushUnit UCelsius (1); PushLabel LExternalTemperature; AddScale (Z.of_N (N.land v 3) - 3)%Z] else
  if (0x68 <=? c) && (c <=? 0x6B) then Some [PushUnit UBar (1); PushLabel LPressure; AddScale (Z.of_N (N.land v 3) - 3)%Z] else
  if c =? 0x6C then Some [PushLabel LDate] else
  if c =? 0x6D then Some [PushLabel LDateTime] else
  if c =? 0x6E then Some [PushLabel LDimensionlessHCA] else
  if (0x70 <=? c) && (c <=? 0x73) then Some [PushLabel LAveragingDuration] else
  if (0x74 <=? c) && (c <=? 0x77) then Some [PushLabel LActualityDuration] else
  if c =? 0x78 then Some [PushLabel LFabricationNumber] else
  if c =? 0x79 then Some [PushLabel LEnhancedIdentification] else
  if c =? 0x7A then Some [PushLabel LAddress] else
  if c =? 0x7B then Some [] else
  None.

(** value_information.rs:372-547: arms of the 0xFD table on the first VIFE;
    [second] is the second VIFE if present *)
Definition main_ops (v : N) (second : option N) : list vi_op :=
  let c := N.land v 0x7F in
  if (0x0 <=? c) && (c <=? 0x3) then [PushUnit ULocalMoneyCurrency (1); PushLabel LCredit; SetScale (Z.of_N (N.land v 3) - 3)%Z] else
  if (0x4 <=? c) && (c <=? 0x7) then [PushUnit ULocalMoneyCurrency (1); PushLabel LDebit; SetScale (Z.of_N (N.land v 3) - 3)%Z] else
  if c =? 0x8 then [PushLabel LUniqueMessageIdentificationOrAccessNumber] else
  if c =? 0x9 then [PushLabel LDeviceType] else
  if c =? 0xA then [PushLabel LManufacturer] else
  if c =? 0xB then [PushLabel LParameterSetIdentification] else
  if c =? 0xC then [PushLabel LModelOrVersion] else
  if c =? 0xD then [PushLabel LHardwareVersion] else
  if c =? 0xE then [PushLabel LMetrologyFirmwareVersion] else
  if c =? 0xF then [PushLabel LOtherSoftwareVersion] else
  if c =? 0x10 then [PushLabel LCustomerLocation] else
  if c =? 0x11 then [PushLabel LCustomer] else
  if c =? 0x12 then [PushLabel LAccessCodeUser] else
  if c =? 0x13 then [PushLabel LAccessCodeOperator] else
  if c =? 0x14 then [PushLabel LAccessCodeSystemOperator] else
  if c =? 0x15 then [PushLabel LAccessCodeDeveloper] else
  if c =? 0x16 then [PushLabel LPassword] else
  if c =? 0x17 then [PushLabel LErrorFlags] else
  if c =? 0x18 then [PushLabel LErrorMask] else
  if c =? 0x19 then [PushLabel LSecurityKey] else
  if c =? 0x1A then [PushLabel LDigitalOutput; PushLabel LBinary] else
  if c =? 0x1B then [PushLabel LDigitalInput; PushLabel LBinary] else
  if c =? 0x1C then [PushUnit USymbol (1); PushUnit USecond (-1); PushLabel LBaudRate] else
  if c =? 0x1D then [PushUnit UBitTime (1); PushLabel LResponseDelayTime] else
  if c =? 0x1E then [PushLabel LRetry] else
  if c =? 0x1F then [PushLabel LRemoteControl] else
  if c =? 0x20 then [PushLabel LFirstStorageForCycleStorage] else
  if c =? 0x21 then [PushLabel LLastStorageForCycleStorage] else
  if c =? 0x22 then [PushLabel LSizeOfStorageBlock] else
  if c =? 0x23 then [PushLabel LDescriptionOfTariffAndSubunit] else
  if c =? 0x24 then [PushUnit USecond (1); PushLabel LStorageInterval] else
  if c =? 0x25 then [PushUnit UMinute (1); PushLabel LStorageInterval] else
  if c =? 0x26 then [PushUnit UHour (1); PushLabel LStorageInterval] else
  if c =? 0x27 then [PushUnit UDay (1); PushLabel LStorageInterval] else
  if c =? 0x28 then [PushUnit UMonth (1); PushLabel LStorageInterval] else
  if c =? 0x29 then [PushUnit UYear (1); PushLabel LStorageInterval] else
  if c =? 0x30 then [PushLabel LDimensionlessHCA] else
  if c =? 0x31 then [PushLabel LDataContainerForWmbusProtocol] else
  if c =? 0x32 then [PushUnit USecond (1); PushLabel LPeriodOfNormalDataTransmission] else
  if c =? 0x33 then [PushUnit UMeter (1); PushLabel LPeriodOfNormalDataTransmission] else
  if c =? 0x34 then [PushUnit UHour (1); PushLabel LPeriodOfNormalDataTransmission] else
  if c =? 0x35 then [PushUnit UDay (1); PushLabel LPeriodOfNormalDataTransmission] else
  if c =? 0x3A then [PushLabel LDimensionless] else
  if (0x40 <=? c) && (c <=? 0x4F) then [PushUnit UVolt (1); PushLabel LVoltage; SetScale (Z.of_N (N.land v 15) - 9)%Z] else
  if (0x50 <=? c) && (c <=? 0x5F) then [PushUnit UAmpere (1); PushLabel LCurrent; SetScale (Z.of_N (N.land v 15) - 12)%Z] else
  if c =? 0x60 then [PushLabel LResetCounter] else
  if c =? 0x61 then [PushLabel LCumulationCounter] else
  if c =? 0x62 then [PushLabel LControlSignal] else
  if c =? 0x63 then [PushLabel LDayOfWeek] else
  if c =? 0x64 then [PushLabel LWeekNumber] else
  if c =? 0x65 then [PushLabel LTimePointOfChangeOfTariff] else
  if c =? 0x66 then [PushLabel LStateOfParameterActivation] else
  if c =? 0x67 then [PushLabel LSpecialSupplierInformation] else
  if c =? 0x68 then [PushUnit UHour (1); PushLabel LDurationSinceLastCumulation] else
  if c =? 0x69 then [PushUnit UDay (1); PushLabel LDurationSinceLastCumulation] else
  if c =? 0x6A then [PushUnit UMonth (1); PushLabel LDurationSinceLastCumulation] else
  if c =? 0x6B then [PushUnit UYear (1); PushLabel LDurationSinceLastCumulation] else
  if c =? 0x6C then [PushUnit UHour (1); PushLabel LOperatingTimeBattery] else
  if c =? 0x6D then [PushUnit UDay (1); PushLabel LOperatingTimeBattery] else
  if c =? 0x6E then [PushUnit UMonth (1); PushLabel LOperatingTimeBattery] else
  if c =? 0x6F then [PushUnit UHour (1); PushLabel LOperatingTimeBattery] else
  if c =? 0x70 then [PushUnit USecond (1); PushLabel LDateAndTimeOfBatteryChange] else
  if c =? 0x71 then [PushUnit UDecibelMilliWatt (1); PushLabel LRFPowerLevel] else
  if c =? 0x72 then [PushLabel LDaylightSavingBeginningEndingDeviation] else
  if c =? 0x73 then [PushLabel LListeningWindowManagementData] else
  if c =? 0x74 then [PushLabel LRemainingBatteryLifeTime] else
  if c =? 0x75 then [PushLabel LNumberOfTimesTheMeterWasStopped] else
  if c =? 0x76 then [PushLabel LDataContainerForManufacturerSpecificProtocol] else
  if c =? 0x7D then match second with
       | Some s =>
           let s := N.land s 0x7F in
           if s =? 0x00 then [PushLabel LCurrentlySelectedApplication] else
           if s =? 0x02 then [PushUnit UMonth (1); PushLabel LRemainingBatteryLifeTime] else
           if s =? 0x03 then [PushUnit UYear (1); PushLabel LRemainingBatteryLifeTime] else
           if s =? 0x3E then [PushUnit UPercent (1); PushLabel LMoistureLevel] else
           [PushLabel LReserved]
       | None => [PushLabel LReserved]
       end else
  [PushLabel LReserved].

(** value_information.rs:592-679: arms of the 0xFB table on the first VIFE, with
    the [populate!] macro (561-587) expanded *)
Definition alternate_ops (v : N) : list vi_op :=
  let c := N.land v 0x7F in
  if c =? 0x0 then [PushUnit UWatt 3; PushUnit UHour (-1); SetScale (5); PushLabel LEnergy] else
  if c =? 0x1 then [PushUnit UWatt 3; PushUnit UHour (-1); SetScale (6); PushLabel LEnergy] else
  if c =? 0x2 then [PushUnit UReactiveWatt 1; PushUnit UHour (1); SetScale (3); PushLabel LReactiveEnergy] else
  if c =? 0x3 then [PushUnit UReactiveWatt 1; PushUnit UHour (1); SetScale (4); PushLabel LReactiveEnergy] else
  if c =? 0x4 then [PushUnit UApparentWatt 1; PushUnit UHour (1); SetScale (3); PushLabel LApparentEnergy] else
  if c =? 0x5 then [PushUnit UApparentWatt 1; PushUnit UHour (1); SetScale (4); PushLabel LApparentEnergy] else
  if c =? 0x6 then [PushLabel LCoefficientOfPerformance; SetScale (-1)] else
  if c =? 0x8 then [PushUnit UJoul 1; SetScale (8); PushLabel LEnergy] else
  if c =? 0x9 then [PushUnit UJoul 1; SetScale (9); PushLabel LEnergy] else
  if c =? 0xC then [PushUnit UCalorie 1; SetScale (5); PushLabel LEnergy] else
  if c =? 0xD then [PushUnit UCalorie 1; SetScale (6); PushLabel LEnergy] else
  if c =? 0xE then [PushUnit UCalorie 1; SetScale (7); PushLabel LEnergy] else
  if c =? 0xF then [PushUnit UCalorie 1; SetScale (8); PushLabel LEnergy] else
  if c =? 0x10 then [PushUnit UMeter 3; SetScale (2); PushLabel LVolume] else
  if c =? 0x11 then [PushUnit UMeter 3; SetScale (3); PushLabel LVolume] else
  if c =? 0x14 then [PushUnit UReactiveWatt 1; SetScale (0); PushLabel LReactivePower] else
  if c =? 0x15 then [PushUnit UReactiveWatt 1; SetScale (1); PushLabel LReactivePower] else
  if c =? 0x16 then [PushUnit UReactiveWatt 1; SetScale (2); PushLabel LReactivePower] else
  if c =? 0x17 then [PushUnit UReactiveWatt 1; SetScale (3); PushLabel LReactivePower] else
  if c =? 0x18 then [PushUnit UTonne 1; SetScale (2); PushLabel LMass] else
  if c =? 0x19 then [PushUnit UTonne 1; SetScale (3); PushLabel LMass] else
  if c =? 0x1A then [PushUnit UPercent 1; SetScale (-1); PushLabel LRelativeHumidity] else
  if c =? 0x1B then [PushUnit UPercent 1; SetScale (0); PushLabel LRelativeHumidity] else
  if c =? 0x20 then [PushUnit UFeet 3; SetScale (0); PushLabel LVolume] else
  if c =? 0x21 then [PushUnit UFeet 3; SetScale (-1); PushLabel LVolume] else
  if c =? 0x23 then [PushUnit UDegree 1; SetScale (-1); PushLabel LPhaseItoU] else
  if c =? 0x28 then [PushUnit UWatt 1; SetScale (5); PushLabel LPower] else
  if c =? 0x29 then [PushUnit UWatt 1; SetScale (6); PushLabel LPower] else
  if c =? 0x2A then [PushUnit UDegree 1; SetScale (-1); PushLabel LPhaseUtoU] else
  if c =? 0x2B then [PushUnit UDegree 1; SetScale (-1); PushLabel LPhaseUtoI] else
  if c =? 0x2C then [PushUnit UHertz 1; SetScale (-3); PushLabel LFrequency] else
  if c =? 0x2D then [PushUnit UHertz 1; SetScale (-2); PushLabel LFrequency] else
  if c =? 0x2E then [PushUnit UHertz 1; SetScale (-1); PushLabel LFrequency] else
  if c =? 0x2F then [PushUnit UHertz 1; SetScale (0); PushLabel LFrequency] else
  if c =? 0x30 then [PushUnit UJoul 1; PushUnit UHour (-1); SetScale (8); PushLabel LPower] else
  if c =? 0x31 then [PushUnit UJoul 1; PushUnit UHour (-1); SetScale (9); PushLabel LPower] else
  if c =? 0x34 then [PushUnit UApparentWatt 1; SetScale (0); PushLabel LApparentPower] else
  if c =? 0x35 then [PushUnit UApparentWatt 1; SetScale (1); PushLabel LApparentPower] else
  if c =? 0x36 then [PushUnit UApparentWatt 1; SetScale (2); PushLabel LApparentPower] else
  if c =? 0x37 then [PushUnit UApparentWatt 1; SetScale (3); PushLabel LApparentPower] else
  if c =? 0x58 then [PushUnit UFahrenheit 1; SetScale (-3); PushLabel LFlowTemperature] else
  if c =? 0x59 then [PushUnit UFahrenheit 1; SetScale (-2); PushLabel LFlowTemperature] else
  if c =? 0x5A then [PushUnit UFahrenheit 1; SetScale (-1); PushLabel LFlowTemperature] else
  if c =? 0x5B then [PushUnit UFahrenheit 1; SetScale (0); PushLabel LFlowTemperature] else
  if c =? 0x5C then [PushUnit UFahrenheit 1; SetScale (-3); PushLabel LReturnTemperature] else
  if c =? 0x5D then [PushUnit UFahrenheit 1; SetScale (-2); PushLabel LReturnTemperature] else
  if c =? 0x5E then [PushUnit UFahrenheit 1; SetScale (-1); PushLabel LReturnTemperature] else
  if c =? 0x5F then [PushUnit UFahrenheit 1; SetScale (0); PushLabel LReturnTemperature] else
  if c =? 0x60 then [PushUnit UFahrenheit 1; SetScale (-3); PushLabel LTemperatureDifference] else
  if c =? 0x61 then [PushUnit UFahrenheit 1; SetScale (-2); PushLabel LTemperatureDifference] else
  if c =? 0x62 then [PushUnit UFahrenheit 1; SetScale (-1); PushLabel LTemperatureDifference] else
  if c =? 0x63 then [PushUnit UFahrenheit 1; SetScale (0); PushLabel LTemperatureDifference] else
  if c =? 0x64 then [PushUnit UFahrenheit 1; SetScale (-3); PushLabel LExternalTemperature] else
  if c =? 0x65 then [PushUnit UFahrenheit 1; SetScale (-2); PushLabel LExternalTemperature] else
  if c =? 0x66 then [PushUnit UFahrenheit 1; SetScale (-1); PushLabel LExternalTemperature] else
  if c =? 0x67 then [PushUnit UFahrenheit 1; SetScale (0); PushLabel LExternalTemperature] else
  if c =? 0x70 then [PushUnit UFahrenheit 1; SetScale (-3); PushLabel LColdWarmTemperatureLimit] else
  if c =? 0x71 then [PushUnit UFahrenheit 1; SetScale (-2); PushLabel LColdWarmTemperatureLimit] else
  if c =? 0x72 then [PushUnit UFahrenheit 1; SetScale (-1); PushLabel LColdWarmTemperatureLimit] else
  if c =? 0x73 then [PushUnit UFahrenheit 1; SetScale (0); PushLabel LColdWarmTemperatureLimit] else
  if c =? 0x74 then [PushUnit UCelsius 1; SetScale (-3); PushLabel LColdWarmTemperatureLimit] else
  if c =? 0x75 then [PushUnit UCelsius 1; SetScale (-2); PushLabel LColdWarmTemperatureLimit] else
  if c =? 0x76 then [PushUnit UCelsius 1; SetScale (-1); PushLabel LColdWarmTemperatureLimit] else
  if c =? 0x77 then [PushUnit UCelsius 1; SetScale (0); PushLabel LColdWarmTemperatureLimit] else
  if c =? 0x78 then [PushUnit UWatt 1; SetScale (-3); PushLabel LCumulativeMaximumOfActivePower] else
  if c =? 0x79 then [PushUnit UWatt 1; SetScale (-2); PushLabel LCumulativeMaximumOfActivePower] else
  if c =? 0x7A then [PushUnit UWatt 1; SetScale (-1); PushLabel LCumulativeMaximumOfActivePower] else
  if c =? 0x7B then [PushUnit UWatt 1; SetScale (0); PushLabel LCumulativeMaximumOfActivePower] else
  if c =? 0x7C then [PushUnit UWatt 1; SetScale (1); PushLabel LCumulativeMaximumOfActivePower] else
  if c =? 0x7D then [PushUnit UWatt 1; SetScale (2); PushLabel LCumulativeMaximumOfActivePower] else
  if c =? 0x7E then [PushUnit UWatt 1; SetScale (3); PushLabel LCumulativeMaximumOfActivePower] else
  if c =? 0x7F then [PushUnit UWatt 1; SetScale (4); PushLabel LCumulativeMaximumOfActivePower] else
  if c =? 0x68 then [PushUnit UHCAUnit 1; SetScale (0); PushLabel LResultingRatingFactor] else
  if c =? 0x69 then [PushUnit UHCAUnit 1; SetScale (0); PushLabel LThermalOutputRatingFactor] else
  if c =? 0x6A then [PushUnit UHCAUnit 1; SetScale (0); PushLabel LThermalCouplingRatingFactorOverall] else
  if c =? 0x6B then [PushUnit UHCAUnit 1; SetScale (0); PushLabel LThermalCouplingRatingRoomSide] else
  if c =? 0x6C then [PushUnit UHCAUnit 1; SetScale (0); PushLabel LThermalCouplingRatingFactorHeatingSide] else
  if c =? 0x6D then [PushUnit UHCAUnit 1; SetScale (0); PushLabel LLowTemperatureRatingFactor] else
  if c =? 0x6E then [PushUnit UHCAUnit 1; SetScale (0); PushLabel LDisplayOutputScalingFactor] else
  [PushLabel LReserved].

(** value_information.rs:730-756: a combinable VIFE after 0xFC *)
Definition orth_extension_ops (v : N) : list vi_op :=
  let c := N.land v 0x7F in
  if c =? 0x0 then [PushLabel LReserved] else
  if c =? 0x1 then [PushLabel LAtPhaseL1] else
  if c =? 0x2 then [PushLabel LAtPhaseL2] else
  if c =? 0x3 then [PushLabel LAtPhaseL3] else
  if c =? 0x4 then [PushLabel LAtNeutral] else
  if c =? 0x5 then [PushLabel LBetweenPhasesL1L2] else
  if c =? 0x6 then [PushLabel LBetweenPhasesL2L3] else
  if c =? 0x7 then [PushLabel LBetweenPhasesL3L1] else
  if c =? 0x8 then [PushLabel LAtQuadrant1] else
  if c =? 0x9 then [PushLabel LAtQuadrant2] else
  if c =? 0xA then [PushLabel LAtQuadrant3] else
  if c =? 0xB then [PushLabel LAtQuadrant4] else
  if c =? 0xC then [PushLabel LDeltaBetweenImportAndExport] else
  if c =? 0xD then [PushLabel LAlternativeNonMetricUnits] else
  if c =? 0xE then [PushLabel LSecondarySensorMeasurement] else
  if c =? 0xF then [PushLabel LHigherResolutionRegister] else
  if c =? 0x10 then [PushLabel LAccumulationOfAbsoluteValueBothPositiveAndNegativeContribution] else
  if c =? 0x11 then [PushLabel LDataPresentedWithTypeC] else
  if c =? 0x12 then [PushLabel LDataPresentedWithTypeD] else
  if c =? 0x13 then [PushLabel LEndDate] else
  if c =? 0x14 then [PushLabel LDirectionFromCommunicationPartnerToMeter] else
  if c =? 0x15 then [PushLabel LDirectionFromMeterToCommunicationPartner] else
  [PushLabel LReserved].

(** value_information.rs:758-966: a combinable (orthogonal) VIFE *)
Definition orth_ops (v : N) : list vi_op :=
  let c := N.land v 0x7F in
  if (0x0 <=? c) && (c <=? 0xF) then [PushLabel LReservedForObjectActions] else
  if (0x10 <=? c) && (c <=? 0x11) then [PushLabel LReserved] else
  if c =? 0x12 then [PushLabel LAveraged] else
  if c =? 0x13 then [PushLabel LInverseCompactProfile] else
  if c =? 0x14 then [PushLabel LRelativeDeviation] else
  if (0x15 <=? c) && (c <=? 0x1C) then [PushLabel LRecordErrorCodes] else
  if c =? 0x1D then [PushLabel LStandardConformDataContent] else
  if c =? 0x1E then [PushLabel LCompactProfileWithRegisterNumbers] else
  if c =? 0x1F then [PushLabel LCompactProfile] else
  if c =? 0x20 then [PushUnit USecond (-1)] else
  if c =? 0x21 then [PushUnit UMinute (-1)] else
  if c =? 0x22 then [PushUnit UHour (-1)] else
  if c =? 0x23 then [PushUnit UDay (-1)] else
  if c =? 0x24 then [PushUnit UWeek (-1)] else
  if c =? 0x25 then [PushUnit UMonth (-1)] else
  if c =? 0x26 then [PushUnit UYear (-1)] else
  if c =? 0x27 then [PushUnit URevolution (-1)] else
  if c =? 0x28 then [PushUnit UIncrement (1); PushUnit UInputPulseOnChannel0 (-1)] else
  if c =? 0x29 then [PushUnit UIncrement (1); PushUnit UInputPulseOnChannel1 (-1)] else
  if c =? 0x2A then [PushUnit UIncrement (1); PushUnit UOutputPulseOnChannel0 (-1)] else
  if c =? 0x2B then [PushUnit UIncrement (1); PushUnit UOutputPulseOnChannel1 (-1)] else
  if c =? 0x2C then [PushUnit ULiter (1)] else
  if c =? 0x2D then [PushUnit UMeter (-3)] else
  if c =? 0x2E then [PushUnit UKilogram (-1)] else
  if c =? 0x2F then [PushUnit UKelvin (-1)] else
  if c =? 0x30 then [PushUnit UWatt (-1); PushUnit UHour (-1); AddScale (-3)] else
  if c =? 0x31 then [PushUnit UJoul (-1); AddScale (-9)] else
  if c =? 0x32 then [PushUnit UWatt (-1); AddScale (-3)] else
  if c =? 0x33 then [PushUnit UKelvin (-1); PushUnit ULiter (-1)] else
  if c =? 0x34 then [PushUnit UVolt (-1)] else
  if c =? 0x35 then [PushUnit UAmpere (-1)] else
  if c =? 0x36 then [PushUnit USecond (1)] else
  if c =? 0x37 then [PushUnit USecond (1); PushUnit UVolt (-1)] else
  if c =? 0x38 then [PushUnit USecond (1); PushUnit UAmpere (-1)] else
  if c =? 0x39 then [PushLabel LStartDateOf] else
  if c =? 0x3A then [PushLabel LVifContainsUncorrectedUnitOrValue] else
  if c =? 0x3B then [PushLabel LAccumulationOnlyIfValueIsPositive] else
  if c =? 0x3C then [PushLabel LAccumulationOnlyIfValueIsNegative] else
  if c =? 0x3D then [PushLabel LNonMetricUnits] else
  if c =? 0x3E then [PushLabel LValueAtBaseConditions] else
  if c =? 0x3F then [PushLabel LObisDeclaration] else
  if c =? 0x40 then [PushLabel LLowerLimitValue] else
  if c =? 0x48 then [PushLabel LUpperLimitValue] else
  if c =? 0x41 then [PushLabel LNumberOfExceedsOfLowerLimitValue] else
  if c =? 0x49 then [PushLabel LNumberOfExceedsOfUpperLimitValue] else
  if c =? 0x42 then [PushLabel LDateOfBeginFirstLowerLimitExceed] else
  if c =? 0x43 then [PushLabel LDateOfEndFirstLowerLimitExceed] else
  if c =? 0x46 then [PushLabel LDateOfBeginLastLowerLimitExceed] else
  if c =? 0x47 then [PushLabel LDateOfEndLastLowerLimitExceed] else
  if c =? 0x4A then [PushLabel LDateOfBeginFirstUpperLimitExceed] else
  if c =? 0x4B then [PushLabel LDateOfEndFirstUpperLimitExceed] else
  if c =? 0x4E then [PushLabel LDateOfBeginLastUpperLimitExceed] else
  if c =? 0x4F then [PushLabel LDateOfEndLastUpperLimitExceed] else
  if c =? 0x50 then [PushLabel LDurationOfFirstLowerLimitExceed; PushUnit USecond (1)] else
  if c =? 0x51 then [PushLabel LDurationOfFirstLowerLimitExceed; PushUnit UMinute (1)] else
  if c =? 0x52 then [PushLabel LDurationOfFirstLowerLimitExceed; PushUnit UHour (1)] else
  if c =? 0x53 then [PushLabel LDurationOfFirstLowerLimitExceed; PushUnit UDay (1)] else
  if c =? 0x54 then [PushLabel LDurationOfLastLowerLimitExceed; PushUnit USecond (1)] else
  if c =? 0x55 then [PushLabel LDurationOfLastLowerLimitExceed; PushUnit UMinute (1)] else
  if c =? 0x56 then [PushLabel LDurationOfLastLowerLimitExceed; PushUnit UHour (1)] else
  if c =? 0x57 then [PushLabel LDurationOfLastLowerLimitExceed; PushUnit UDay (1)] else
  if c =? 0x58 then [PushLabel LDurationOfFirstUpperLimitExceed; PushUnit USecond (1)] else
  if c =? 0x59 then [PushLabel LDurationOfFirstUpperLimitExceed; PushUnit UMinute (1)] else
  if c =? 0x5A then [PushLabel LDurationOfFirstUpperLimitExceed; PushUnit UHour (1)] else
  if c =? 0x5B then [PushLabel LDurationOfFirstUpperLimitExceed; PushUnit UDay (1)] else
  if c =? 0x5C then [PushLabel LDurationOfLastUpperLimitExceed; PushUnit USecond (1)] else
  if c =? 0x5D then [PushLabel LDurationOfLastUpperLimitExceed; PushUnit UMinute (1)] else
  if c =? 0x5E then [PushLabel LDurationOfLastUpperLimitExceed; PushUnit UHour (1)] else
  if c =? 0x5F then [PushLabel LDurationOfLastUpperLimitExceed; PushUnit UDay (1)] else
  if c =? 0x60 then [PushLabel LDurationOfFirst; PushUnit USecond (1)] else
  if c =? 0x61 then [PushLabel LDurationOfFirst; PushUnit UMinute (1)] else
  if c =? 0x62 then [PushLabel LDurationOfFirst; PushUnit UHour (1)] else
  if c =? 0x63 then [PushLabel LDurationOfFirst; PushUnit UDay (1)] else
  if c =? 0x64 then [PushLabel LDurationOfLast; PushUnit USecond (1)] else
  if c =? 0x65 then [PushLabel LDurationOfLast; PushUnit UMinute (1)] else
  if c =? 0x66 then [PushLabel LDurationOfLast; PushUnit UHour (1)] else
  if c =? 0x67 then [PushLabel LDurationOfLast; PushUnit UDay (1)] else
  if c =? 0x68 then [PushLabel LValueDuringLowerValueExceed] else
  if c =? 0x6C then [PushLabel LValueDuringUpperValueExceed] else
  if c =? 0x69 then [PushLabel LLeakageValues] else
  if c =? 0x6D then [PushLabel LOverflowValues] else
  if c =? 0x6A then [PushLabel LDateOfBeginFirst] else
  if c =? 0x6B then [PushLabel LDateOfBeginLast] else
  if c =? 0x6E then [PushLabel LDateOfEndLast] else
  if c =? 0x6F then [PushLabel LDateOfEndFirst] else
  if (0x70 <=? c) && (c <=? 0x77) then [AddScale (Z.of_N (N.land v 7) - 6)%Z] else
  if (0x78 <=? c) && (c <=? 0x7B) then [AddOffset (Z.of_N (N.land v 3) - 3)%Z] else
  if c =? 0x7D then [AddScale (3)] else
  if c =? 0x7E then [PushLabel LFutureValue] else
  if c =? 0x7F then [PushLabel LNextVIFEAndDataOfThisBlockAreManufacturerSpecific] else
  [PushLabel LReserved].

(** value_information.rs:715-969, [consume_orthhogonal_vife]; [ext] is
    [is_extension_of_combinable_orthogonal_vife] *)
Fixpoint consume_orthogonal (vife : list N) (ext : bool) (s : value_information)
  : outcome data_information_error value_information :=
  match vife with
  | [] => Ok s
  | v :: vife =>
      if v =? 0xFC then consume_orthogonal vife true s
      else if ext then
        s' <- vi_runs (orth_extension_ops v) s ;; consume_orthogonal vife false s'
      else
        s' <- vi_runs (orth_ops v) s ;; consume_orthogonal vife false s'
  end.

(** value_information.rs:101-106; VIF, VIFEs and characters are kept as bytes *)
Record value_information_block := {
  vib_vif : N;
  vib_vifes : option (list N);
  vib_plaintext : option (list N)
}.

(** value_information.rs:7 *)
Definition MAX_VIFE_RECORDS : N := 10.

(** value_information.rs:143-145 *)
Definition contains_ascii (vif : N) : bool := (vif =? 0x7C) || (vif =? 0xFC).

(** value_information.rs:87-97, [extract_plaintext_vife]: the characters go into an
    [ArrayVec<char, 9>], whose [push] panics when full *)
Definition extract_plaintext_vife (data : list N) : outcome data_information_error (list N) :=
  ascii_length <- ok_or (get data 0) DataTooShort ;;
  items <- ok_or (get_range data 1 (ascii_length + 1)) DataTooShort ;;
  if 9 <? len items then Panic PCapacity else Ok items.

(** value_information.rs:58-70: the VIFE loop over the bytes from [offset] on; returns
    the VIFEs.  The push panics when ten are already stored, so the check on line
    67 never fires but is kept. *)
Fixpoint vife_loop (data : list N) (vife : list N) : outcome data_information_error (list N) :=
  match data with
  | [] => Ok vife
  | b :: rest =>
      if len vife <? MAX_VIFE_RECORDS then
        let vife := vife ++ [b] in
        if negb (has_extension b) then Ok vife
        else if MAX_VIFE_RECORDS <? len vife then Err InvalidValueInformation
        else vife_loop rest vife
      else Panic PCapacity
  end.

(** value_information.rs:31-85, [TryFrom<&[u8]> for ValueInformationBlock].
    [plaintext_before_extension cf] is the cargo feature of that name. *)
Definition vib_try_from (cf : config) (data : list N)
  : outcome data_information_error value_information_block :=
  vif <- ok_or (get data 0) DataTooShort ;;
  let standard := negb (plaintext_before_extension cf) in
  plaintext <-
    (if negb standard && contains_ascii vif then
       d <- ok_or (get_from data 1) DataTooShort ;;
       p <- extract_plaintext_vife d ;; Ok (Some p)
     else Ok None) ;;
  '(vife, plaintext) <-
    (if has_extension vif then
       let offset := match plaintext with
                     | Some chars => if negb standard then 2 + len chars else 1
                     | None => 1
                     end in
       vife <- vife_loop (skipn (N.to_nat offset) data) [] ;;
       let offset := offset + len vife in
       if standard && contains_ascii vif then
         d <- ok_or (get_from data offset) DataTooShort ;;
         p <- extract_plaintext_vife d ;; Ok (vife, Some p)
       else Ok (vife, plaintext)
     else Ok ([], plaintext)) ;;
  Ok {| vib_vif := vif;
        vib_vifes := match vife with [] => None | _ => Some vife end;
        vib_plaintext := plaintext |}.

(** value_information.rs:196-206, [ValueInformationBlock::get_size] *)
Definition vib_get_size (b : value_information_block) : N :=
  1 + match vib_vifes b with Some v => len v | None => 0 end
    + match vib_plaintext b with Some p => len p + 1 | None => 0 end.

(** value_information.rs:186-192 *)
Inductive value_information_coding :=
| VPrimary
| VPlainText
| VMainVIFExtension
| VAlternateVIFExtension
| VManufacturerSpecific.

(** value_information.rs:155-169; the last arm is [unreachable!] in the source and is
    reached by 0x7D *)
Definition value_information_coding_from {E} (vif : N) : outcome E value_information_coding :=
  if (vif <=? 0x7B) || ((0x80 <=? vif) && (vif <=? 0xFA)) then Ok VPrimary
  else if (vif =? 0x7C) || (vif =? 0xFC) then Ok VPlainText
  else if vif =? 0xFD then Ok VMainVIFExtension
  else if vif =? 0xFB then Ok VAlternateVIFExtension
  else if vif =? 0x7E then Ok VManufacturerSpecific
  else if vif =? 0xFE then Ok VManufacturerSpecific
  else if vif =? 0x7F then Ok VManufacturerSpecific
  else if vif =? 0xFF then Ok VManufacturerSpecific
  else Panic PUnreachable.

(** value_information.rs:215-218, the initial state *)
Definition vi_init : value_information :=
  {| vi_decimal_offset_exponent := 0;
     vi_labels := [];
     vi_decimal_scale_exponent := 0;
     vi_units := [] |}.

(** value_information.rs:209-713, [TryFrom<&ValueInformationBlock> for
    ValueInformation] *)
Definition value_information_try_from (b : value_information_block)
  : outcome data_information_error value_information :=
  let vife_slice := match vib_vifes b with Some v => v | None => [] end in
  coding <- value_information_coding_from (vib_vif b) ;;
  match coding with
  | VPrimary =>
      ops <- ok_or (primary_ops (vib_vif b)) DUnimplemented ;;
      s <- vi_runs ops vi_init ;;
      consume_orthogonal vife_slice false s
  | VMainVIFExtension =>
      first <- ok_or (get vife_slice 0) DataTooShort ;;
      s <- vi_runs (main_ops first (get vife_slice 1)) vi_init ;;
      consume_orthogonal (match get_from vife_slice 1 with Some l => l | None => [] end) false s
  | VAlternateVIFExtension =>
      first <- ok_or (get vife_slice 0) DataTooShort ;;
      s <- vi_runs (alternate_ops first) vi_init ;;
      consume_orthogonal (match get_from vife_slice 1 with Some l => l | None => [] end) false s
  | VPlainText =>
      s <- vi_runs [PushLabel LPlainText] vi_init ;;
      consume_orthogonal vife_slice false s
  | VManufacturerSpecific => vi_runs [PushLabel LManufacturerSpecific] vi_init
  end.
