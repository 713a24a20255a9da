(** The words and units shown with a record whose value information field has extensions, written
    without reference to the code. *)
From Coq Require Import List NArith ZArith QArith String.
Import ListNotations.
From Verif Require Import Model.Base Model.Text Model.Core Model.DataInfo Model.ValueInfo Model.Output
  Spec.TextSpec Spec.RecordSpec Spec.VifSpec Spec.VifeSpec Spec.OutputSpec Spec.DetailSpec.
Open Scope N_scope.
Open Scope list_scope.

(** the words for what a value is *)
Definition quantity_words : list (value_label * text) := quantity_texts ++ [
    (LCredit, txt "Credit"); (LDebit, txt "Debit"); (LUniqueMessageIdentificationOrAccessNumber, txt "Unique message identification or access number");
    (LDeviceType, txt "Device type"); (LManufacturer, txt "Manufacturer"); (LParameterSetIdentification, txt "Parameter set identification");
    (LModelOrVersion, txt "Model or version"); (LHardwareVersion, txt "Hardware version");
    (LMetrologyFirmwareVersion, txt "Metrology firmware version"); (LOtherSoftwareVersion, txt "Other software version");
    (LCustomerLocation, txt "Customer location"); (LCustomer, txt "Customer"); (LAccessCodeUser, txt "Access code user");
    (LAccessCodeOperator, txt "Access code operator"); (LAccessCodeSystemOperator, txt "Access code system operator");
    (LAccessCodeDeveloper, txt "Access code developer"); (LPassword, txt "Password"); (LErrorFlags, txt "Error flags"); (LErrorMask, txt "Error mask");
    (LSecurityKey, txt "Security key"); (LDigitalOutput, txt "Digital output"); (LBinary, txt "Binary"); (LDigitalInput, txt "Digital input");
    (LBaudRate, txt "Baud rate"); (LResponseDelayTime, txt "Response delay time"); (LRetry, txt "Retry"); (LRemoteControl, txt "Remote control");
    (LFirstStorageForCycleStorage, txt "First storage for cycle storage"); (LLastStorageForCycleStorage, txt "Last storage for cycle storage");
    (LSizeOfStorageBlock, txt "Size of storage block"); (LDescriptionOfTariffAndSubunit, txt "Description of tariff and subunit");
    (LStorageInterval, txt "Storage interval"); (LDimensionless, txt "Dimensionless");
    (LDataContainerForWmbusProtocol, txt "Data container for wireless M-Bus protocol");
    (LPeriodOfNormalDataTransmission, txt "Period of normal data transmission"); (LVoltage, txt "Voltage"); (LCurrent, txt "Current");
    (LResetCounter, txt "Reset counter"); (LCumulationCounter, txt "Cumulation counter"); (LControlSignal, txt "Control signal");
    (LDayOfWeek, txt "Day of week"); (LWeekNumber, txt "Week number"); (LStateOfParameterActivation, txt "State of parameter activation");
    (LSpecialSupplierInformation, txt "Special supplier information"); (LDurationSinceLastCumulation, txt "Duration since last cumulation");
    (LOperatingTimeBattery, txt "Operating time battery"); (LDateAndTimeOfBatteryChange, txt "Date and time of battery change");
    (LRFPowerLevel, txt "RF power level"); (LDaylightSavingBeginningEndingDeviation, txt "Daylight saving beginning ending deviation");
    (LListeningWindowManagementData, txt "Listening window management data"); (LRemainingBatteryLifeTime, txt "Remaining battery life time");
    (LNumberOfTimesTheMeterWasStopped, txt "Number of times the meter was stopped");
    (LDataContainerForManufacturerSpecificProtocol, txt "Data container for manufacturer specific protocol"); (LReactiveEnergy, txt "Reactive energy");
    (LApparentEnergy, txt "Apparent energy"); (LReactivePower, txt "Reactive power"); (LRelativeHumidity, txt "Relative humidity");
    (LPhaseUtoU, txt "Phase U-to-U"); (LPhaseUtoI, txt "Phase U-to-I"); (LFrequency, txt "Frequency"); (LApparentPower, txt "Apparent power");
    (LColdWarmTemperatureLimit, txt "Cold warm temperature limit"); (LCumulativeMaximumOfActivePower, txt "Cumulative maximum of active power");
    (LAveraged, txt "Averaged"); (LInverseCompactProfile, txt "Inverse compact profile"); (LRelativeDeviation, txt "Relative deviation");
    (LStandardConformDataContent, txt "Standard conform data content");
    (LCompactProfileWithRegisterNumbers, txt "Compact profile with register numbers"); (LCompactProfile, txt "Compact profile");
    (LStartDateOf, txt "Start date of"); (LVifContainsUncorrectedUnitOrValue, txt "VIF contains uncorrected unit or value");
    (LAccumulationOnlyIfValueIsPositive, txt "Accumulation only if value is positive");
    (LAccumulationOnlyIfValueIsNegative, txt "Accumulation only if value is negative"); (LNonMetricUnits, txt "Non metric units");
    (LValueAtBaseConditions, txt "Value at base conditions"); (LObisDeclaration, txt "OBIS declaration"); (LLowerLimitValue, txt "Lower limit value");
    (LNumberOfExceedsOfLowerLimitValue, txt "Number of exceeds of lower limit value");
    (LDateOfBeginFirstLowerLimitExceed, txt "Date of begin first lower limit exceed");
    (LDateOfEndFirstLowerLimitExceed, txt "Date of end first lower limit exceed");
    (LDateOfBeginLastLowerLimitExceed, txt "Date of begin last lower limit exceed");
    (LDateOfEndLastLowerLimitExceed, txt "Date of end last lower limit exceed"); (LUpperLimitValue, txt "Upper limit value");
    (LNumberOfExceedsOfUpperLimitValue, txt "Number of exceeds of upper limit value");
    (LDateOfBeginFirstUpperLimitExceed, txt "Date of begin first upper limit exceed");
    (LDateOfEndFirstUpperLimitExceed, txt "Date of end first upper limit exceed");
    (LDateOfBeginLastUpperLimitExceed, txt "Date of begin last upper limit exceed");
    (LDateOfEndLastUpperLimitExceed, txt "Date of end last upper limit exceed");
    (LDurationOfFirstLowerLimitExceed, txt "Duration of first lower limit exceed");
    (LDurationOfLastLowerLimitExceed, txt "Duration of last lower limit exceed");
    (LDurationOfFirstUpperLimitExceed, txt "Duration of first upper limit exceed");
    (LDurationOfLastUpperLimitExceed, txt "Duration of last upper limit exceed"); (LDurationOfFirst, txt "Duration of first");
    (LDurationOfLast, txt "Duration of last"); (LValueDuringLowerValueExceed, txt "Value during lower value exceed");
    (LLeakageValues, txt "Leakage values"); (LDateOfBeginFirst, txt "Date of begin first"); (LDateOfEndFirst, txt "Date of end first");
    (LValueDuringUpperValueExceed, txt "Value during upper value exceed"); (LOverflowValues, txt "Overflow values");
    (LDateOfBeginLast, txt "Date of begin last"); (LDateOfEndLast, txt "Date of end last"); (LFutureValue, txt "Future value");
    (LAtPhaseL1, txt "At phase L1"); (LAtPhaseL2, txt "At phase L2"); (LAtPhaseL3, txt "At phase L3"); (LAtNeutral, txt "At neutral");
    (LBetweenPhasesL1L2, txt "Between phases L1 L2"); (LBetweenPhasesL2L3, txt "Between phases L2 L3");
    (LBetweenPhasesL3L1, txt "Between phases L3 L1"); (LAtQuadrant1, txt "At quadrant1"); (LAtQuadrant2, txt "At quadrant2");
    (LAtQuadrant3, txt "At quadrant3"); (LAtQuadrant4, txt "At quadrant4"); (LDeltaBetweenImportAndExport, txt "Delta between import and export");
    (LSecondarySensorMeasurement, txt "Secondary sensor measurement"); (LHigherResolutionRegister, txt "Higher resolution register");
    (LAccumulationOfAbsoluteValueBothPositiveAndNegativeContribution, txt "Accumulation of absolute value both positive and negative contribution");
    (LDataPresentedWithTypeC, txt "Data presented with type C"); (LDataPresentedWithTypeD, txt "Data presented with type D")
  ].

(** the symbols of the Unified Code for Units of Measure *)
Definition ucum_symbols : list (unit_name * text) :=
  [ (UWatt, txt "W"); (UJoul, txt "J"); (UKilogram, txt "kg"); (UTonne, txt "t"); (UMeter, txt "m"); (UFeet, txt "[ft_i]");
    (UCelsius, txt "Cel"); (UKelvin, txt "K"); (UBar, txt "bar"); (USecond, txt "s"); (UMinute, txt "min"); (UHour, txt "h");
    (UDay, txt "d"); (UWeek, txt "wk"); (UMonth, txt "mo"); (UYear, txt "a"); (ULiter, txt "L"); (UVolt, txt "V"); (UAmpere, txt "A");
    (UPercent, txt "%"); (UHertz, txt "Hz"); (UFahrenheit, txt "[degF]"); (UAmericanGallon, txt "[gal_us]"); (UCalorie, txt "cal") ].
Definition coded (u : unit_) : Prop := exists s, In (u_name u, s) ucum_symbols.
(** a factor: its symbol and the exponent, unless that is one *)
Inductive ucum_term : unit_ -> text -> Prop :=
| term_one u s : In (u_name u, s) ucum_symbols -> u_exponent u = 1%Z -> ucum_term u s
| term_power u s t : In (u_name u, s) ucum_symbols -> u_exponent u <> 1%Z -> integer_text t (u_exponent u) -> ucum_term u (s ++ t).
(** a product: the factors, with points between them *)
Inductive ucum_text : list unit_ -> text -> Prop :=
| ucum_factor u t : ucum_term u t -> ucum_text [u] t
| ucum_product u t us ts : us <> [] -> ucum_term u t -> ucum_text us ts -> ucum_text (u :: us) (t ++ txt "." ++ ts).

(** the names of units, for products in which one has no such symbol *)
Definition unit_words : list (unit_name * text) :=
  [ (UWatt, txt "W"); (UReactiveWatt, txt "W (reactive)"); (UApparentWatt, txt "W (apparent)"); (UJoul, txt "J"); (UKilogram, txt "Kg");
    (UTonne, txt "t"); (UMeter, txt "m"); (UFeet, txt "ft"); (UCelsius, [0xB0] ++ txt "C"); (UKelvin, [0xB0] ++ txt "K"); (UBar, txt "Bar");
    (USecond, txt "s"); (UMinute, txt "min"); (UHour, txt "h"); (UDay, txt "day"); (UWeek, txt "week"); (UMonth, txt "month");
    (UYear, txt "year"); (URevolution, txt "revolution"); (UIncrement, txt "increment"); (UInputPulseOnChannel0, txt "InputPulseOnChannel0");
    (UOutputPulseOnChannel0, txt "OutputPulseOnChannel0"); (UInputPulseOnChannel1, txt "InputPulseOnChannel1");
    (UOutputPulseOnChannel1, txt "OutputPulseOnChannel1"); (ULiter, txt "l"); (UVolt, txt "V"); (UAmpere, txt "A");
    (ULocalMoneyCurrency, txt "$ (local)"); (USymbol, txt "Symbol"); (UBitTime, txt "BitTime"); (UDecibelMilliWatt, txt "dBmW");
    (UPercent, txt "%"); (UDegree, [0xB0]); (UHertz, txt "Hz"); (UFahrenheit, [0xB0] ++ txt "F"); (UCalorie, txt "cal") ].
(** the exponents, raised *)
Definition raised : list (Z * text) :=
  [ ((-3)%Z, [0x207B; 0xB3]); ((-2)%Z, [0x207B; 0xB2]); ((-1)%Z, [0x207B; 0xB9]); (1%Z, []); (2%Z, [0xB2]); (3%Z, [0xB3]) ].
Definition named_term (u : unit_) (t : text) : Prop :=
  exists s e, In (u_name u, s) unit_words /\ In (u_exponent u, e) raised /\ t = s ++ e.

(** [unit_shown us t]: [t] is the product [us] in the code for units if that has symbols for all of
    them, and otherwise their names one after the other *)
Definition unit_shown (us : list unit_) (t : text) : Prop :=
  (Forall coded us -> ucum_text us t) /\
  (~ Forall coded us -> exists terms, Forall2 named_term us terms /\ t = concat terms).

(** [describes bytes d]: by the tables, the value information field [bytes] means [d]; before the
    combinable extensions [more] *)
Definition describes (bytes more : list N) (d : contribution) : Prop :=
  exists c, chained bytes /\ quantity main_kept alternate_kept bytes c more /\ combined combinable_kept c more d.

(** the code FB 78 to FB 7B, the cumulative maximum of the active power in milliwatts to watts *)
Definition maximum_power (bytes : list N) : Prop := exists e more, bytes = 0xFB :: e :: more /\ additive e.

(** [denotes o z scale more]: the text shown by [o] denotes [z] times the power of ten [scale], plus
    the power of ten that the extensions [more] add *)
Definition denotes (o : record_out) (z : Z) (scale : Z) (more : list N) : Prop :=
  exists offset t, addition more offset /\ vo_kind (ro_value o) = txt "decimal" /\ vo_value (ro_value o) = Some (JString t) /\
    decimal_text t (inject_Z z * ten_power scale + addend offset)%Q.
