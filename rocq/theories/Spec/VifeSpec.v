(** EN 13757-3, the two extension tables of the value information field and the combinable
    extensions, written without reference to the code.  Codes about which the editions of the
    standard differ (FB 06, 22 to 27, 68 to 6E; FC 0D, 13 and up; FD 65) are left out. *)
From Coq Require Import List NArith ZArith.
Import ListNotations.
From Verif Require Import Model.Base Model.Core Model.DataInfo Model.ValueInfo Spec.VifSpec.
Open Scope N_scope.
Open Scope list_scope.

(** what a code says about the value: names, factors of the unit, a power of ten that multiplies
    the value and the power of ten of a constant to add to it *)
Record contribution := { c_labels : list value_label; c_units : list unit_; c_scale : Z; c_offset : Z }.
Definition says labels units scale : contribution := {| c_labels := labels; c_units := unit_of units; c_scale := scale; c_offset := 0 |}.
(** [count] codes from [first] on, the power of ten growing from [exponent] *)
Definition powers (first : N) (count : nat) (exponent : Z) (label : value_label) (units : list (unit_name * Z)) : list (N * contribution) :=
  map (fun i => (first + N.of_nat i, says [label] units (exponent + Z.of_nat i)%Z)) (seq 0 count).
Definition plain (first : N) (labels : list value_label) : list (N * contribution) :=
  map (fun '(i, l) => (first + N.of_nat i, says [l] [] 0)) (combine (seq 0 (length labels)) labels).
(** codes for times in successive units *)
Definition times (first : N) (label : value_label) (units : list unit_name) : list (N * contribution) :=
  map (fun '(i, u) => (first + N.of_nat i, says [label] [(u, 1%Z)] 0)) (combine (seq 0 (length units)) units).
Definition seconds_to_days := [USecond; UMinute; UHour; UDay].
Definition hours_to_years := [UHour; UDay; UMonth; UYear].

(** ** after FD *)
Definition main_table : list (N * contribution) :=
  powers 0x00 4 (-3) LCredit [(ULocalMoneyCurrency, 1%Z)] ++
  powers 0x04 4 (-3) LDebit [(ULocalMoneyCurrency, 1%Z)] ++
  plain 0x08 [LUniqueMessageIdentificationOrAccessNumber; LDeviceType; LManufacturer; LParameterSetIdentification; LModelOrVersion;
    LHardwareVersion; LMetrologyFirmwareVersion; LOtherSoftwareVersion; LCustomerLocation; LCustomer; LAccessCodeUser; LAccessCodeOperator;
    LAccessCodeSystemOperator; LAccessCodeDeveloper; LPassword; LErrorFlags; LErrorMask; LSecurityKey] ++
  [(0x1A, says [LDigitalOutput; LBinary] [] 0); (0x1B, says [LDigitalInput; LBinary] [] 0);
   (0x1C, says [LBaudRate] [(USymbol, 1%Z); (USecond, (-1)%Z)] 0); (0x1D, says [LResponseDelayTime] [(UBitTime, 1%Z)] 0)] ++
  plain 0x1E [LRetry; LRemoteControl; LFirstStorageForCycleStorage; LLastStorageForCycleStorage; LSizeOfStorageBlock; LDescriptionOfTariffAndSubunit] ++
  times 0x24 LStorageInterval (seconds_to_days ++ [UMonth; UYear]) ++
  plain 0x3A [LDimensionless; LDataContainerForWmbusProtocol] ++
  times 0x3C LPeriodOfNormalDataTransmission seconds_to_days ++
  powers 0x40 16 (-9) LVoltage [(UVolt, 1%Z)] ++
  powers 0x50 16 (-12) LCurrent [(UAmpere, 1%Z)] ++
  plain 0x60 [LResetCounter; LCumulationCounter; LControlSignal; LDayOfWeek; LWeekNumber] ++
  plain 0x66 [LStateOfParameterActivation; LSpecialSupplierInformation] ++
  times 0x68 LDurationSinceLastCumulation hours_to_years ++
  times 0x6C LOperatingTimeBattery hours_to_years ++
  plain 0x70 [LDateAndTimeOfBatteryChange] ++
  [(0x71, says [LRFPowerLevel] [(UDecibelMilliWatt, 1%Z)] 0)] ++
  plain 0x72 [LDaylightSavingBeginningEndingDeviation; LListeningWindowManagementData] ++
  times 0x74 LRemainingBatteryLifeTime [UDay] ++
  plain 0x75 [LNumberOfTimesTheMeterWasStopped; LDataContainerForManufacturerSpecificProtocol].
(** FD 30 to FD 39 are about tariffs: their start, duration and period *)
Definition tariff_code (code : N) : Prop := 0x30 <= code <= 0x39.

(** ** after FB *)
Definition alternate_table : list (N * contribution) :=
  powers 0x00 2 5 LEnergy [(UWatt, 1%Z); (UHour, 1%Z)] ++
  powers 0x02 2 3 LReactiveEnergy [(UReactiveWatt, 1%Z); (UHour, 1%Z)] ++
  powers 0x04 2 3 LApparentEnergy [(UApparentWatt, 1%Z); (UHour, 1%Z)] ++
  powers 0x08 2 8 LEnergy [(UJoul, 1%Z)] ++
  powers 0x0C 4 5 LEnergy [(UCalorie, 1%Z)] ++
  powers 0x10 2 2 LVolume [(UMeter, 3%Z)] ++
  powers 0x14 4 0 LReactivePower [(UReactiveWatt, 1%Z)] ++
  powers 0x18 2 2 LMass [(UTonne, 1%Z)] ++
  powers 0x1A 2 (-1) LRelativeHumidity [(UPercent, 1%Z)] ++
  powers 0x20 1 0 LVolume [(UFeet, 3%Z)] ++
  powers 0x21 1 (-1) LVolume [(UFeet, 3%Z)] ++
  powers 0x28 2 5 LPower [(UWatt, 1%Z)] ++
  powers 0x2A 1 (-1) LPhaseUtoU [(UDegree, 1%Z)] ++
  powers 0x2B 1 (-1) LPhaseUtoI [(UDegree, 1%Z)] ++
  powers 0x2C 4 (-3) LFrequency [(UHertz, 1%Z)] ++
  powers 0x30 2 8 LPower [(UJoul, 1%Z); (UHour, (-1)%Z)] ++
  powers 0x34 4 0 LApparentPower [(UApparentWatt, 1%Z)] ++
  powers 0x58 4 (-3) LFlowTemperature [(UFahrenheit, 1%Z)] ++
  powers 0x5C 4 (-3) LReturnTemperature [(UFahrenheit, 1%Z)] ++
  powers 0x60 4 (-3) LTemperatureDifference [(UFahrenheit, 1%Z)] ++
  powers 0x64 4 (-3) LExternalTemperature [(UFahrenheit, 1%Z)] ++
  powers 0x70 4 (-3) LColdWarmTemperatureLimit [(UFahrenheit, 1%Z)] ++
  powers 0x74 4 (-3) LColdWarmTemperatureLimit [(UCelsius, 1%Z)] ++
  powers 0x78 8 (-3) LCumulativeMaximumOfActivePower [(UWatt, 1%Z)].

(** ** combinable extensions *)
Definition per (code : N) (units : list (unit_name * Z)) (scale : Z) : list (N * contribution) := [(code, says [] units scale)].
Definition combinable_table : list (N * contribution) :=
  plain 0x12 [LAveraged; LInverseCompactProfile; LRelativeDeviation] ++
  plain 0x1D [LStandardConformDataContent; LCompactProfileWithRegisterNumbers; LCompactProfile] ++
  per 0x20 [(USecond, (-1)%Z)] 0 ++ per 0x21 [(UMinute, (-1)%Z)] 0 ++ per 0x22 [(UHour, (-1)%Z)] 0 ++ per 0x23 [(UDay, (-1)%Z)] 0 ++
  per 0x24 [(UWeek, (-1)%Z)] 0 ++ per 0x25 [(UMonth, (-1)%Z)] 0 ++ per 0x26 [(UYear, (-1)%Z)] 0 ++ per 0x27 [(URevolution, (-1)%Z)] 0 ++
  per 0x28 [(UIncrement, 1%Z); (UInputPulseOnChannel0, (-1)%Z)] 0 ++ per 0x29 [(UIncrement, 1%Z); (UInputPulseOnChannel1, (-1)%Z)] 0 ++
  per 0x2A [(UIncrement, 1%Z); (UOutputPulseOnChannel0, (-1)%Z)] 0 ++ per 0x2B [(UIncrement, 1%Z); (UOutputPulseOnChannel1, (-1)%Z)] 0 ++
  per 0x2C [(ULiter, (-1)%Z)] 0 ++ per 0x2D [(UMeter, (-3)%Z)] 0 ++ per 0x2E [(UKilogram, (-1)%Z)] 0 ++ per 0x2F [(UKelvin, (-1)%Z)] 0 ++
  per 0x30 [(UWatt, (-1)%Z); (UHour, (-1)%Z)] (-3) ++ per 0x31 [(UJoul, (-1)%Z)] (-9) ++ per 0x32 [(UWatt, (-1)%Z)] (-3) ++
  per 0x33 [(UKelvin, (-1)%Z); (ULiter, (-1)%Z)] 0 ++ per 0x34 [(UVolt, (-1)%Z)] 0 ++ per 0x35 [(UAmpere, (-1)%Z)] 0 ++
  per 0x36 [(USecond, 1%Z)] 0 ++ per 0x37 [(USecond, 1%Z); (UVolt, (-1)%Z)] 0 ++ per 0x38 [(USecond, 1%Z); (UAmpere, (-1)%Z)] 0 ++
  plain 0x39 [LStartDateOf; LVifContainsUncorrectedUnitOrValue; LAccumulationOnlyIfValueIsPositive; LAccumulationOnlyIfValueIsNegative;
    LNonMetricUnits; LValueAtBaseConditions; LObisDeclaration] ++
  (* limits: 100 u f 1 b with u lower or upper, f first or last, b begin or end *)
  plain 0x40 [LLowerLimitValue; LNumberOfExceedsOfLowerLimitValue; LDateOfBeginFirstLowerLimitExceed; LDateOfEndFirstLowerLimitExceed] ++
  plain 0x46 [LDateOfBeginLastLowerLimitExceed; LDateOfEndLastLowerLimitExceed] ++
  plain 0x48 [LUpperLimitValue; LNumberOfExceedsOfUpperLimitValue; LDateOfBeginFirstUpperLimitExceed; LDateOfEndFirstUpperLimitExceed] ++
  plain 0x4E [LDateOfBeginLastUpperLimitExceed; LDateOfEndLastUpperLimitExceed] ++
  times 0x50 LDurationOfFirstLowerLimitExceed seconds_to_days ++ times 0x54 LDurationOfLastLowerLimitExceed seconds_to_days ++
  times 0x58 LDurationOfFirstUpperLimitExceed seconds_to_days ++ times 0x5C LDurationOfLastUpperLimitExceed seconds_to_days ++
  times 0x60 LDurationOfFirst seconds_to_days ++ times 0x64 LDurationOfLast seconds_to_days ++
  (* 110 1 f 1 b with f first or last, b begin or end *)
  plain 0x68 [LValueDuringLowerValueExceed; LLeakageValues; LDateOfBeginFirst; LDateOfEndFirst] ++
  plain 0x6C [LValueDuringUpperValueExceed; LOverflowValues; LDateOfBeginLast; LDateOfEndLast] ++
  map (fun i => (0x70 + N.of_nat i, says [] [] (Z.of_nat i - 6)%Z)) (seq 0 8) ++
  map (fun i => (0x78 + N.of_nat i, {| c_labels := []; c_units := []; c_scale := 0; c_offset := (Z.of_nat i - 3)%Z |})) (seq 0 4) ++
  per 0x7D [] 3 ++
  plain 0x7E [LFutureValue].
(** after FC *)
Definition combinable_more : list (N * contribution) :=
  plain 0x01 [LAtPhaseL1; LAtPhaseL2; LAtPhaseL3; LAtNeutral; LBetweenPhasesL1L2; LBetweenPhasesL2L3; LBetweenPhasesL3L1;
    LAtQuadrant1; LAtQuadrant2; LAtQuadrant3; LAtQuadrant4; LDeltaBetweenImportAndExport] ++
  plain 0x0E [LSecondarySensorMeasurement; LHigherResolutionRegister; LAccumulationOfAbsoluteValueBothPositiveAndNegativeContribution;
    LDataPresentedWithTypeC; LDataPresentedWithTypeD].

(** ** a value information field and its extensions *)
Definition meaning (c : contribution) : value_information :=
  {| vi_decimal_offset_exponent := c_offset c; vi_labels := c_labels c; vi_decimal_scale_exponent := c_scale c; vi_units := c_units c |}.
Definition also (c d : contribution) : contribution :=
  {| c_labels := c_labels c ++ c_labels d; c_units := c_units c ++ c_units d; c_scale := (c_scale c + c_scale d)%Z; c_offset := (c_offset c + c_offset d)%Z |}.

(** [chained bytes]: every byte but the last has its top bit set *)
Fixpoint chained (bytes : list N) : Prop :=
  match bytes with
  | [] => False
  | [b] => b < 128
  | b :: rest => 128 <= b < 256 /\ chained rest
  end.
Definition code_of (b : N) : N := b mod 128.

(** [quantity main alternate vib c more]: by the tables [main] and [alternate], the bytes [vib] name
    the quantity [c], before the combinable extensions [more] *)
Inductive quantity (main alternate : list (N * contribution)) : list N -> contribution -> list N -> Prop :=
| quantity_primary b r n more : primary (code_of b) r n -> ~ duration r ->
    quantity main alternate (b :: more) {| c_labels := [vr_label r]; c_units := vr_units r; c_scale := primary_scale r n; c_offset := 0 |} more
| quantity_main b c more : In (code_of b, c) main -> quantity main alternate (0xFD :: b :: more) c more
| quantity_alternate b c more : In (code_of b, c) alternate -> quantity main alternate (0xFB :: b :: more) c more.

(** [combined table c more d]: with the combinable extensions [more] of [table], [c] becomes [d] *)
Inductive combined (table : list (N * contribution)) : contribution -> list N -> contribution -> Prop :=
| combined_none c : combined table c [] c
| combined_one c b more a d : b <> 0xFC -> In (code_of b, a) table -> combined table (also c a) more d -> combined table c (b :: more) d
| combined_more c b more a d : In (code_of b, a) combinable_more -> combined table (also c a) more d -> combined table c (0xFC :: b :: more) d.

(** a table without some codes *)
Definition without (codes : list N) (table : list (N * contribution)) : list (N * contribution) :=
  filter (fun '(code, _) => negb (existsb (N.eqb code) codes)) table.

(** codes on which the library departs from the tables *)
Definition main_departs : list N := [0x3B; 0x3C; 0x3D; 0x3E; 0x3F; 0x6F; 0x70; 0x74].
Definition alternate_departs : list N := [0x00; 0x01].
Definition combinable_departs : list N := [0x2C; 0x6B; 0x6E; 0x6F].
Definition main_kept := without main_departs main_table.
Definition alternate_kept := without alternate_departs alternate_table.
Definition combinable_kept := without combinable_departs combinable_table.

(** the library keeps ten labels and ten factors of the unit *)
Definition fits (c : contribution) : bool := (len (c_labels c) <=? 10) && (len (c_units c) <=? 10).

(** [information cf bytes rest o]: the value information block at the start of [bytes ++ rest] is
    [bytes], of which ValueInformation::try_from makes [o] *)
Definition information (cf : config) (bytes rest : list N) (o : outcome data_information_error value_information) : Prop :=
  exists b, vib_try_from cf (bytes ++ rest) = Ok b /\ vib_get_size b = len bytes /\ value_information_try_from b = o.
(** the library says something else than [c] *)
Definition departs_from (bytes : list N) (c : contribution) : Prop :=
  forall cf rest b, vib_try_from cf (bytes ++ rest) = Ok b -> value_information_try_from b <> Ok (meaning c).
(** litres, VIF 13 *)
Definition cubic_metres : contribution := says [LVolume] [(UMeter, 3%Z)] (-3).
