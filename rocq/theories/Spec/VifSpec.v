(** EN 13757-3, table of the primary value information field, written without reference to the
    code. *)
From Coq Require Import List NArith ZArith String.
Import ListNotations.
From Verif Require Import Model.Text Model.Core Model.ValueInfo.
Open Scope N_scope.

(** units: a product of powers *)
Definition unit_of (l : list (unit_name * Z)) : list unit_ := map (fun '(u, e) => {| u_name := u; u_exponent := e |}) l.

(** the codes [first] to [first + count - 1] stand for the quantity [label] in the unit [units]
    times 10 to the power of [exponent], which grows by one from each code to the next.
    libmbus names the quantity and the unit; it gives times in seconds, of which the unit has
    [seconds]. *)
Record vif_row := {
  vr_first : N; vr_count : N; vr_exponent : Z;
  vr_label : value_label; vr_units : list unit_;
  vr_xml_quantity : text; vr_xml_unit : text; vr_seconds : Z }.
Definition row first count exponent label units quantity unit_text seconds : vif_row :=
  {| vr_first := first; vr_count := count; vr_exponent := exponent; vr_label := label; vr_units := unit_of units;
     vr_xml_quantity := quantity; vr_xml_unit := unit_text; vr_seconds := seconds |}.
Definition celsius : text := [0xB0; 67].
Definition primary_rows : list vif_row := [
  row 0x00 8 (-3) LEnergy [(UWatt, 1%Z); (UHour, 1%Z)] (txt "Energy") (txt "Wh") 1;
  row 0x08 8 0 LEnergy [(UJoul, 1%Z)] (txt "Energy") (txt "J") 1;
  row 0x10 8 (-6) LVolume [(UMeter, 3%Z)] (txt "Volume") (txt "m^3") 1;
  row 0x18 8 (-3) LMass [(UKilogram, 1%Z)] (txt "Mass") (txt "kg") 1;
  row 0x20 1 0 LOnTime [(USecond, 1%Z)] (txt "On time") (txt "s") 1;
  row 0x21 1 0 LOnTime [(UMinute, 1%Z)] (txt "On time") (txt "s") 60;
  row 0x22 1 0 LOnTime [(UHour, 1%Z)] (txt "On time") (txt "s") 3600;
  row 0x23 1 0 LOnTime [(UDay, 1%Z)] (txt "On time") (txt "s") 86400;
  row 0x24 1 0 LOperatingTime [(USecond, 1%Z)] (txt "Operating time") (txt "s") 1;
  row 0x25 1 0 LOperatingTime [(UMinute, 1%Z)] (txt "Operating time") (txt "s") 60;
  row 0x26 1 0 LOperatingTime [(UHour, 1%Z)] (txt "Operating time") (txt "s") 3600;
  row 0x27 1 0 LOperatingTime [(UDay, 1%Z)] (txt "Operating time") (txt "s") 86400;
  row 0x28 8 (-3) LPower [(UWatt, 1%Z)] (txt "Power") (txt "W") 1;
  row 0x30 8 0 LPower [(UJoul, 1%Z); (UHour, (-1)%Z)] (txt "Power") (txt "J/h") 1;
  row 0x38 8 (-6) LVolumeFlow [(UMeter, 3%Z); (UHour, (-1)%Z)] (txt "Volume flow") (txt "m^3/h") 1;
  row 0x40 8 (-7) LVolumeFlow [(UMeter, 3%Z); (UMinute, (-1)%Z)] (txt "Volume flow") (txt "m^3/min") 1;
  row 0x48 8 (-9) LVolumeFlow [(UMeter, 3%Z); (USecond, (-1)%Z)] (txt "Volume flow") (txt "m^3/s") 1;
  row 0x50 8 (-3) LMassFlow [(UKilogram, 1%Z); (UHour, (-1)%Z)] (txt "Mass flow") (txt "kg/h") 1;
  row 0x58 4 (-3) LFlowTemperature [(UCelsius, 1%Z)] (txt "Flow temperature") celsius 1;
  row 0x5C 4 (-3) LReturnTemperature [(UCelsius, 1%Z)] (txt "Return temperature") celsius 1;
  row 0x60 4 (-3) LTemperatureDifference [(UKelvin, 1%Z)] (txt "Temperature difference") (txt "K") 1;
  row 0x64 4 (-3) LExternalTemperature [(UCelsius, 1%Z)] (txt "External temperature") celsius 1;
  row 0x68 4 (-3) LPressure [(UBar, 1%Z)] (txt "Pressure") (txt "bar") 1;
  row 0x6C 1 0 LDate [] (txt "Time point (date)") (txt "-") 1;
  row 0x6D 1 0 LDateTime [] (txt "Time point (date & time)") (txt "-") 1;
  row 0x6E 1 0 LDimensionlessHCA [] (txt "H.C.A.") (txt "Units for H.C.A.") 1;
  row 0x70 1 0 LAveragingDuration [(USecond, 1%Z)] (txt "Averaging Duration") (txt "s") 1;
  row 0x71 1 0 LAveragingDuration [(UMinute, 1%Z)] (txt "Averaging Duration") (txt "s") 60;
  row 0x72 1 0 LAveragingDuration [(UHour, 1%Z)] (txt "Averaging Duration") (txt "s") 3600;
  row 0x73 1 0 LAveragingDuration [(UDay, 1%Z)] (txt "Averaging Duration") (txt "s") 86400;
  row 0x74 1 0 LActualityDuration [(USecond, 1%Z)] (txt "Actuality Duration") (txt "s") 1;
  row 0x75 1 0 LActualityDuration [(UMinute, 1%Z)] (txt "Actuality Duration") (txt "s") 60;
  row 0x76 1 0 LActualityDuration [(UHour, 1%Z)] (txt "Actuality Duration") (txt "s") 3600;
  row 0x77 1 0 LActualityDuration [(UDay, 1%Z)] (txt "Actuality Duration") (txt "s") 86400;
  row 0x78 1 0 LFabricationNumber [] (txt "Fabrication No") [] 1;
  row 0x79 1 0 LEnhancedIdentification [] (txt "(Enhanced) Identification") [] 1;
  row 0x7A 1 0 LAddress [] (txt "Bus Address") [] 1 ].

(** [primary vif r n]: the code [vif] is the [n]-th of the row [r] *)
Definition primary (vif : N) (r : vif_row) (n : N) : Prop := In r primary_rows /\ n < vr_count r /\ vif = vr_first r + n.
(** its power of ten *)
Definition primary_scale (r : vif_row) (n : N) : Z := (vr_exponent r + Z.of_N n)%Z.
(** averaging and actuality durations *)
Definition duration (r : vif_row) : Prop := vr_label r = LAveragingDuration \/ vr_label r = LActualityDuration.
