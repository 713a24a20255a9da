(** EN 13757-3, the two extension tables of the value information field, with the names and units that libmbus
    gives to their codes.  Codes for dates and for times in months and years are left out, and codes about which the editions
    of the standard differ (FD 65; FB 22 to 26). *)
From Coq Require Import List NArith ZArith QArith String.
Import ListNotations.
From Verif Require Import Model.Base Model.Text Spec.TextSpec Spec.EscapeSpec Spec.XmlSpec Spec.VifSpec Spec.FloatSpec Spec.RscadaSpec.
Open Scope N_scope.
Open Scope list_scope.

(** [count] codes from [first] on after the VIF [table]; code [first + n] is in units of [seconds] times 10 ^ (exponent + n) *)
Record ext_row := { xr_table : N; xr_first : N; xr_count : N; xr_exponent : Z; xr_seconds : Z; xr_unit : text; xr_quantity : text }.
Definition steps (table first count : N) (exponent : Z) (unit_text quantity : text) : ext_row :=
  {| xr_table := table; xr_first := first; xr_count := count; xr_exponent := exponent; xr_seconds := 1; xr_unit := unit_text;
     xr_quantity := quantity |}.
Definition bare (first : N) (quantity : text) : ext_row := steps 0xFD first 1 0 [] quantity.
Definition period (first : N) (seconds : Z) (quantity : text) : ext_row :=
  {| xr_table := 0xFD; xr_first := first; xr_count := 1; xr_exponent := 0; xr_seconds := seconds; xr_unit := txt "s";
     xr_quantity := quantity |}.
Definition fahrenheit : text := [0xB0; 70].
Definition ext_rows : list ext_row := [
  steps 0xFD 0x00 4 (-3) (txt "Currency units") (txt "Credit");
  steps 0xFD 0x04 4 (-3) (txt "Currency units") (txt "Debit");
  bare 0x08 (txt "Access Number (transmission count)"); bare 0x09 (txt "Medium"); bare 0x0A (txt "Manufacturer");
  bare 0x0B (txt "Parameter set identification"); bare 0x0C (txt "Model / Version"); bare 0x0D (txt "Hardware version");
  bare 0x0E (txt "Firmware version"); bare 0x0F (txt "Software version"); bare 0x10 (txt "Customer location");
  bare 0x11 (txt "Customer"); bare 0x12 (txt "Access Code User"); bare 0x13 (txt "Access Code Operator");
  bare 0x14 (txt "Access Code System Operator"); bare 0x15 (txt "Access Code Developer"); bare 0x16 (txt "Password");
  bare 0x17 (txt "Error flags"); bare 0x18 (txt "Error mask"); bare 0x1A (txt "Digital Output"); bare 0x1B (txt "Digital Input");
  steps 0xFD 0x1C 1 0 (txt "Baud") (txt "Baudrate"); steps 0xFD 0x1D 1 0 (txt "Bittimes") (txt "Response delay time");
  bare 0x1E (txt "Retry"); bare 0x20 (txt "First storage # for cyclic storage");
  bare 0x21 (txt "Last storage # for cyclic storage"); bare 0x22 (txt "Size of storage block");
  period 0x24 1 (txt "Storage interval"); period 0x25 60 (txt "Storage interval");
  period 0x26 3600 (txt "Storage interval"); period 0x27 86400 (txt "Storage interval");
  period 0x2C 1 (txt "Duration since last readout"); period 0x2D 60 (txt "Duration since last readout");
  period 0x2E 3600 (txt "Duration since last readout"); period 0x2F 86400 (txt "Duration since last readout");
  period 0x31 60 (txt "Duration of tariff"); period 0x32 3600 (txt "Duration of tariff"); period 0x33 86400 (txt "Duration of tariff");
  period 0x34 1 (txt "Period of tariff"); period 0x35 60 (txt "Period of tariff");
  period 0x36 3600 (txt "Period of tariff"); period 0x37 86400 (txt "Period of tariff");
  bare 0x3A (txt "Dimensionless");
  steps 0xFD 0x40 16 (-9) (txt "V") (txt "Voltage"); steps 0xFD 0x50 16 (-12) (txt "A") (txt "Current");
  bare 0x60 (txt "Reset counter"); bare 0x61 (txt "Cumulation counter"); bare 0x62 (txt "Control signal");
  bare 0x63 (txt "Day of week"); bare 0x64 (txt "Week number");
  bare 0x66 (txt "State of parameter activation"); bare 0x67 (txt "Special supplier information");
  period 0x68 3600 (txt "Duration since last cumulation"); period 0x69 86400 (txt "Duration since last cumulation");
  period 0x6C 3600 (txt "Operating time battery"); period 0x6D 86400 (txt "Operating time battery");
  steps 0xFB 0x00 2 5 (txt "Wh") (txt "Energy"); steps 0xFB 0x08 2 8 (txt "J") (txt "Energy");
  steps 0xFB 0x10 2 2 (txt "m^3") (txt "Volume"); steps 0xFB 0x18 2 5 (txt "kg") (txt "Mass");
  steps 0xFB 0x21 1 (-1) (txt "feet^3") (txt "Volume");
  steps 0xFB 0x28 2 5 (txt "W") (txt "Power"); steps 0xFB 0x30 2 8 (txt "J/h") (txt "Power");
  steps 0xFB 0x58 4 (-3) fahrenheit (txt "Flow temperature"); steps 0xFB 0x5C 4 (-3) fahrenheit (txt "Return temperature");
  steps 0xFB 0x60 4 (-3) fahrenheit (txt "Temperature difference"); steps 0xFB 0x64 4 (-3) fahrenheit (txt "External temperature");
  steps 0xFB 0x70 4 (-3) fahrenheit (txt "Cold / Warm Temperature Limit"); steps 0xFB 0x74 4 (-3) celsius (txt "Cold / Warm Temperature Limit");
  steps 0xFB 0x78 8 (-3) (txt "W") (txt "Cumul count max power") ].

(** [after vif code r n]: the byte [code] after the byte [vif] is the [n]-th code of the row [r] *)
Definition after (vif code : N) (r : ext_row) (n : N) : Prop :=
  In r ext_rows /\ n < xr_count r /\ vif = xr_table r /\ code = xr_first r + n.
Definition xml_scale (r : ext_row) (n : N) : Z := (xr_exponent r + Z.of_N n)%Z.
(** the codes that are not shown so: 0.1 and 1 GJ, 0.1 and 1 GJ/h, and the second of the cumulative maxima of power *)
Definition shown_otherwise (vif code : N) : Prop := vif = 0xFB /\ In code [0x08; 0x09; 0x30; 0x31; 0x79].

(** [extended_number fields r n z]: the fields give the unit and the quantity of the [n]-th code of
    the row [r], and the value [z] in that unit *)
Definition extended_number (fields : list (text * text)) (r : ext_row) (n : N) (z : Z) : Prop :=
  lookup (txt "Unit") fields = Some (xr_unit r) /\ lookup (txt "Quantity") fields = Some (xr_quantity r) /\
  exists t, lookup (txt "Value") fields = Some t /\
    (six_digits (z * xr_seconds r) (xml_scale r n) ->
     decimal_text t (inject_Z (z * xr_seconds r) * ten_power (xml_scale r n))%Q).
