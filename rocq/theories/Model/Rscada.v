(** Model of src/rscada_xml.rs, the XML output in the vocabulary of libmbus.  The tables are
    generated from the source text. *)
From Coq Require Import String.
From Verif Require Import Model.Base Model.Text Model.Core Model.Wired Model.Wireless Model.F64 Model.DataInfo Model.ValueInfo Model.Record
  Model.Decrypt Model.UserData Model.Hex Model.MbusData Model.Escape Model.Show Model.Output.

(** a line: the text and a line feed; src/rscada_xml.rs writes [\n] at the end of its formats *)
Definition line (s : text) : text := s ++ [10].

(** rscada_xml.rs:12 *)
Definition xml_processing_instruction : text :=
  line (txt "<?xml version=""1.0"" encoding=""ISO-8859-1""?>").

(** the multipliers of rscada_xml.rs:1152-1536 are decimal literals: [(m, e)] stands for
    m * 10^e, rounded once (mantissas and powers of ten are exact in f64) *)
Definition f64_literal (m e : Z) : f64 :=
  if (0 <=? e)%Z then f64_of_Z (m * 10 ^ e)
  else SFdiv 53 1024 (f64_of_Z m) (f64_of_Z (10 ^ (- e))).

(** rscada_xml.rs:1152-1536, [VIF_TABLE] *)
Definition vif_table : list (N * (Z * Z) * text * text) := [
  (0x00, (1, (-3))%Z, txt "Wh", txt "Energy");
  (0x01, (1, (-2))%Z, txt "Wh", txt "Energy");
  (0x02, (1, (-1))%Z, txt "Wh", txt "Energy");
  (0x03, (1, 0)%Z, txt "Wh", txt "Energy");
  (0x04, (1, 1)%Z, txt "Wh", txt "Energy");
  (0x05, (1, 2)%Z, txt "Wh", txt "Energy");
  (0x06, (1, 3)%Z, txt "Wh", txt "Energy");
  (0x07, (1, 4)%Z, txt "Wh", txt "Energy");
  (0x08, (1, 0)%Z, txt "J", txt "Energy");
  (0x09, (1, 1)%Z, txt "J", txt "Energy");
  (0x0A, (1, 2)%Z, txt "J", txt "Energy");
  (0x0B, (1, 3)%Z, txt "J", txt "Energy");
  (0x0C, (1, 4)%Z, txt "J", txt "Energy");
  (0x0D, (1, 5)%Z, txt "J", txt "Energy");
  (0x0E, (1, 6)%Z, txt "J", txt "Energy");
  (0x0F, (1, 7)%Z, txt "J", txt "Energy");
  (0x10, (1, (-6))%Z, txt "m^3", txt "Volume");
  (0x11, (1, (-5))%Z, txt "m^3", txt "Volume");
  (0x12, (1, (-4))%Z, txt "m^3", txt "Volume");
  (0x13, (1, (-3))%Z, txt "m^3", txt "Volume");
  (0x14, (1, (-2))%Z, txt "m^3", txt "Volume");
  (0x15, (1, (-1))%Z, txt "m^3", txt "Volume");
  (0x16, (1, 0)%Z, txt "m^3", txt "Volume");
  (0x17, (1, 1)%Z, txt "m^3", txt "Volume");
  (0x18, (1, (-3))%Z, txt "kg", txt "Mass");
  (0x19, (1, (-2))%Z, txt "kg", txt "Mass");
  (0x1A, (1, (-1))%Z, txt "kg", txt "Mass");
  (0x1B, (1, 0)%Z, txt "kg", txt "Mass");
  (0x1C, (1, 1)%Z, txt "kg", txt "Mass");
  (0x1D, (1, 2)%Z, txt "kg", txt "Mass");
  (0x1E, (1, 3)%Z, txt "kg", txt "Mass");
  (0x1F, (1, 4)%Z, txt "kg", txt "Mass");
  (0x20, (1, 0)%Z, txt "s", txt "On time");
  (0x21, (60, 0)%Z, txt "s", txt "On time");
  (0x22, (3600, 0)%Z, txt "s", txt "On time");
  (0x23, (86400, 0)%Z, txt "s", txt "On time");
  (0x24, (1, 0)%Z, txt "s", txt "Operating time");
  (0x25, (60, 0)%Z, txt "s", txt "Operating time");
  (0x26, (3600, 0)%Z, txt "s", txt "Operating time");
  (0x27, (86400, 0)%Z, txt "s", txt "Operating time");
  (0x28, (1, (-3))%Z, txt "W", txt "Power");
  (0x29, (1, (-2))%Z, txt "W", txt "Power");
  (0x2A, (1, (-1))%Z, txt "W", txt "Power");
  (0x2B, (1, 0)%Z, txt "W", txt "Power");
  (0x2C, (1, 1)%Z, txt "W", txt "Power");
  (0x2D, (1, 2)%Z, txt "W", txt "Power");
  (0x2E, (1, 3)%Z, txt "W", txt "Power");
  (0x2F, (1, 4)%Z, txt "W", txt "Power");
  (0x30, (1, 0)%Z, txt "J/h", txt "Power");
  (0x31, (1, 1)%Z, txt "J/h", txt "Power");
  (0x32, (1, 2)%Z, txt "J/h", txt "Power");
  (0x33, (1, 3)%Z, txt "J/h", txt "Power");
  (0x34, (1, 4)%Z, txt "J/h", txt "Power");
  (0x35, (1, 5)%Z, txt "J/h", txt "Power");
  (0x36, (1, 6)%Z, txt "J/h", txt "Power");
  (0x37, (1, 7)%Z, txt "J/h", txt "Power");
  (0x38, (1, (-6))%Z, txt "m^3/h", txt "Volume flow");
  (0x39, (1, (-5))%Z, txt "m^3/h", txt "Volume flow");
  (0x3A, (1, (-4))%Z, txt "m^3/h", txt "Volume flow");
  (0x3B, (1, (-3))%Z, txt "m^3/h", txt "Volume flow");
  (0x3C, (1, (-2))%Z, txt "m^3/h", txt "Volume flow");
  (0x3D, (1, (-1))%Z, txt "m^3/h", txt "Volume flow");
  (0x3E, (1, 0)%Z, txt "m^3/h", txt "Volume flow");
  (0x3F, (1, 1)%Z, txt "m^3/h", txt "Volume flow");
  (0x40, (1, (-7))%Z, txt "m^3/min", txt "Volume flow");
  (0x41, (1, (-6))%Z, txt "m^3/min", txt "Volume flow");
  (0x42, (1, (-5))%Z, txt "m^3/min", txt "Volume flow");
  (0x43, (1, (-4))%Z, txt "m^3/min", txt "Volume flow");
  (0x44, (1, (-3))%Z, txt "m^3/min", txt "Volume flow");
  (0x45, (1, (-2))%Z, txt "m^3/min", txt "Volume flow");
  (0x46, (1, (-1))%Z, txt "m^3/min", txt "Volume flow");
  (0x47, (1, 0)%Z, txt "m^3/min", txt "Volume flow");
  (0x48, (1, (-9))%Z, txt "m^3/s", txt "Volume flow");
  (0x49, (1, (-8))%Z, txt "m^3/s", txt "Volume flow");
  (0x4A, (1, (-7))%Z, txt "m^3/s", txt "Volume flow");
  (0x4B, (1, (-6))%Z, txt "m^3/s", txt "Volume flow");
  (0x4C, (1, (-5))%Z, txt "m^3/s", txt "Volume flow");
  (0x4D, (1, (-4))%Z, txt "m^3/s", txt "Volume flow");
  (0x4E, (1, (-3))%Z, txt "m^3/s", txt "Volume flow");
  (0x4F, (1, (-2))%Z, txt "m^3/s", txt "Volume flow");
  (0x50, (1, (-3))%Z, txt "kg/h", txt "Mass flow");
  (0x51, (1, (-2))%Z, txt "kg/h", txt "Mass flow");
  (0x52, (1, (-1))%Z, txt "kg/h", txt "Mass flow");
  (0x53, (1, 0)%Z, txt "kg/h", txt "Mass flow");
  (0x54, (1, 1)%Z, txt "kg/h", txt "Mass flow");
  (0x55, (1, 2)%Z, txt "kg/h", txt "Mass flow");
  (0x56, (1, 3)%Z, txt "kg/h", txt "Mass flow");
  (0x57, (1, 4)%Z, txt "kg/h", txt "Mass flow");
  (0x58, (1, (-3))%Z, [0xB0] ++ txt "C", txt "Flow temperature");
  (0x59, (1, (-2))%Z, [0xB0] ++ txt "C", txt "Flow temperature");
  (0x5A, (1, (-1))%Z, [0xB0] ++ txt "C", txt "Flow temperature");
  (0x5B, (1, 0)%Z, [0xB0] ++ txt "C", txt "Flow temperature");
  (0x5C, (1, (-3))%Z, [0xB0] ++ txt "C", txt "Return temperature");
  (0x5D, (1, (-2))%Z, [0xB0] ++ txt "C", txt "Return temperature");
  (0x5E, (1, (-1))%Z, [0xB0] ++ txt "C", txt "Return temperature");
  (0x5F, (1, 0)%Z, [0xB0] ++ txt "C", txt "Return temperature");
  (0x60, (1, (-3))%Z, txt "K", txt "Temperature difference");
  (0x61, (1, (-2))%Z, txt "K", txt "Temperature difference");
  (0x62, (1, (-1))%Z, txt "K", txt "Temperature difference");
  (0x63, (1, 0)%Z, txt "K", txt "Temperature difference");
  (0x64, (1, (-3))%Z, [0xB0] ++ txt "C", txt "External temperature");
  (0x65, (1, (-2))%Z, [0xB0] ++ txt "C", txt "External temperature");
  (0x66, (1, (-1))%Z, [0xB0] ++ txt "C", txt "External temperature");
  (0x67, (1, 0)%Z, [0xB0] ++ txt "C", txt "External temperature");
  (0x68, (1, (-3))%Z, txt "bar", txt "Pressure");
  (0x69, (1, (-2))%Z, txt "bar", txt "Pressure");
  (0x6A, (1, (-1))%Z, txt "bar", txt "Pressure");
  (0x6B, (1, 0)%Z, txt "bar", txt "Pressure");
  (0x6C, (1, 0)%Z, txt "-", txt "Time point (date)");
  (0x6D, (1, 0)%Z, txt "-", txt "Time point (date & time)");
  (0x6E, (1, 0)%Z, txt "Units for H.C.A.", txt "H.C.A.");
  (0x6F, (0, 0)%Z, txt "Reserved", txt "Reserved");
  (0x70, (1, 0)%Z, txt "s", txt "Averaging Duration");
  (0x71, (60, 0)%Z, txt "s", txt "Averaging Duration");
  (0x72, (3600, 0)%Z, txt "s", txt "Averaging Duration");
  (0x73, (86400, 0)%Z, txt "s", txt "Averaging Duration");
  (0x74, (1, 0)%Z, txt "s", txt "Actuality Duration");
  (0x75, (60, 0)%Z, txt "s", txt "Actuality Duration");
  (0x76, (3600, 0)%Z, txt "s", txt "Actuality Duration");
  (0x77, (86400, 0)%Z, txt "s", txt "Actuality Duration");
  (0x78, (1, 0)%Z, [], txt "Fabrication No");
  (0x79, (1, 0)%Z, [], txt "(Enhanced) Identification");
  (0x7A, (1, 0)%Z, [], txt "Bus Address");
  (0x7E, (1, 0)%Z, [], txt "Any VIF");
  (0x7F, (1, 0)%Z, [], txt "Manufacturer specific");
  (0xFE, (1, 0)%Z, [], txt "Any VIF");
  (0xFF, (1, 0)%Z, [], txt "Manufacturer specific");
  (0x100, (1, (-3))%Z, txt "Currency units", txt "Credit");
  (0x101, (1, (-2))%Z, txt "Currency units", txt "Credit");
  (0x102, (1, (-1))%Z, txt "Currency units", txt "Credit");
  (0x103, (1, 0)%Z, txt "Currency units", txt "Credit");
  (0x104, (1, (-3))%Z, txt "Currency units", txt "Debit");
  (0x105, (1, (-2))%Z, txt "Currency units", txt "Debit");
  (0x106, (1, (-1))%Z, txt "Currency units", txt "Debit");
  (0x107, (1, 0)%Z, txt "Currency units", txt "Debit");
  (0x108, (1, 0)%Z, [], txt "Access Number (transmission count)");
  (0x109, (1, 0)%Z, [], txt "Medium");
  (0x10A, (1, 0)%Z, [], txt "Manufacturer");
  (0x10B, (1, 0)%Z, [], txt "Parameter set identification");
  (0x10C, (1, 0)%Z, [], txt "Model / Version");
  (0x10D, (1, 0)%Z, [], txt "Hardware version");
  (0x10E, (1, 0)%Z, [], txt "Firmware version");
  (0x10F, (1, 0)%Z, [], txt "Software version");
  (0x110, (1, 0)%Z, [], txt "Customer location");
  (0x111, (1, 0)%Z, [], txt "Customer");
  (0x112, (1, 0)%Z, [], txt "Access Code User");
  (0x113, (1, 0)%Z, [], txt "Access Code Operator");
  (0x114, (1, 0)%Z, [], txt "Access Code System Operator");
  (0x115, (1, 0)%Z, [], txt "Access Code Developer");
  (0x116, (1, 0)%Z, [], txt "Password");
  (0x117, (1, 0)%Z, [], txt "Error flags");
  (0x118, (1, 0)%Z, [], txt "Error mask");
  (0x119, (1, 0)%Z, txt "Reserved", txt "Reserved");
  (0x11A, (1, 0)%Z, [], txt "Digital Output");
  (0x11B, (1, 0)%Z, [], txt "Digital Input");
  (0x11C, (1, 0)%Z, txt "Baud", txt "Baudrate");
  (0x11D, (1, 0)%Z, txt "Bittimes", txt "Response delay time");
  (0x11E, (1, 0)%Z, [], txt "Retry");
  (0x11F, (1, 0)%Z, txt "Reserved", txt "Reserved");
  (0x120, (1, 0)%Z, [], txt "First storage # for cyclic storage");
  (0x121, (1, 0)%Z, [], txt "Last storage # for cyclic storage");
  (0x122, (1, 0)%Z, [], txt "Size of storage block");
  (0x123, (1, 0)%Z, txt "Reserved", txt "Reserved");
  (0x124, (1, 0)%Z, txt "s", txt "Storage interval");
  (0x125, (60, 0)%Z, txt "s", txt "Storage interval");
  (0x126, (3600, 0)%Z, txt "s", txt "Storage interval");
  (0x127, (86400, 0)%Z, txt "s", txt "Storage interval");
  (0x128, (262974383, (-2))%Z, txt "s", txt "Storage interval");
  (0x129, (31556926, 0)%Z, txt "s", txt "Storage interval");
  (0x12A, (1, 0)%Z, txt "Reserved", txt "Reserved");
  (0x12B, (1, 0)%Z, txt "Reserved", txt "Reserved");
  (0x12C, (1, 0)%Z, txt "s", txt "Duration since last readout");
  (0x12D, (60, 0)%Z, txt "s", txt "Duration since last readout");
  (0x12E, (3600, 0)%Z, txt "s", txt "Duration since last readout");
  (0x12F, (86400, 0)%Z, txt "s", txt "Duration since last readout");
  (0x130, (1, 0)%Z, txt "Reserved", txt "Reserved");
  (0x131, (60, 0)%Z, txt "s", txt "Duration of tariff");
  (0x132, (3600, 0)%Z, txt "s", txt "Duration of tariff");
  (0x133, (86400, 0)%Z, txt "s", txt "Duration of tariff");
  (0x134, (1, 0)%Z, txt "s", txt "Period of tariff");
  (0x135, (60, 0)%Z, txt "s", txt "Period of tariff");
  (0x136, (3600, 0)%Z, txt "s", txt "Period of tariff");
  (0x137, (86400, 0)%Z, txt "s", txt "Period of tariff");
  (0x138, (262974383, (-2))%Z, txt "s", txt "Period of tariff");
  (0x139, (31556926, 0)%Z, txt "s", txt "Period of tariff");
  (0x13A, (1, 0)%Z, [], txt "Dimensionless");
  (0x13B, (1, 0)%Z, txt "Reserved", txt "Reserved");
  (0x13C, (1, 0)%Z, txt "Reserved", txt "Reserved");
  (0x13D, (1, 0)%Z, txt "Reserved", txt "Reserved");
  (0x13E, (1, 0)%Z, txt "Reserved", txt "Reserved");
  (0x13F, (1, 0)%Z, txt "Reserved", txt "Reserved");
  (0x140, (1, (-9))%Z, txt "V", txt "Voltage");
  (0x141, (1, (-8))%Z, txt "V", txt "Voltage");
  (0x142, (1, (-7))%Z, txt "V", txt "Voltage");
  (0x143, (1, (-6))%Z, txt "V", txt "Voltage");
  (0x144, (1, (-5))%Z, txt "V", txt "Voltage");
  (0x145, (1, (-4))%Z, txt "V", txt "Voltage");
  (0x146, (1, (-3))%Z, txt "V", txt "Voltage");
  (0x147, (1, (-2))%Z, txt "V", txt "Voltage");
  (0x148, (1, (-1))%Z, txt "V", txt "Voltage");
  (0x149, (1, 0)%Z, txt "V", txt "Voltage");
  (0x14A, (1, 1)%Z, txt "V", txt "Voltage");
  (0x14B, (1, 2)%Z, txt "V", txt "Voltage");
  (0x14C, (1, 3)%Z, txt "V", txt "Voltage");
  (0x14D, (1, 4)%Z, txt "V", txt "Voltage");
  (0x14E, (1, 5)%Z, txt "V", txt "Voltage");
  (0x14F, (1, 6)%Z, txt "V", txt "Voltage");
  (0x150, (1, (-12))%Z, txt "A", txt "Current");
  (0x151, (1, (-11))%Z, txt "A", txt "Current");
  (0x152, (1, (-10))%Z, txt "A", txt "Current");
  (0x153, (1, (-9))%Z, txt "A", txt "Current");
  (0x154, (1, (-8))%Z, txt "A", txt "Current");
  (0x155, (1, (-7))%Z, txt "A", txt "Current");
  (0x156, (1, (-6))%Z, txt "A", txt "Current");
  (0x157, (1, (-5))%Z, txt "A", txt "Current");
  (0x158, (1, (-4))%Z, txt "A", txt "Current");
  (0x159, (1, (-3))%Z, txt "A", txt "Current");
  (0x15A, (1, (-2))%Z, txt "A", txt "Current");
  (0x15B, (1, (-1))%Z, txt "A", txt "Current");
  (0x15C, (1, 0)%Z, txt "A", txt "Current");
  (0x15D, (1, 1)%Z, txt "A", txt "Current");
  (0x15E, (1, 2)%Z, txt "A", txt "Current");
  (0x15F, (1, 3)%Z, txt "A", txt "Current");
  (0x160, (1, 0)%Z, [], txt "Reset counter");
  (0x161, (1, 0)%Z, [], txt "Cumulation counter");
  (0x162, (1, 0)%Z, [], txt "Control signal");
  (0x163, (1, 0)%Z, [], txt "Day of week");
  (0x164, (1, 0)%Z, [], txt "Week number");
  (0x165, (1, 0)%Z, [], txt "Time point of day change");
  (0x166, (1, 0)%Z, [], txt "State of parameter activation");
  (0x167, (1, 0)%Z, [], txt "Special supplier information");
  (0x168, (3600, 0)%Z, txt "s", txt "Duration since last cumulation");
  (0x169, (86400, 0)%Z, txt "s", txt "Duration since last cumulation");
  (0x16A, (262974383, (-2))%Z, txt "s", txt "Duration since last cumulation");
  (0x16B, (31556926, 0)%Z, txt "s", txt "Duration since last cumulation");
  (0x16C, (3600, 0)%Z, txt "s", txt "Operating time battery");
  (0x16D, (86400, 0)%Z, txt "s", txt "Operating time battery");
  (0x16E, (262974383, (-2))%Z, txt "s", txt "Operating time battery");
  (0x16F, (31556926, 0)%Z, txt "s", txt "Operating time battery");
  (0x170, (1, 0)%Z, [], txt "Date and time of battery change");
  (0x171, (1, 0)%Z, txt "Reserved", txt "Reserved");
  (0x172, (1, 0)%Z, txt "Reserved", txt "Reserved");
  (0x173, (1, 0)%Z, txt "Reserved", txt "Reserved");
  (0x174, (1, 0)%Z, txt "Reserved", txt "Reserved");
  (0x175, (1, 0)%Z, txt "Reserved", txt "Reserved");
  (0x176, (1, 0)%Z, txt "Reserved", txt "Reserved");
  (0x177, (1, 0)%Z, txt "Reserved", txt "Reserved");
  (0x178, (1, 0)%Z, txt "Reserved", txt "Reserved");
  (0x179, (1, 0)%Z, txt "Reserved", txt "Reserved");
  (0x17A, (1, 0)%Z, txt "Reserved", txt "Reserved");
  (0x17B, (1, 0)%Z, txt "Reserved", txt "Reserved");
  (0x17C, (1, 0)%Z, txt "Reserved", txt "Reserved");
  (0x17D, (1, 0)%Z, txt "Reserved", txt "Reserved");
  (0x17E, (1, 0)%Z, txt "Reserved", txt "Reserved");
  (0x17F, (1, 0)%Z, txt "Reserved", txt "Reserved");
  (0x200, (1, 5)%Z, txt "Wh", txt "Energy");
  (0x201, (1, 6)%Z, txt "Wh", txt "Energy");
  (0x202, (1, 0)%Z, txt "Reserved", txt "Reserved");
  (0x203, (1, 0)%Z, txt "Reserved", txt "Reserved");
  (0x204, (1, 0)%Z, txt "Reserved", txt "Reserved");
  (0x205, (1, 0)%Z, txt "Reserved", txt "Reserved");
  (0x206, (1, 0)%Z, txt "Reserved", txt "Reserved");
  (0x207, (1, 0)%Z, txt "Reserved", txt "Reserved");
  (0x208, (1, 8)%Z, txt "Reserved", txt "Energy");
  (0x209, (1, 9)%Z, txt "Reserved", txt "Energy");
  (0x20A, (1, 0)%Z, txt "Reserved", txt "Reserved");
  (0x20B, (1, 0)%Z, txt "Reserved", txt "Reserved");
  (0x20C, (1, 0)%Z, txt "Reserved", txt "Reserved");
  (0x20D, (1, 0)%Z, txt "Reserved", txt "Reserved");
  (0x20E, (1, 0)%Z, txt "Reserved", txt "Reserved");
  (0x20F, (1, 0)%Z, txt "Reserved", txt "Reserved");
  (0x210, (1, 2)%Z, txt "m^3", txt "Volume");
  (0x211, (1, 3)%Z, txt "m^3", txt "Volume");
  (0x212, (1, 0)%Z, txt "Reserved", txt "Reserved");
  (0x213, (1, 0)%Z, txt "Reserved", txt "Reserved");
  (0x214, (1, 0)%Z, txt "Reserved", txt "Reserved");
  (0x215, (1, 0)%Z, txt "Reserved", txt "Reserved");
  (0x216, (1, 0)%Z, txt "Reserved", txt "Reserved");
  (0x217, (1, 0)%Z, txt "Reserved", txt "Reserved");
  (0x218, (1, 5)%Z, txt "kg", txt "Mass");
  (0x219, (1, 6)%Z, txt "kg", txt "Mass");
  (0x21A, (1, 0)%Z, txt "Reserved", txt "Reserved");
  (0x21B, (1, 0)%Z, txt "Reserved", txt "Reserved");
  (0x21C, (1, 0)%Z, txt "Reserved", txt "Reserved");
  (0x21D, (1, 0)%Z, txt "Reserved", txt "Reserved");
  (0x21E, (1, 0)%Z, txt "Reserved", txt "Reserved");
  (0x21F, (1, 0)%Z, txt "Reserved", txt "Reserved");
  (0x220, (1, 0)%Z, txt "Reserved", txt "Reserved");
  (0x221, (1, (-1))%Z, txt "feet^3", txt "Volume");
  (0x222, (1, (-1))%Z, txt "American gallon", txt "Volume");
  (0x223, (1, 0)%Z, txt "American gallon", txt "Volume");
  (0x224, (1, (-3))%Z, txt "American gallon/min", txt "Volume flow");
  (0x225, (1, 0)%Z, txt "American gallon/min", txt "Volume flow");
  (0x226, (1, 0)%Z, txt "American gallon/h", txt "Volume flow");
  (0x227, (1, 0)%Z, txt "Reserved", txt "Reserved");
  (0x228, (1, 5)%Z, txt "W", txt "Power");
  (0x229, (1, 6)%Z, txt "W", txt "Power");
  (0x22A, (1, 0)%Z, txt "Reserved", txt "Reserved");
  (0x22B, (1, 0)%Z, txt "Reserved", txt "Reserved");
  (0x22C, (1, 0)%Z, txt "Reserved", txt "Reserved");
  (0x22D, (1, 0)%Z, txt "Reserved", txt "Reserved");
  (0x22E, (1, 0)%Z, txt "Reserved", txt "Reserved");
  (0x22F, (1, 0)%Z, txt "Reserved", txt "Reserved");
  (0x230, (1, 8)%Z, txt "J", txt "Power");
  (0x231, (1, 9)%Z, txt "J", txt "Power");
  (0x232, (1, 0)%Z, txt "Reserved", txt "Reserved");
  (0x233, (1, 0)%Z, txt "Reserved", txt "Reserved");
  (0x234, (1, 0)%Z, txt "Reserved", txt "Reserved");
  (0x235, (1, 0)%Z, txt "Reserved", txt "Reserved");
  (0x236, (1, 0)%Z, txt "Reserved", txt "Reserved");
  (0x237, (1, 0)%Z, txt "Reserved", txt "Reserved");
  (0x238, (1, 0)%Z, txt "Reserved", txt "Reserved");
  (0x239, (1, 0)%Z, txt "Reserved", txt "Reserved");
  (0x23A, (1, 0)%Z, txt "Reserved", txt "Reserved");
  (0x23B, (1, 0)%Z, txt "Reserved", txt "Reserved");
  (0x23C, (1, 0)%Z, txt "Reserved", txt "Reserved");
  (0x23D, (1, 0)%Z, txt "Reserved", txt "Reserved");
  (0x23E, (1, 0)%Z, txt "Reserved", txt "Reserved");
  (0x23F, (1, 0)%Z, txt "Reserved", txt "Reserved");
  (0x240, (1, 0)%Z, txt "Reserved", txt "Reserved");
  (0x241, (1, 0)%Z, txt "Reserved", txt "Reserved");
  (0x242, (1, 0)%Z, txt "Reserved", txt "Reserved");
  (0x243, (1, 0)%Z, txt "Reserved", txt "Reserved");
  (0x244, (1, 0)%Z, txt "Reserved", txt "Reserved");
  (0x245, (1, 0)%Z, txt "Reserved", txt "Reserved");
  (0x246, (1, 0)%Z, txt "Reserved", txt "Reserved");
  (0x247, (1, 0)%Z, txt "Reserved", txt "Reserved");
  (0x248, (1, 0)%Z, txt "Reserved", txt "Reserved");
  (0x249, (1, 0)%Z, txt "Reserved", txt "Reserved");
  (0x24A, (1, 0)%Z, txt "Reserved", txt "Reserved");
  (0x24B, (1, 0)%Z, txt "Reserved", txt "Reserved");
  (0x24C, (1, 0)%Z, txt "Reserved", txt "Reserved");
  (0x24D, (1, 0)%Z, txt "Reserved", txt "Reserved");
  (0x24E, (1, 0)%Z, txt "Reserved", txt "Reserved");
  (0x24F, (1, 0)%Z, txt "Reserved", txt "Reserved");
  (0x250, (1, 0)%Z, txt "Reserved", txt "Reserved");
  (0x251, (1, 0)%Z, txt "Reserved", txt "Reserved");
  (0x252, (1, 0)%Z, txt "Reserved", txt "Reserved");
  (0x253, (1, 0)%Z, txt "Reserved", txt "Reserved");
  (0x254, (1, 0)%Z, txt "Reserved", txt "Reserved");
  (0x255, (1, 0)%Z, txt "Reserved", txt "Reserved");
  (0x256, (1, 0)%Z, txt "Reserved", txt "Reserved");
  (0x257, (1, 0)%Z, txt "Reserved", txt "Reserved");
  (0x258, (1, (-3))%Z, [0xB0] ++ txt "F", txt "Flow temperature");
  (0x259, (1, (-2))%Z, [0xB0] ++ txt "F", txt "Flow temperature");
  (0x25A, (1, (-1))%Z, [0xB0] ++ txt "F", txt "Flow temperature");
  (0x25B, (1, 0)%Z, [0xB0] ++ txt "F", txt "Flow temperature");
  (0x25C, (1, (-3))%Z, [0xB0] ++ txt "F", txt "Return temperature");
  (0x25D, (1, (-2))%Z, [0xB0] ++ txt "F", txt "Return temperature");
  (0x25E, (1, (-1))%Z, [0xB0] ++ txt "F", txt "Return temperature");
  (0x25F, (1, 0)%Z, [0xB0] ++ txt "F", txt "Return temperature");
  (0x260, (1, (-3))%Z, [0xB0] ++ txt "F", txt "Temperature difference");
  (0x261, (1, (-2))%Z, [0xB0] ++ txt "F", txt "Temperature difference");
  (0x262, (1, (-1))%Z, [0xB0] ++ txt "F", txt "Temperature difference");
  (0x263, (1, 0)%Z, [0xB0] ++ txt "F", txt "Temperature difference");
  (0x264, (1, (-3))%Z, [0xB0] ++ txt "F", txt "External temperature");
  (0x265, (1, (-2))%Z, [0xB0] ++ txt "F", txt "External temperature");
  (0x266, (1, (-1))%Z, [0xB0] ++ txt "F", txt "External temperature");
  (0x267, (1, 0)%Z, [0xB0] ++ txt "F", txt "External temperature");
  (0x268, (1, 0)%Z, txt "Reserved", txt "Reserved");
  (0x269, (1, 0)%Z, txt "Reserved", txt "Reserved");
  (0x26A, (1, 0)%Z, txt "Reserved", txt "Reserved");
  (0x26B, (1, 0)%Z, txt "Reserved", txt "Reserved");
  (0x26C, (1, 0)%Z, txt "Reserved", txt "Reserved");
  (0x26D, (1, 0)%Z, txt "Reserved", txt "Reserved");
  (0x26E, (1, 0)%Z, txt "Reserved", txt "Reserved");
  (0x26F, (1, 0)%Z, txt "Reserved", txt "Reserved");
  (0x270, (1, (-3))%Z, [0xB0] ++ txt "F", txt "Cold / Warm Temperature Limit");
  (0x271, (1, (-2))%Z, [0xB0] ++ txt "F", txt "Cold / Warm Temperature Limit");
  (0x272, (1, (-1))%Z, [0xB0] ++ txt "F", txt "Cold / Warm Temperature Limit");
  (0x273, (1, 0)%Z, [0xB0] ++ txt "F", txt "Cold / Warm Temperature Limit");
  (0x274, (1, (-3))%Z, [0xB0] ++ txt "C", txt "Cold / Warm Temperature Limit");
  (0x275, (1, (-2))%Z, [0xB0] ++ txt "C", txt "Cold / Warm Temperature Limit");
  (0x276, (1, (-1))%Z, [0xB0] ++ txt "C", txt "Cold / Warm Temperature Limit");
  (0x277, (1, 0)%Z, [0xB0] ++ txt "C", txt "Cold / Warm Temperature Limit");
  (0x278, (1, (-3))%Z, txt "W", txt "Cumul count max power");
  (0x279, (1, (-3))%Z, txt "W", txt "Cumul count max power");
  (0x27A, (1, (-1))%Z, txt "W", txt "Cumul count max power");
  (0x27B, (1, 0)%Z, txt "W", txt "Cumul count max power");
  (0x27C, (1, 1)%Z, txt "W", txt "Cumul count max power");
  (0x27D, (1, 2)%Z, txt "W", txt "Cumul count max power");
  (0x27E, (1, 3)%Z, txt "W", txt "Cumul count max power");
  (0x27F, (1, 4)%Z, txt "W", txt "Cumul count max power")
].

(** rscada_xml.rs:750-762, [vif_unit_normalize] *)
Definition vif_unit_normalize (code : N) (value : f64) : option (text * f64 * text) :=
  let code := N.land code 0xF7F in
  match find (fun entry => let '(vif, _, _, _) := entry in vif =? code) vif_table with
  | Some (_, (m, e), unit, quantity) => Some (unit, f64_mul value (f64_literal m e), quantity)
  | None => None
  end.

(** rscada_xml.rs:707-748, [vib_unit_normalize]; [powi n] is [10f64.powi(n)], whose last bits
    Rust leaves to the platform *)
Definition vib_unit_normalize (powi : Z -> f64) (vif : N) (vifes : list N) (custom_vif : option text) (value : f64)
  : option (text * f64 * text) :=
  match
    (if vif =? 0xFD then
       match vifes with
       | [] => None
       | vife :: _ => vif_unit_normalize (N.lor (N.land vife 0x7F) 0x100) value
       end
     else if vif =? 0xFB then
       match vifes with
       | [] => None
       | vife :: _ => vif_unit_normalize (N.lor (N.land vife 0x7F) 0x200) value
       end
     else if (vif =? 0x7C) || (vif =? 0xFC) then
       Some (txt "-", value, match custom_vif with Some c => c | None => [] end)
     else vif_unit_normalize (N.land vif 0x7F) value)
  with
  | None => None
  | Some (unit, normalized, quantity) =>
      let normalized :=
        if negb (N.land vif 0x80 =? 0) && negb (vif =? 0xFD) && negb (vif =? 0xFB) then
          match vifes with
          | [] => normalized
          | vife :: _ =>
              let v := N.land vife 0x7F in
              if (0x70 <=? v) && (v <=? 0x77) then
                f64_mul normalized (powi (Z.of_N (N.land vife 0x07) - 6)%Z)
              else if (0x78 <=? v) && (v <=? 0x7B) then
                f64_add normalized (powi (Z.of_N (N.land vife 0x03) - 3)%Z)
              else if v =? 0x7D then f64_mul normalized (f64_of_Z 1000)
              else normalized
          end
        else normalized in
      Some (unit, normalized, quantity)
  end.

(** rscada_xml.rs:373-376 *)
Inductive decoded_value :=
| DReal (x : f64)
| DStr (s : text).

(** rscada_xml.rs:378-386 *)
Record normalized_record := {
  nr_function : text;
  nr_storage_number : N;
  nr_tariff : option N;
  nr_device : N;
  nr_unit : text;
  nr_quantity : text;
  nr_value : decoded_value
}.

(** rscada_xml.rs:505-513, [function_string] *)
Definition function_string (dif : N) : text :=
  let f := N.land dif 0x30 in
  if f =? 0x00 then txt "Instantaneous value"
  else if f =? 0x10 then txt "Maximum value"
  else if f =? 0x20 then txt "Minimum value"
  else if f =? 0x30 then txt "Value during error state"
  else txt "unknown".

(** rscada_xml.rs:517-522, the loop of [storage_number]; a record has at most 11 extensions,
    so that the shifts stay within u64 *)
Fixpoint storage_loop (difes : list N) (bit_index result : N) : N :=
  match difes with
  | [] => result
  | dife :: rest => storage_loop rest (bit_index + 4) (N.lor result (N.shiftl (N.land dife 0x0F) bit_index))
  end.
(** rscada_xml.rs:515-523, [storage_number] *)
Definition xml_storage_number (dif : N) (difes : list N) : N :=
  storage_loop difes 1 (N.shiftr (N.land dif 0x40) 6).

(** rscada_xml.rs:528-531, the loop of [tariff] *)
Fixpoint tariff_loop (difes : list N) (bit_index result : N) : N :=
  match difes with
  | [] => result
  | dife :: rest => tariff_loop rest (bit_index + 2) (N.lor result (N.shiftl (N.shiftr (N.land dife 0x30) 4) bit_index))
  end.
(** rscada_xml.rs:525-533, [tariff] *)
Definition xml_tariff (difes : list N) : N := tariff_loop difes 0 0.

(** rscada_xml.rs:537-539, the loop of [device] *)
Fixpoint device_loop (difes : list N) (bit_index result : N) : N :=
  match difes with
  | [] => result
  | dife :: rest => device_loop rest (bit_index + 1) (N.lor result (N.shiftl (N.shiftr (N.land dife 0x40) 6) bit_index))
  end.
(** rscada_xml.rs:535-541, [device] *)
Definition xml_device (difes : list N) : N := device_loop difes 0 0.

(** two's complement wrap of an i64 *)
Definition wrap_i64 (z : Z) : Z := ((z + 2 ^ 63) mod 2 ^ 64 - 2 ^ 63)%Z.

(** rscada_xml.rs:614-625, [int_decode].  Its callers pass at most 8 bytes, for which the
    negation cannot overflow. *)
Definition int_decode (data : list N) : f64 :=
  let neg := match last_opt data with Some b => negb (N.land b 0x80 =? 0) | None => false end in
  let value := fold_left (fun value byte =>
    let byte := if neg then N.lxor byte 0xFF else byte in
    wrap_i64 (wrap_i64 (value * 256) + Z.of_N byte)) (rev data) 0%Z in
  f64_of_Z (if neg then (- value - 1)%Z else value).

(** rscada_xml.rs:629-642, [bcd_decode].  Its callers pass at most 6 bytes, for which i64 does
    not overflow. *)
Definition bcd_decode (data : list N) : f64 :=
  let value := fold_left (fun value byte =>
    let value := (value * 10)%Z in
    let value := if N.shiftr byte 4 <? 0xA then (value + Z.of_N (N.shiftr byte 4))%Z else value in
    (value * 10 + Z.of_N (N.land byte 0x0F))%Z) (rev data) 0%Z in
  f64_of_Z (match last_opt data with
            | Some b => if N.shiftr b 4 =? 0xF then (- value)%Z else value
            | None => value
            end).

(** [String::from_utf8_lossy]: what is not well-formed UTF-8 becomes U+FFFD, one for each
    maximal part that starts a character (standard library, no function of /repo) *)
Fixpoint from_utf8_lossy (data : list N) : text :=
  match data with
  | [] => []
  | a :: rest1 =>
      let two := (0xC2 <=? a) && (a <=? 0xDF) in
      let three := (0xE0 <=? a) && (a <=? 0xEF) in
      let four := (0xF0 <=? a) && (a <=? 0xF4) in
      if a <? 0x80 then a :: from_utf8_lossy rest1
      else if negb (two || three || four) then 0xFFFD :: from_utf8_lossy rest1
      else match rest1 with
      | [] => [0xFFFD]
      | b :: rest2 =>
          if negb (continuation b && (negb (a =? 0xE0) || (0xA0 <=? b)) && (negb (a =? 0xED) || (b <=? 0x9F))
                   && (negb (a =? 0xF0) || (0x90 <=? b)) && (negb (a =? 0xF4) || (b <=? 0x8F)))
          then 0xFFFD :: from_utf8_lossy rest1
          else if two then ((a - 0xC0) * 64 + (b - 0x80)) :: from_utf8_lossy rest2
          else match rest2 with
          | [] => [0xFFFD]
          | c :: rest3 =>
              if negb (continuation c) then 0xFFFD :: from_utf8_lossy rest2
              else if three then ((a - 0xE0) * 4096 + (b - 0x80) * 64 + (c - 0x80)) :: from_utf8_lossy rest3
              else match rest3 with
              | [] => [0xFFFD]
              | d :: rest4 =>
                  if negb (continuation d) then 0xFFFD :: from_utf8_lossy rest3
                  else ((a - 0xF0) * 262144 + (b - 0x80) * 4096 + (c - 0x80) * 64 + (d - 0x80)) :: from_utf8_lossy rest4
              end
          end
      end
  end.

(** rscada_xml.rs:645-648, [str_decode] *)
Definition str_decode (data : list N) : text := from_utf8_lossy (rev data).

(** rscada_xml.rs:654-660, [bin_decode] *)
Definition bin_decode (data : list N) : text := join [32] (map hex2 data).

(** rscada_xml.rs:667, 681, 698: year of the two bytes that hold day, month and year *)
Definition xml_year (d m : N) : N := 2000 + N.lor (N.shiftr (N.land d 0xE0) 5) (N.shiftr (N.land m 0xF0) 1).

(** rscada_xml.rs:664-669, [date_g_decode] *)
Definition date_g_decode (b0 b1 : N) : text :=
  dec_pad 4 (xml_year b0 b1) ++ txt "-" ++ dec_pad 2 (N.land b1 0x0F) ++ txt "-" ++ dec_pad 2 (N.land b0 0x1F).

(** rscada_xml.rs:672-688, [date_f_decode] *)
Definition date_f_decode (b0 b1 b2 b3 : N) : text :=
  if negb (N.land b0 0x80 =? 0) then txt "1900-01-00T00:00:00Z" else
  dec_pad 4 (xml_year b2 b3) ++ txt "-" ++ dec_pad 2 (N.land b3 0x0F) ++ txt "-" ++ dec_pad 2 (N.land b2 0x1F)
    ++ txt "T" ++ dec_pad 2 (N.land b1 0x1F) ++ txt ":" ++ dec_pad 2 (N.land b0 0x3F) ++ txt ":00Z".

(** rscada_xml.rs:691-705, [date_i_decode]; the sixth byte is not used *)
Definition date_i_decode (b0 b1 b2 b3 b4 : N) : text :=
  if negb (N.land b1 0x80 =? 0) then txt "1900-01-00T00:00:00Z" else
  dec_pad 4 (xml_year b3 b4) ++ txt "-" ++ dec_pad 2 (N.land b4 0x0F) ++ txt "-" ++ dec_pad 2 (N.land b3 0x1F)
    ++ txt "T" ++ dec_pad 2 (N.land b2 0x1F) ++ txt ":" ++ dec_pad 2 (N.land b1 0x3F) ++ txt ":"
    ++ dec_pad 2 (N.land b0 0x3F) ++ txt "Z".

(** rscada_xml.rs:543-611, [variable_value_decode]; [None] is [Err] *)
Definition variable_value_decode (dif vif_raw : N) (vife0 : option N) (data : list N) : option decoded_value :=
  let vif := N.land vif_raw 0x7F in
  let vife := match vife0 with Some v => N.land v 0x7F | None => 0 end in
  let has_vife := match vife0 with Some _ => true | None => false end in
  let is_datetime := (vif =? 0x6D)
                     || ((vif_raw =? 0xFD) && has_vife && (vife =? 0x30))
                     || ((vif_raw =? 0xFD) && has_vife && (vife =? 0x70)) in
  let real (n : N) (decode : list N -> f64) :=
    match get_to data n with Some b => Some (DReal (decode b)) | None => None end in
  let field := N.land dif 0x0F in
  if field =? 0x00 then Some (DStr [])
  else if field =? 0x01 then real 1 int_decode
  else if field =? 0x02 then
    (if vif =? 0x6C then
       match get_to data 2 with Some [b0; b1] => Some (DStr (date_g_decode b0 b1)) | _ => None end
     else real 2 int_decode)
  else if field =? 0x03 then real 3 int_decode
  else if field =? 0x04 then
    (if is_datetime then
       match get_to data 4 with Some [b0; b1; b2; b3] => Some (DStr (date_f_decode b0 b1 b2 b3)) | _ => None end
     else real 4 int_decode)
  else if field =? 0x05 then
    match get_to data 4 with
    | Some [b0; b1; b2; b3] => Some (DReal (f64_of_f32_bits (b0 + 256 * b1 + 65536 * b2 + 16777216 * b3)))
    | _ => None
    end
  else if field =? 0x06 then
    (if is_datetime then
       match get_to data 6 with
       | Some [b0; b1; b2; b3; b4; _] => Some (DStr (date_i_decode b0 b1 b2 b3 b4))
       | _ => None
       end
     else real 6 int_decode)
  else if field =? 0x07 then real 8 int_decode
  else if field =? 0x09 then real 1 bcd_decode
  else if field =? 0x0A then real 2 bcd_decode
  else if field =? 0x0B then real 3 bcd_decode
  else if field =? 0x0C then real 4 bcd_decode
  else if field =? 0x0D then
    match data with
    | [] => None
    | lvar :: tail => Some (DStr (if lvar <=? 0xBF then str_decode tail else bin_decode tail))
    end
  else if field =? 0x0E then real 6 bcd_decode
  else if field =? 0x0F then Some (DStr (bin_decode data))
  else None.

(** rscada_xml.rs:424-503, [normalize_record] *)
Definition normalize_record (powi : Z -> f64) (record : data_record) : option normalized_record :=
  let raw := drh_raw (dr_header record) in
  let dif := dib_dif (rh_dib raw) in
  let difes := match dib_difes (rh_dib raw) with Some l => l | None => [] end in
  let data := match get_from (dr_raw_bytes record) (header_get_size (dr_header record)) with Some d => d | None => [] end in
  let storage_number := xml_storage_number dif difes in
  let tariff := match difes with [] => None | _ => Some (xml_tariff difes) end in
  let device := xml_device difes in
  if (dif =? 0x0F) || (dif =? 0x1F) then
    Some {| nr_function := if dif =? 0x1F then txt "More records follow" else txt "Manufacturer specific";
            nr_storage_number := storage_number; nr_tariff := tariff; nr_device := device;
            nr_unit := []; nr_quantity := []; nr_value := DStr (bin_decode data) |}
  else
    match rh_vib raw with
    | None => None
    | Some vib =>
        let vif := vib_vif vib in
        let vifes := match vib_vifes vib with Some l => l | None => [] end in
        let custom_vif := match vib_plaintext vib with Some chars => Some (rev chars) | None => None end in
        match variable_value_decode dif vif (hd_error vifes) data with
        | None => None
        | Some value =>
            let parts :=
              match value with
              | DReal x =>
                  match vib_unit_normalize powi vif vifes custom_vif x with
                  | Some (unit, scaled, quantity) => Some (unit, quantity, DReal scaled)
                  | None => None
                  end
              | DStr text =>
                  match vib_unit_normalize powi vif vifes custom_vif (S754_zero false) with
                  | Some (unit, _, quantity) => Some (unit, quantity, DStr text)
                  | None => None
                  end
              end in
            match parts with
            | Some (unit, quantity, v) =>
                Some {| nr_function := function_string dif;
                        nr_storage_number := storage_number; nr_tariff := tariff; nr_device := device;
                        nr_unit := unit; nr_quantity := quantity; nr_value := v |}
            | None => None
            end
        end
    end.

(** [format!("{x:.6}")] of an f64: rounded to six digits after the point, ties to even
    (standard library, no function of /repo) *)
Definition show_f64_6 (x : f64) : text :=
  let sign (s : bool) := if s then [45] else [] in
  match x with
  | S754_zero s => sign s ++ txt "0.000000"
  | S754_infinity s => sign s ++ txt "inf"
  | S754_nan => txt "NaN"
  | S754_finite s m e =>
      let scaled := N.pos m * 1000000 in
      let n :=
        if (0 <=? e)%Z then scaled * 2 ^ Z.to_N e
        else
          let d := 2 ^ Z.to_N (- e) in
          let q := scaled / d in
          let r := scaled mod d in
          if 2 * r <? d then q
          else if d <? 2 * r then q + 1
          else if N.even q then q else q + 1 in
      sign s ++ dec (n / 1000000) ++ txt "." ++ dec_pad 6 (n mod 1000000)
  end.

(** an element on a line of its own, indented by eight spaces: the formats of
    rscada_xml.rs:252-291, 332-369, 391-417 and 779-809 *)
Definition field (name value : text) : text :=
  line (txt "        <" ++ name ++ txt ">" ++ value ++ txt "</" ++ name ++ txt ">").

(** rscada_xml.rs:388-422, [render_variable_record] *)
Definition render_variable_record (powi : Z -> f64) (index : N) (record : data_record) : text :=
  line (txt "    <DataRecord id=""" ++ dec index ++ txt """>")
  ++ match normalize_record powi record with
     | None => []
     | Some n =>
         field (txt "Function") (xml_encode (nr_function n))
         ++ field (txt "StorageNumber") (dec (nr_storage_number n))
         ++ match nr_tariff n with
            | Some tariff => field (txt "Tariff") (dec tariff) ++ field (txt "Device") (dec (nr_device n))
            | None => []
            end
         ++ field (txt "Unit") (xml_encode (nr_unit n))
         ++ field (txt "Quantity") (xml_encode (nr_quantity n))
         ++ match nr_value n with
            | DReal value => field (txt "Value") (show_f64_6 value)
            | DStr value => field (txt "Value") (xml_encode value)
            end
     end
  ++ line (txt "    </DataRecord>") ++ [10].

(** rscada_xml.rs:297-301 and 316-320: the loop over [records.clone().flatten().enumerate()],
    which leaves out the records that cannot be read *)
Fixpoint render_items (powi : Z -> f64) (index : N) (items : list (outcome data_record_error data_record)) : outcome unit text :=
  match items with
  | [] => Ok []
  | Ok record :: rest =>
      out <- render_items powi (index + 1) rest ;;
      Ok (render_variable_record powi index record ++ out)
  | Err _ :: rest => render_items powi index rest
  | Panic p :: _ => Panic p
  end.

(** what the conversion to XML fails with: the texts of rscada_xml.rs are named; [XFuel] is
    the model running out of fuel, which never happens *)
Inductive xml_error :=
| XUnsupportedWired
| XNotAFrame (e : mbus_error)
| XNoUserData
| XDecryption (e : decryption_error)
| XPayloadLength
| XFuel.

(** rscada_xml.rs:296-301 and 315-320: the records, if there are any *)
Definition render_records (cf : config) (powi : Z -> f64) (records : option data_records) : outcome xml_error text :=
  match records with
  | None => Ok []
  | Some rs =>
      match collect cf (S (length (rs_data rs))) rs with
      | None => Err XFuel
      | Some items => map_err (fun _ => XFuel) (render_items powi 0 items)
      end
  end.

(** rscada_xml.rs:905-949, [medium_lookup] *)
Definition medium_lookup (medium : N) : text :=
  if (medium =? 0x00) then txt "Other"
  else if (medium =? 0x01) then txt "Oil"
  else if (medium =? 0x02) then txt "Electricity"
  else if (medium =? 0x03) then txt "Gas"
  else if (medium =? 0x04) then txt "Heat: Outlet"
  else if (medium =? 0x05) then txt "Steam"
  else if (medium =? 0x06) then txt "Warm water (30-90" ++ [0xB0] ++ txt "C)"
  else if (medium =? 0x07) then txt "Water"
  else if (medium =? 0x08) then txt "Heat Cost Allocator"
  else if (medium =? 0x09) then txt "Compressed Air"
  else if (medium =? 0x0A) then txt "Cooling load meter: Outlet"
  else if (medium =? 0x0B) then txt "Cooling load meter: Inlet"
  else if (medium =? 0x0C) then txt "Heat: Inlet"
  else if (medium =? 0x0D) then txt "Heat / Cooling load meter"
  else if (medium =? 0x0E) then txt "Bus/System"
  else if (medium =? 0x0F) then txt "Unknown Medium"
  else if (medium =? 0x10) then txt "Irrigation Water"
  else if (medium =? 0x11) then txt "Water Logger"
  else if (medium =? 0x12) then txt "Gas Logger"
  else if (medium =? 0x13) then txt "Gas Converter"
  else if (medium =? 0x14) then txt "Calorific value"
  else if (medium =? 0x15) then txt "Hot water (>90" ++ [0xB0] ++ txt "C)"
  else if (medium =? 0x16) then txt "Cold water"
  else if (medium =? 0x17) then txt "Dual water"
  else if (medium =? 0x18) then txt "Pressure"
  else if (medium =? 0x19) then txt "A/D Converter"
  else if (medium =? 0x1A) then txt "Smoke Detector"
  else if (medium =? 0x1B) then txt "Ambient Sensor"
  else if (medium =? 0x1C) then txt "Gas Detector"
  else if (medium =? 0x20) then txt "Breaker: Electricity"
  else if (medium =? 0x21) then txt "Valve: Gas or Water"
  else if (medium =? 0x25) then txt "Customer Unit: Display Device"
  else if (medium =? 0x28) then txt "Waste Water"
  else if (medium =? 0x29) then txt "Garbage"
  else if (medium =? 0x30) then txt "Service Unit"
  else if (medium =? 0x36) then txt "Radio Converter: System"
  else if (medium =? 0x37) then txt "Radio Converter: Meter"
  else if ((0x22 <=? medium) && (medium <=? 0x24)) || (medium =? 0x26) || (medium =? 0x27)
          || ((0x2A <=? medium) && (medium <=? 0x2F)) || ((0x31 <=? medium) && (medium <=? 0x34))
          || ((0x38 <=? medium) && (medium <=? 0x3F)) then txt "Reserved"
  else txt "Unknown medium (0x" ++ to_ascii_lowercase (hex2 medium) ++ txt ")".

(** rscada_xml.rs:951-1127, [product_name] *)
Definition product_name (manufacturer : text) (version medium id : N) : text :=
  let id_msb := N.lor (N.shiftl ((id / 10000000) mod 10) 4) ((id / 1000000) mod 10) in
  let is (s : text) := text_eqb manufacturer s in
  if is (txt "ABB") then
    if (version =? 0x02) then txt "ABB Delta-Meter"
    else if (version =? 0x20) then txt "ABB B21 113-100" else []
  else
  if is (txt "ACW") then
    if (version =? 0x09) then txt "Itron CF Echo 2"
    else if (version =? 0x0A) then txt "Itron CF 51"
    else if (version =? 0x0B) then txt "Itron CF 55"
    else if (version =? 0x0E) then txt "Itron BM +m"
    else if (version =? 0x0F) then txt "Itron CF 800"
    else if (version =? 0x14) then txt "Itron CYBLE M-Bus 1.4" else []
  else
  if is (txt "AMT") then
    if 0xC0 <=? version then txt "Aquametro CALEC ST" else if 0x80 <=? version then txt "Aquametro CALEC MB"
    else if 0x40 <=? version then txt "Aquametro SAPHIR" else txt "Aquametro AMTRON"
  else
  if is (txt "BEC") then
    if (medium =? 0x02) && (version =? 0x00) then txt "Berg DCMi"
    else if (medium =? 0x02) && (version =? 0x07) then txt "Berg BLMi"
    else if (medium =? 0x0F) && (version =? 0x71) then txt "Berg BMB-10S0" else []
  else
  if is (txt "EFE") then
    if version =? 0 then (if medium =? 6 then txt "Engelmann WaterStar" else txt "Engelmann / Elster SensoStar 2")
    else if version =? 1 then txt "Engelmann SensoStar 2C" else []
  else
  if is (txt "ELS") then
    if (version =? 0x02) then txt "Elster TMP-A"
    else if (version =? 0x0A) then txt "Elster Falcon"
    else if (version =? 0x2F) then txt "Elster F96 Plus" else []
  else
  if is (txt "ELV") then
    if ((0x14 <=? version) && (version <=? 0x1D)) then txt "Elvaco CMa10"
    else if ((0x32 <=? version) && (version <=? 0x3B)) then txt "Elvaco CMa11" else []
  else
  if is (txt "EMH") then
    if (version =? 0x00) then txt "EMH DIZ" else []
  else
  if is (txt "EMU") then
    if (medium =? 0x02) && (version =? 0x10) then txt "EMU Professional 3/75 M-Bus" else []
  else
  if is (txt "GAV") then
    if (medium =? 0x02) && ((0x2D <=? version) && (version <=? 0x30)) then txt "Carlo Gavazzi EM24"
    else if (medium =? 0x02) && ((version =? 0x39) || (version =? 0x3A)) then txt "Carlo Gavazzi EM21"
    else if (medium =? 0x02) && (version =? 0x40) then txt "Carlo Gavazzi EM33" else []
  else
  if is (txt "GMC") then
    if (version =? 0xE6) then txt "GMC-I A230 EMMOD 206" else []
  else
  if is (txt "KAM") then
    if (version =? 0x01) then txt "Kamstrup 382 (6850-005)"
    else if (version =? 0x08) then txt "Kamstrup Multical 601" else []
  else
  if is (txt "SLB") then
    if (version =? 0x02) then txt "Allmess Megacontrol CF-50"
    else if (version =? 0x06) then txt "CF Compact / Integral MK MaXX" else []
  else
  if is (txt "HYD") then
    if (version =? 0x28) then txt "ABB F95 Typ US770"
    else if (version =? 0x2F) then txt "Hydrometer Sharky 775" else []
  else
  if is (txt "JAN") then
    if (medium =? 0x02) && (version =? 0x09) then txt "Janitza UMG 96S" else []
  else
  if is (txt "LUG") then
    if (version =? 0x02) then txt "Landis & Gyr Ultraheat 2WR5"
    else if (version =? 0x03) then txt "Landis & Gyr Ultraheat 2WR6"
    else if (version =? 0x04) then txt "Landis & Gyr Ultraheat UH50"
    else if (version =? 0x07) then txt "Landis & Gyr Ultraheat T230" else []
  else
  if is (txt "LSE") then
    if (version =? 0x99) then txt "Siemens WFH21" else []
  else
  if is (txt "NZR") then
    if (version =? 0x01) then txt "NZR DHZ 5/63"
    else if (version =? 0x50) then txt "NZR IC-M2" else []
  else
  if is (txt "RAM") then
    if (version =? 0x03) then txt "Rossweiner ETK/ETW Modularis" else []
  else
  if is (txt "REL") then
    if (version =? 0x08) then txt "Relay PadPuls M1"
    else if (version =? 0x12) then txt "Relay PadPuls M4"
    else if (version =? 0x20) then txt "Relay Padin 4"
    else if (version =? 0x30) then txt "Relay AnDi 4"
    else if (version =? 0x40) then txt "Relay PadPuls M2" else []
  else
  if is (txt "RKE") then
    if (version =? 0x69) then txt "Ista sensonic II mbus" else []
  else
  if is (txt "SBC") then
    if ((id_msb =? 0x10) || (id_msb =? 0x19)) then txt "Saia-Burgess ALE3"
    else if (id_msb =? 0x11) then txt "Saia-Burgess AWD3" else []
  else
  if is (txt "SEO") || is (txt "GTE") then
    if (id_msb =? 0x30) then txt "Sensoco PT100"
    else if (id_msb =? 0x41) then txt "Sensoco 2-NTC"
    else if (id_msb =? 0x45) then txt "Sensoco Laser Light"
    else if (id_msb =? 0x48) then txt "Sensoco ADIO"
    else if ((id_msb =? 0x51) || (id_msb =? 0x61)) then txt "Sensoco THU"
    else if (id_msb =? 0x80) then txt "Sensoco PulseCounter for E-Meter" else []
  else
  if is (txt "SEN") then
    if ((version =? 0x08) || (version =? 0x19)) then txt "Sensus PolluCom E"
    else if (version =? 0x0B) then txt "Sensus PolluTherm"
    else if (version =? 0x0E) then txt "Sensus PolluStat E" else []
  else
  if is (txt "SON") then
    if (version =? 0x0D) then txt "Sontex Supercal 531" else []
  else
  if is (txt "SPX") then
    if ((version =? 0x31) || (version =? 0x34)) then txt "Sensus PolluTherm" else []
  else
  if is (txt "SVM") then
    if (version =? 0x08) then txt "Elster F2 / Deltamess F2"
    else if (version =? 0x09) then txt "Elster F4 / Kamstrup SVM F22" else []
  else
  if is (txt "TCH") then
    if (version =? 0x26) then txt "Techem m-bus S"
    else if (version =? 0x40) then txt "Techem ultra S3" else []
  else
  if is (txt "WZG") then
    if (version =? 0x03) then txt "Modularis ETW-EAX" else []
  else
  if is (txt "ZRM") then
    if (version =? 0x81) then txt "Minol Minocal C2"
    else if (version =? 0x82) then txt "Minol Minocal WR3" else []
  else [].

(** rscada_xml.rs:324-371, [render_variable_header] *)
Definition render_variable_header (h : long_tpl_header) : text :=
  let manufacturer := match lh_manufacturer h with Ok code => show_manufacturer code | _ => [] end in
  let medium := device_type_to_u8 (lh_device_type h) in
  let short := lh_short_tpl_header h in
  line (txt "    <SlaveInformation>")
  ++ field (txt "Id") (dec (lh_identification_number h))
  ++ field (txt "Manufacturer") manufacturer
  ++ field (txt "Version") (dec (lh_version h))
  ++ field (txt "ProductName") (xml_encode (product_name manufacturer (lh_version h) medium (lh_identification_number h)))
  ++ field (txt "Medium") (xml_encode (medium_lookup medium))
  ++ field (txt "AccessNumber") (dec (sh_access_number short))
  ++ field (txt "Status") (hex2 (sh_status short))
  ++ field (txt "Signature") (hex2 (sh_configuration_field short / 256) ++ hex2 (sh_configuration_field short mod 256))
  ++ line (txt "    </SlaveInformation>") ++ [10].

(** rscada_xml.rs:305-322, [render_variable] *)
Definition render_variable (cf : config) (powi : Z -> f64) (h : long_tpl_header) (records : option data_records)
  : outcome xml_error text :=
  body <- render_records cf powi records ;;
  Ok (xml_processing_instruction ++ line (txt "<MBusData>") ++ [10]
      ++ render_variable_header h ++ body ++ line (txt "</MBusData>")).

(** rscada_xml.rs:241-303, [render_wireless_variable] *)
Definition render_wireless_variable (cf : config) (powi : Z -> f64) (id : manufacturer_id)
  (access status signature : option N) (records : option data_records) : outcome xml_error text :=
  let manufacturer := show_manufacturer (mi_manufacturer_code id) in
  let medium := device_type_to_u8 (mi_device_type id) in
  let opt (o : option N) (f : N -> text) := match o with Some x => f x | None => [] end in
  body <- render_records cf powi records ;;
  Ok (xml_processing_instruction ++ line (txt "<MBusData>") ++ [10]
      ++ line (txt "    <SlaveInformation>")
      ++ field (txt "Id") (dec (mi_identification_number id))
      ++ field (txt "Manufacturer") manufacturer
      ++ field (txt "Version") (dec (mi_version id))
      ++ field (txt "ProductName") (xml_encode (product_name manufacturer (mi_version id) medium (mi_identification_number id)))
      ++ field (txt "Medium") (xml_encode (medium_lookup medium))
      ++ opt access (fun a => field (txt "AccessNumber") (dec a))
      ++ opt status (fun s => field (txt "Status") (hex2 s))
      ++ opt signature (fun s => field (txt "Signature") (hex2 (s / 256) ++ hex2 (s mod 256)))
      ++ line (txt "    </SlaveInformation>") ++ [10]
      ++ body ++ line (txt "</MBusData>")).

(** rscada_xml.rs:817-836, [fixed_medium] *)
Definition fixed_medium (cnt1_type cnt2_type : N) : text :=
  let code := N.lor (N.shiftr (N.land cnt1_type 0xC0) 6) (N.shiftr (N.land cnt2_type 0xC0) 4) in
  if (code =? 0x00) then txt "Other"
  else if (code =? 0x01) then txt "Oil"
  else if (code =? 0x02) then txt "Electricity"
  else if (code =? 0x03) then txt "Gas"
  else if (code =? 0x04) then txt "Heat"
  else if (code =? 0x05) then txt "Steam"
  else if (code =? 0x06) then txt "Hot Water"
  else if (code =? 0x07) then txt "Water"
  else if (code =? 0x08) then txt "H.C.A."
  else if ((code =? 0x09) || (code =? 0x0F)) then txt "Reserved"
  else if (code =? 0x0A) then txt "Gas Mode 2"
  else if (code =? 0x0B) then txt "Heat Mode 2"
  else if (code =? 0x0C) then txt "Hot Water Mode 2"
  else if (code =? 0x0D) then txt "Water Mode 2"
  else if (code =? 0x0E) then txt "H.C.A. Mode 2"
  else txt "unknown".

(** rscada_xml.rs:838-903, [fixed_unit] *)
Definition fixed_unit (medium_unit_byte : N) : text :=
  let code := N.land medium_unit_byte 0x3F in
  if (code =? 0x00) then txt "h,m,s"
  else if (code =? 0x01) then txt "D,M,Y"
  else if (code =? 0x02) then txt "Wh"
  else if (code =? 0x03) then txt "10 Wh"
  else if (code =? 0x04) then txt "100 Wh"
  else if (code =? 0x05) then txt "kWh"
  else if (code =? 0x06) then txt "10 kWh"
  else if (code =? 0x07) then txt "100 kWh"
  else if (code =? 0x08) then txt "MWh"
  else if (code =? 0x09) then txt "10 MWh"
  else if (code =? 0x0A) then txt "100 MWh"
  else if (code =? 0x0B) then txt "kJ"
  else if (code =? 0x0C) then txt "10 kJ"
  else if (code =? 0x0E) then txt "100 kJ"
  else if (code =? 0x0D) then txt "MJ"
  else if (code =? 0x0F) then txt "10 MJ"
  else if (code =? 0x10) then txt "100 MJ"
  else if (code =? 0x11) then txt "GJ"
  else if (code =? 0x12) then txt "10 GJ"
  else if (code =? 0x13) then txt "100 GJ"
  else if (code =? 0x14) then txt "W"
  else if (code =? 0x15) then txt "10 W"
  else if (code =? 0x16) then txt "100 W"
  else if (code =? 0x17) then txt "kW"
  else if (code =? 0x18) then txt "10 kW"
  else if (code =? 0x19) then txt "100 kW"
  else if (code =? 0x1A) then txt "MW"
  else if (code =? 0x1B) then txt "10 MW"
  else if (code =? 0x1C) then txt "100 MW"
  else if (code =? 0x1D) then txt "kJ/h"
  else if (code =? 0x1E) then txt "10 kJ/h"
  else if (code =? 0x1F) then txt "100 kJ/h"
  else if (code =? 0x20) then txt "MJ/h"
  else if (code =? 0x21) then txt "10 MJ/h"
  else if (code =? 0x22) then txt "100 MJ/h"
  else if (code =? 0x23) then txt "GJ/h"
  else if (code =? 0x24) then txt "10 GJ/h"
  else if (code =? 0x25) then txt "100 GJ/h"
  else if (code =? 0x26) then txt "ml"
  else if (code =? 0x27) then txt "10 ml"
  else if (code =? 0x28) then txt "100 ml"
  else if (code =? 0x29) then txt "l"
  else if (code =? 0x2A) then txt "10 l"
  else if (code =? 0x2B) then txt "100 l"
  else if (code =? 0x2C) then txt "m^3"
  else if (code =? 0x2D) then txt "10 m^3"
  else if (code =? 0x2E) then txt "100 m^3"
  else if (code =? 0x2F) then txt "ml/h"
  else if (code =? 0x30) then txt "10 ml/h"
  else if (code =? 0x31) then txt "100 ml/h"
  else if (code =? 0x32) then txt "l/h"
  else if (code =? 0x33) then txt "10 l/h"
  else if (code =? 0x34) then txt "100 l/h"
  else if (code =? 0x35) then txt "m^3/h"
  else if (code =? 0x36) then txt "10 m^3/h"
  else if (code =? 0x37) then txt "100 m^3/h"
  else if (code =? 0x38) then txt "1e-3 " ++ [0xB0] ++ txt "C"
  else if (code =? 0x39) then txt "units for HCA"
  else if ((0x3A <=? code) && (code <=? 0x3D)) then txt "reserved"
  else if (code =? 0x3E) then txt "reserved but historic"
  else if (code =? 0x3F) then txt "without units"
  else txt "unknown".

(** rscada_xml.rs:796-811: one counter.  [counter.to_string().parse()] gives its number back. *)
Definition render_counter (function : text) (index cnt_type counter : N) : text :=
  line (txt "    <DataRecord id=""" ++ dec index ++ txt """>")
  ++ field (txt "Function") function
  ++ field (txt "Unit") (xml_encode (fixed_unit cnt_type))
  ++ field (txt "Value") (dec counter)
  ++ line (txt "    </DataRecord>") ++ [10].

(** rscada_xml.rs:764-815, [render_fixed] *)
Definition render_fixed (id access_number status device_type_and_unit counter1 counter2 : N) : text :=
  let cnt1_type := device_type_and_unit / 256 in
  let cnt2_type := device_type_and_unit mod 256 in
  let function := if negb (N.land status 0x40 =? 0) then txt "Stored value" else txt "Actual value" in
  xml_processing_instruction ++ line (txt "<MBusData>") ++ [10]
  ++ line (txt "    <SlaveInformation>")
  ++ field (txt "Id") (dec id)
  ++ field (txt "Medium") (xml_encode (fixed_medium cnt1_type cnt2_type))
  ++ field (txt "AccessNumber") (dec access_number)
  ++ field (txt "Status") (hex2 status)
  ++ line (txt "    </SlaveInformation>") ++ [10]
  ++ render_counter function 0 cnt1_type counter1
  ++ render_counter function 1 cnt2_type counter2
  ++ line (txt "</MBusData>").

(** rscada_xml.rs:151-158 and 213-227: the decrypted bytes *)
Definition xml_decrypt (env : environment) (block : option user_data_block) (wireless_id : option manufacturer_id) (key : list N)
  : outcome xml_error (list N) :=
  block <- ok_or block XNoUserData ;;
  let '(res, output) := decrypt_user_data (env_aes env) block wireless_id key (repeat 0 512) in
  n <- map_err XDecryption res ;;
  ok_or (get_to output n) XPayloadLength.

(** rscada_xml.rs:138-168, [render_with_optional_decryption], with the feature [decryption] *)
Definition render_with_optional_decryption (env : environment) (powi : Z -> f64) (h : long_tpl_header)
  (u : option user_data_block) (records : option data_records) (wireless_id : option manufacturer_id)
  (key : option (list N)) : outcome xml_error text :=
  if negb (short_is_encrypted (lh_short_tpl_header h)) then render_variable (env_config env) powi h records else
  match key with
  | None => render_variable (env_config env) powi h None
  | Some key =>
      data <- xml_decrypt env u wireless_id key ;;
      render_variable (env_config env) powi h (Some (records_new data (Some h)))
  end.

(** rscada_xml.rs:170-239, [render_wireless_with_optional_decryption], with the feature
    [decryption] *)
Definition render_wireless_with_optional_decryption (env : environment) (powi : Z -> f64) (parsed : mbus_data wireless_frame)
  (access status signature : option N) (key : option (list N)) : outcome xml_error text :=
  let id := wf_manufacturer_id (md_frame parsed) in
  let encrypted :=
    match md_user_data parsed with
    | Some (VariableShort ell h _) =>
        (match ell with Some e => is_some (ell_encryption e) | None => false end) || short_is_encrypted h
    | _ => false
    end in
  if negb encrypted then
    render_wireless_variable (env_config env) powi id access status signature (md_data_records parsed)
  else
    match key with
    | None => render_wireless_variable (env_config env) powi id access status signature None
    | Some key =>
        data <- xml_decrypt env (md_user_data parsed) (Some id) key ;;
        render_wireless_variable (env_config env) powi id access status signature (Some (records_new data None))
    end.

(** rscada_xml.rs:67-136, [render_wireless] *)
Definition render_wireless (env : environment) (powi : Z -> f64) (parsed : mbus_data wireless_frame) (key : option (list N))
  : outcome xml_error text :=
  let id := wf_manufacturer_id (md_frame parsed) in
  match md_user_data parsed with
  | Some (VariableLong _ h _) =>
      render_with_optional_decryption env powi h (md_user_data parsed) (md_data_records parsed) (Some id) key
  | Some (VariableShort ell h _) =>
      let synthetic :=
        (match ell with Some e => is_some (ell_encryption e) | None => false end)
        && is_no_encryption (configuration_security_mode (sh_configuration_field h)) in
      let access := if synthetic then match ell with Some e => Some (ell_access_number e) | None => None end
                    else Some (sh_access_number h) in
      let status := if synthetic then None else Some (sh_status h) in
      let signature := if synthetic then None else Some (sh_configuration_field h) in
      render_wireless_with_optional_decryption env powi parsed access status signature key
  | Some (VariableNone ell _) =>
      render_wireless_variable (env_config env) powi id
        (match ell with Some e => Some (ell_access_number e) | None => None end) None None (md_data_records parsed)
  | Some (FixedDataStructure n access status dtu c1 c2) => Ok (render_fixed n access status dtu c1 c2)
  | _ => render_wireless_variable (env_config env) powi id None None None None
  end.

(** rscada_xml.rs:16-65, [render_from_bytes] *)
Definition render_from_bytes (env : environment) (powi : Z -> f64) (data : list N) (key : option (list N))
  : outcome xml_error text :=
  match mbus_wired_try_from (env_config env) data with
  | Panic p => Panic p
  | Ok parsed =>
      match md_user_data parsed with
      | Some (VariableLong _ h _) =>
          match key with
          | None => render_variable (env_config env) powi h (md_data_records parsed)
          | Some _ =>
              render_with_optional_decryption env powi h (md_user_data parsed) (md_data_records parsed) None key
          end
      | Some (FixedDataStructure n access status dtu c1 c2) => Ok (render_fixed n access status dtu c1 c2)
      | _ => Err XUnsupportedWired
      end
  | Err _ =>
      '(stripped, _) <- map_err (fun _ => XFuel) (strip_format_a_crcs data (repeat 0 512)) ;;
      let normalized := match stripped with Some d => d | None => data end in
      parsed <- map_err XNotAFrame (mbus_wireless_try_from normalized) ;;
      render_wireless env powi parsed key
  end.
