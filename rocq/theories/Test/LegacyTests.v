(** Tests of the repository for the older renderers, run on the model.  These are tests of the model, not properties: no
    theorem depends on this file. *)
From Coq Require Import String.
From Coq Require Import List NArith ZArith Bool.
Import ListNotations.
From Verif Require Import Model.Base Model.Text Model.Decimal Model.Show Model.Output Model.Manufacturers Model.Json Model.Legacy Model.LegacyJson Test.Aes Test.LibmbusCorpus.
Open Scope N_scope.

Definition legacy_env : environment :=
  {| env_config := env_config (test_env false); env_aes := aes128_decrypt; env_registry := lookup_manufacturer;
     env_application_message := env_application_message (test_env false); env_record_message := env_record_message (test_env false) |}.

(** src/mbus_data.rs:1466-1476, test_csv_expected_output: all cells of both rows *)
Example csv_expected_output : parse_to_csv legacy_env show_f64_0
    (txt "68 3D 3D 68 08 01 72 00 51 20 02 82 4D 02 04 00 88 00 00 04 07 00 00 00 00 0C 15 03 00 00 00 0B 2E 00 00 00 0B 3B 00 00 00 0A 5A 88 12 0A 5E 16 05 0B 61 23 77 00 02 6C 8C 11 02 27 37 0D 0F 60 00 67 16") None =
  Ok [[txt "FrameType"; txt "Function"; txt "Address"; txt "Identification Number"; txt "Manufacturer"; txt "Manufacturer Name"; txt "Access Number"; txt "Status"; txt "Security Mode"; txt "Version"; txt "Device Type"; txt "DataPoint1_Value"; txt "DataPoint1_Info"; txt "DataPoint2_Value"; txt "DataPoint2_Info"; txt "DataPoint3_Value"; txt "DataPoint3_Info"; txt "DataPoint4_Value"; txt "DataPoint4_Info"; txt "DataPoint5_Value"; txt "DataPoint5_Info"; txt "DataPoint6_Value"; txt "DataPoint6_Info"; txt "DataPoint7_Value"; txt "DataPoint7_Info"; txt "DataPoint8_Value"; txt "DataPoint8_Info"; txt "DataPoint9_Value"; txt "DataPoint9_Info"; txt "DataPoint10_Value"; txt "DataPoint10_Info"];
      [txt "LongFrame"; txt "RspUd (ACD: false, DFC: false)"; txt "Primary (1)"; txt "02205100"; txt "SLB"; txt "Schlumberger Industries"; txt "0"; txt "Permanent error, Manufacturer specific 3"; txt "No encryption used"; txt "2"; txt "Heat Meter (Return)"; txt "(0)e4[Wh](Energy)"; txt "0,Inst,32-bit Integer"; [40; 51; 41; 101; 45; 49; 91; 109; 179; 93; 40; 86; 111; 108; 117; 109; 101; 41]; txt "0,Inst,BCD 8-digit"; txt "(0)e3[W](Power)"; txt "0,Inst,BCD 6-digit"; [40; 48; 41; 101; 45; 51; 91; 109; 179; 104; 8315; 185; 93; 40; 86; 111; 108; 117; 109; 101; 70; 108; 111; 119; 41]; txt "0,Inst,BCD 6-digit"; [40; 49; 50; 56; 56; 41; 101; 45; 49; 91; 176; 67; 93; 40; 70; 108; 111; 119; 84; 101; 109; 112; 101; 114; 97; 116; 117; 114; 101; 41]; txt "0,Inst,BCD 4-digit"; [40; 53; 49; 54; 41; 101; 45; 49; 91; 176; 67; 93; 40; 82; 101; 116; 117; 114; 110; 84; 101; 109; 112; 101; 114; 97; 116; 117; 114; 101; 41]; txt "0,Inst,BCD 4-digit"; [40; 55; 55; 50; 51; 41; 101; 45; 50; 91; 176; 75; 93; 40; 84; 101; 109; 112; 101; 114; 97; 116; 117; 114; 101; 68; 105; 102; 102; 101; 114; 101; 110; 99; 101; 41]; txt "0,Inst,BCD 6-digit"; txt "(12/Jan/12)(Date)"; txt "0,Inst,Date Type G"; txt "(3383)[day](OperatingTime)"; txt "0,Inst,16-bit Integer"; txt "(Manufacturer Specific: [96, 0])"; txt "0,Inst,Special Functions (ManufacturerSpecific)"]].
Proof. vm_compute. reflexivity. Qed.

(** src/mbus_data.rs:1478-1519: the header of a wireless frame, and no records without the key *)
Definition sealed_input : text := txt "2E44931578563412330333637A2A0020255923C95AAA26D1B2E7493BC2AD013EC4A6F6D3529B520EDFF0EA6DEFC955B29D6D69EBF3EC8A".
Example wireless_csv : exists head row, parse_to_csv legacy_env show_f64_0 sealed_input None = Ok [head; row] /\
  row = [txt "Wireless"; txt "SndNr"; []; txt "12345678"; txt "ELS"; txt "Elster Group"; txt "42"; txt "No Error(s)";
         [65; 69; 83; 45; 67; 66; 67; 45; 49; 50; 56; 59; 32; 73; 86; 32; 8800; 32; 48]; txt "51"; txt "Gas Meter"].
Proof. eexists. eexists. split; [vm_compute; reflexivity|vm_compute; reflexivity]. Qed.
(** src/mbus_data.rs:1521-1532: the records with the key *)
Example wireless_csv_key : exists head row,
  parse_to_csv legacy_env show_f64_0 sealed_input (Some [1; 2; 3; 4; 5; 6; 7; 8; 9; 10; 11; 12; 13; 14; 15; 0x11]) = Ok [head; row] /\
  nth_error row 3 = Some (txt "12345678") /\ nth_error row 11 = Some [40; 50; 56; 53; 48; 52; 50; 55; 41; 101; 45; 50; 91; 109; 179; 93; 40; 86; 111; 108; 117; 109; 101; 41].
Proof. eexists. eexists. split; [vm_compute; reflexivity|]. vm_compute. repeat split. Qed.

(** src/mbus_data.rs:1755-1787 and 1809-1827, test_byte_payloads_serialize_as_hex_strings and test_json_expected_output *)
Fixpoint contains (part t : text) : bool :=
  text_eqb (firstn (List.length part) t) part || match t with [] => false | _ :: r => contains part r end.
Definition older_text (input : text) : text :=
  match parse_frame_output legacy_env show_f64_0 input None with
  | Ok (Some o) => to_string_pretty (older_json show_f64_0 o)
  | _ => []
  end.
Definition json_input : text := txt "68 3D 3D 68 08 01 72 00 51 20 02 82 4D 02 04 00 88 00 00 04 07 00 00 00 00 0C 15 03 00 00 00 0B 2E 00 00 00 0B 3B 00 00 00 0A 5A 88 12 0A 5E 16 05 0B 61 23 77 00 02 6C 8C 11 02 27 37 0D 0F 60 00 67 16".
Example json_expected_output : forallb (fun part => contains part (older_text json_input))
  [txt """Ok"""; txt """LongFrame"""; txt """RspUd"""; txt """number"": 2205100"; txt """device_type"": ""HeatMeterReturn""";
   txt """status"": ""PERMANENT_ERROR | MANUFACTURER_SPECIFIC_3"""; txt """ManufacturerSpecific"": ""6000""";
   txt """raw_bytes"": ""040700000000"""] = true.
Proof. vm_compute. reflexivity. Qed.
Example json_frame_data : contains (txt """data"": ""8C2027780B13436587""") (older_text (txt "1444AE0C7856341201078C2027780B134365877AC5")) = true.
Proof. vm_compute. reflexivity. Qed.
