(** Tests of the repository run on the model.  These are tests of the model, not properties: no theorem depends on
    this file.  Each example names the test it comes from. *)
From Coq Require Import String.
From Coq Require Import List NArith ZArith Bool SpecFloat.
Import ListNotations.
From Verif Require Import Model.Base Model.Text Model.Core Model.Wired Model.Wireless Model.F64 Model.DataInfo Model.ValueInfo Model.Record
  Model.Decrypt Model.UserData Model.Hex Model.MbusData Model.Show Model.Output Model.Annotate Model.Render Model.Rscada Test.Aes Test.LibmbusCorpus.
Open Scope N_scope.

(** tests/test_wireless.rs:167-393, test_wireless_telegram_vectors, tests/wmbusmeters/test_vectors.json: identification number,
    manufacturer, version, medium, access number and status; like the test, vectors that the parser rejects, or that carry no
    transport header, are skipped ([None]). *)
Definition expectation := (N * text * N * device_type * N * N)%type.
Definition read (data : list N) : option expectation :=
  match mbus_wireless_try_from data with
  | Ok m =>
      match md_user_data m with
      | Some (VariableShort _ h _) =>
          let id := wf_manufacturer_id (md_frame m) in
          let c := mi_manufacturer_code id in
          Some (mi_identification_number id, [mc1 c; mc2 c; mc3 c], mi_version id, mi_device_type id, sh_access_number h, sh_status h)
      | Some (VariableLong _ h _) =>
          match lh_manufacturer h with
          | Ok c => Some (lh_identification_number h, [mc1 c; mc2 c; mc3 c], lh_version h, lh_device_type h,
                          sh_access_number (lh_short_tpl_header h), sh_status (lh_short_tpl_header h))
          | _ => None
          end
      | _ => None
      end
  | _ => None
  end.
Definition agrees_with (data : list N) (e : expectation) : Prop := read data = None \/ read data = Some e.
Ltac vector := first [left; vm_compute; reflexivity | right; vm_compute; reflexivity].
Example vectors :
  agrees_with [0x1E; 0x44; 0xAE; 0x4C; 0x99; 0x56; 0x34; 0x12; 0x68; 0x07; 0x7A; 0x36; 0x00; 0x10; 0x00; 0x2F; 0x2F; 0x04; 0x13; 0x18; 0x1E; 0x00; 0x00; 0x02; 0x3B; 0x00; 0x00; 0x2F; 0x2F; 0x2F; 0x2F]
    (12345699, txt "SEN", 104, DevWaterMeter, 54, 0) /\
  agrees_with [0x18; 0x44; 0xAE; 0x4C; 0x44; 0x55; 0x22; 0x33; 0x68; 0x07; 0x7A; 0x55; 0x00; 0x00; 0x00; 0x04; 0x13; 0x89; 0xE2; 0x01; 0x00; 0x02; 0x3B; 0x00; 0x00]
    (33225544, txt "SEN", 104, DevWaterMeter, 85, 0) /\
  agrees_with [0x23; 0x44; 0x33; 0x30; 0x06; 0x02; 0x01; 0x00; 0x14; 0x00; 0x7A; 0x8E; 0x00; 0x00; 0x00; 0x2F; 0x2F; 0x0E; 0xFD; 0x3A; 0x11; 0x47; 0x00; 0x00; 0x00; 0x00; 0x8E; 0x40; 0xFD; 0x3A; 0x34; 0x12; 0x00; 0x00; 0x00; 0x00]
    (10206, txt "LAS", 20, DevOther, 142, 0) /\
  agrees_with [0x2E; 0x44; 0xB0; 0x5C; 0x82; 0x34; 0x01; 0x00; 0x02; 0x1B; 0x7A; 0x46; 0x00; 0x00; 0x00; 0x2F; 0x2F; 0x0A; 0x66; 0x01; 0x02; 0x0A; 0xFB; 0x1A; 0x57; 0x06; 0x02; 0xFD; 0x97; 0x1D; 0x00; 0x00; 0x2F; 0x2F; 0x2F; 0x2F; 0x2F; 0x2F; 0x2F; 0x2F; 0x2F; 0x2F; 0x2F; 0x2F; 0x2F; 0x2F; 0x2F]
    (13482, txt "WEP", 2, DevRoomSensor, 70, 0) /\
  agrees_with [0x3E; 0x44; 0xA5; 0x11; 0x90; 0x35; 0x24; 0x61; 0x41; 0x04; 0x7A; 0x1A; 0x00; 0x30; 0x05; 0x2F; 0x2F; 0x0C; 0x06; 0x02; 0x63; 0x01; 0x00; 0x0C; 0x13; 0x68; 0x86; 0x09; 0x04; 0x0B; 0x3B; 0x08; 0x02; 0x00; 0x0C; 0x2B; 0x22; 0x00; 0x00; 0xF0; 0x0A; 0x5A; 0x71; 0x02; 0x0A; 0x5E; 0x72; 0x02; 0x0A; 0xA6; 0x18; 0x00; 0x00; 0x4C; 0x06; 0x36; 0x37; 0x01; 0x00; 0x42; 0x6C; 0xBF; 0x25]
    (61243590, txt "DME", 65, DevHeatMeterReturn, 26, 0) /\
  agrees_with [0x4E; 0x44; 0x01; 0x06; 0x10; 0x10; 0x10; 0x10; 0x02; 0x02; 0x7A; 0x00; 0x00; 0x40; 0x05; 0x2F; 0x2F; 0x0E; 0x03; 0x50; 0x40; 0x69; 0x15; 0x00; 0x00; 0x0B; 0x2B; 0x30; 0x03; 0x00; 0x06; 0x6D; 0x00; 0x79; 0x0C; 0x74; 0x23; 0x40; 0x0C; 0x78; 0x37; 0x12; 0x04; 0x86; 0x0B; 0xAB; 0xC8; 0xFC; 0x10; 0x00; 0x00; 0x00; 0x0E; 0x83; 0x3C; 0x80; 0x74; 0x00; 0x00; 0x00; 0x00; 0x0B; 0xAB; 0x3C; 0x00; 0x00; 0x00; 0x0A; 0xFD; 0xC9; 0xFC; 0x01; 0x36; 0x02; 0x2F; 0x2F; 0x2F; 0x2F; 0x2F]
    (10101010, txt "APA", 2, DevElectricityMeter, 0, 0) /\
  agrees_with [0x31; 0x44; 0x68; 0x50; 0x22; 0x66; 0x77; 0x11; 0x69; 0x80; 0xA0; 0x11; 0x9F; 0x27; 0x02; 0x04; 0x80; 0x04; 0x83; 0x00; 0xC4; 0x08; 0xF7; 0x09; 0x14; 0x3C; 0x00; 0x3D; 0x34; 0x1A; 0x2B; 0x0B; 0x2A; 0x07; 0x07; 0x00; 0x00; 0x00; 0x00; 0x00; 0x00; 0x06; 0x2D; 0x11; 0x44; 0x57; 0x56; 0x3D; 0x71; 0xA1]
    (11776622, txt "TCH", 105, DevHeatCostAllocator, 159, 39) /\
  agrees_with [0x2F; 0x44; 0x68; 0x50; 0x31; 0x32; 0x33; 0x34; 0x74; 0x62; 0xA2; 0x06; 0x9F; 0x25; 0x59; 0x00; 0xB0; 0x29; 0x31; 0x00; 0x00; 0x00; 0x03; 0x06; 0x06; 0x09; 0x06; 0x03; 0x06; 0x09; 0x07; 0x06; 0x06; 0x05; 0x05; 0x09; 0x05; 0x05; 0x05; 0x05; 0x04; 0x07; 0x04; 0x06; 0x05; 0x07; 0x05; 0x00]
    (34333231, txt "TCH", 116, DevWarmWaterMeter, 6, 159) /\
  agrees_with [0x2F; 0x44; 0x68; 0x50; 0x20; 0x01; 0x41; 0x02; 0x95; 0x62; 0xA2; 0x06; 0x70; 0x29; 0x01; 0x00; 0x60; 0x17; 0x03; 0x00; 0x04; 0x00; 0x03; 0x00; 0x00; 0x00; 0x00; 0x00; 0x00; 0x00; 0x00; 0x00; 0x00; 0x00; 0x00; 0x00; 0x00; 0x00; 0x00; 0x00; 0x00; 0x00; 0x00; 0x00; 0x00; 0x00; 0x00; 0x00]
    (2410120, txt "TCH", 149, DevWarmWaterMeter, 6, 112) /\
  agrees_with [0x37; 0x44; 0x68; 0x50; 0x65; 0x49; 0x23; 0x58; 0x27; 0xC3; 0xA2; 0x12; 0x9F; 0x25; 0x38; 0x33; 0x00; 0xA8; 0x62; 0x26; 0x00; 0x00; 0x82; 0x00; 0x80; 0x0A; 0x2A; 0xF8; 0x62; 0x11; 0x51; 0x75; 0x55; 0x28; 0x77; 0xA3; 0x6F; 0x26; 0xC9; 0xAB; 0x1C; 0xB2; 0x44; 0x00; 0x00; 0x00; 0x04; 0x00; 0x00; 0x00; 0x00; 0x00; 0x04; 0x90; 0x80; 0x02]
    (58234965, txt "TCH", 39, DevHeatMeterFlow, 18, 159) /\
  agrees_with [0x6E; 0x44; 0x01; 0x06; 0x20; 0x20; 0x20; 0x20; 0x05; 0x07; 0x7A; 0x9A; 0x00; 0x60; 0x85; 0x2F; 0x2F; 0x0F; 0x0A; 0x73; 0x43; 0x93; 0xCC; 0x00; 0x00; 0x43; 0x5B; 0x01; 0x83; 0x00; 0x1A; 0x54; 0xE0; 0x6F; 0x63; 0x02; 0x91; 0x34; 0x25; 0x10; 0x03; 0x0F; 0x00; 0x00; 0x7B; 0x01; 0x3E; 0x0B; 0x00; 0x00; 0x3E; 0x0B; 0x00; 0x00; 0x3E; 0x0B; 0x00; 0x00; 0x3E; 0x0B; 0x00; 0x00; 0x3E; 0x0B; 0x00; 0x00; 0x3E; 0x0B; 0x00; 0x00; 0x3E; 0x0B; 0x00; 0x00; 0x65; 0x00; 0x00; 0x00; 0x3D; 0x00; 0x00; 0x00; 0x3D; 0x00; 0x00; 0x00; 0x3D; 0x00; 0x00; 0x00; 0x00; 0x00; 0x00; 0x00; 0xA0; 0x91; 0x0C; 0xB0; 0x03; 0xFF; 0xFF; 0xFF; 0xFF; 0xFF; 0xFF; 0xFF; 0xFF; 0xFF; 0xFF; 0xA6; 0x2B]
    (20202020, txt "APA", 5, DevWaterMeter, 154, 0) /\
  agrees_with [0x4E; 0x44; 0x01; 0x06; 0x20; 0x20; 0x20; 0x21; 0x05; 0x07; 0x7A; 0x13; 0x00; 0x40; 0x85; 0x2F; 0x2F; 0x0F; 0x6D; 0x4C; 0x38; 0x93; 0x00; 0x02; 0x00; 0x43; 0x84; 0x02; 0x10; 0x35; 0x1F; 0x04; 0x00; 0x75; 0x01; 0x2C; 0x0B; 0x04; 0x00; 0x48; 0xD6; 0x03; 0x00; 0x3E; 0x63; 0x03; 0x00; 0xCD; 0x2C; 0x03; 0x00; 0x1E; 0xF4; 0x02; 0x00; 0x0A; 0xCE; 0x02; 0x00; 0xA0; 0x98; 0xA3; 0x96; 0x03; 0xFF; 0xFF; 0xFF; 0xFF; 0xFF; 0xFF; 0xFF; 0xFF; 0xFF; 0xFF; 0xFF; 0xFF; 0xFF; 0x19; 0x77]
    (21202020, txt "APA", 5, DevWaterMeter, 19, 0) /\
  agrees_with [0x4E; 0x44; 0x01; 0x06; 0x20; 0x20; 0x20; 0x22; 0x05; 0x07; 0x7A; 0x4B; 0x00; 0x40; 0x85; 0x2F; 0x2F; 0x0F; 0xE5; 0x66; 0xB9; 0x93; 0x90; 0x00; 0x00; 0x87; 0xC0; 0xB2; 0x4B; 0x73; 0x26; 0x79; 0xFF; 0x75; 0x35; 0x00; 0x10; 0xFC; 0xFB; 0x00; 0x00; 0x41; 0x55; 0x59; 0x42; 0x65; 0x08; 0x6A; 0x00; 0x43; 0xB4; 0x01; 0x73; 0x01; 0xDF; 0xF6; 0x00; 0x00; 0x6A; 0xE7; 0x00; 0x00; 0xBF; 0xD5; 0x00; 0x00; 0x51; 0xBC; 0x00; 0x00; 0xA0; 0xF5; 0x6C; 0x26; 0x02; 0xFF; 0xFF; 0x1B; 0x1B]
    (22202020, txt "APA", 5, DevWaterMeter, 75, 0) /\
  agrees_with [0x4E; 0x44; 0x01; 0x06; 0x20; 0x20; 0x20; 0x23; 0x05; 0x07; 0x7A; 0x9D; 0x00; 0x40; 0x85; 0x2F; 0x2F; 0x0F; 0x81; 0x90; 0x2C; 0x93; 0x00; 0x00; 0x00; 0x10; 0xB8; 0x2F; 0x01; 0x00; 0x41; 0x55; 0x59; 0x42; 0xBD; 0x28; 0x82; 0x00; 0x43; 0x19; 0x02; 0x73; 0x01; 0xBC; 0x26; 0x01; 0x00; 0x5C; 0x18; 0x01; 0x00; 0xCB; 0x0A; 0x01; 0x00; 0xDF; 0xF6; 0x00; 0x00; 0xA0; 0xF5; 0x6C; 0x26; 0x02; 0xFF; 0xFF; 0xFF; 0xFF; 0xFF; 0xFF; 0xFF; 0xFF; 0xFF; 0xFF; 0xFF; 0xFF; 0xFF; 0x5B; 0x7C]
    (23202020, txt "APA", 5, DevWaterMeter, 157, 0) /\
  agrees_with [0x5E; 0x44; 0xB6; 0x10; 0x58; 0x43; 0x25; 0x00; 0x00; 0x02; 0x7A; 0x2A; 0x00; 0x50; 0x05; 0x2F; 0x2F; 0x0C; 0x78; 0x35; 0x22; 0x14; 0x00; 0x06; 0x6D; 0x40; 0x47; 0x08; 0xAC; 0x2A; 0x40; 0x0E; 0x03; 0x20; 0x22; 0x65; 0x09; 0x00; 0x00; 0x0E; 0x83; 0x3C; 0x00; 0x00; 0x00; 0x00; 0x00; 0x00; 0x1B; 0x2B; 0x96; 0x47; 0x00; 0x0B; 0x2B; 0x55; 0x10; 0x00; 0x0B; 0xAB; 0x3C; 0x00; 0x00; 0x00; 0x0A; 0xFD; 0xC9; 0xFC; 0x01; 0x35; 0x02; 0x0A; 0xFD; 0xC9; 0xFC; 0x02; 0x45; 0x02; 0x0A; 0xFD; 0xC9; 0xFC; 0x03; 0x39; 0x02; 0x0B; 0xAB; 0xC8; 0xFC; 0x10; 0x00; 0x00; 0x00; 0x2F; 0x2F]
    (254358, txt "DEV", 0, DevElectricityMeter, 42, 0) /\
  agrees_with [0x8E; 0x44; 0xB4; 0x09; 0x74; 0x73; 0x72; 0x71; 0x0B; 0x0D; 0x7A; 0x79; 0x80; 0x80; 0x05; 0x2F; 0x2F; 0x0C; 0x0E; 0x59; 0x60; 0x01; 0x00; 0x04; 0x6D; 0x1D; 0x36; 0xB9; 0x29; 0x0C; 0x13; 0x67; 0x99; 0x47; 0x00; 0x0C; 0x0E; 0x00; 0x00; 0x00; 0x00; 0x0C; 0x13; 0x59; 0x00; 0x00; 0x00; 0x0C; 0x13; 0x00; 0x00; 0x00; 0x00; 0x0C; 0x13; 0x00; 0x00; 0x00; 0x00; 0x0A; 0x5A; 0x18; 0x02; 0x0A; 0x5E; 0x11; 0x02; 0x0F; 0x82; 0x3D; 0x06; 0x00; 0x3D; 0x06; 0x00; 0x3D; 0x06; 0x00; 0x3D; 0x06; 0x00; 0x14; 0x06; 0x00; 0x62; 0x05; 0x00; 0x48; 0x04; 0x00; 0xE4; 0x02; 0x00; 0x16; 0x01; 0x00; 0x00; 0x00; 0x00; 0x00; 0x00; 0x00; 0x00; 0x00; 0x00; 0x00; 0x00; 0x00; 0x00; 0x00; 0x00; 0x00; 0x00; 0x00; 0x00; 0x00; 0x00; 0x00; 0x00; 0x00; 0x00; 0x00; 0x00; 0x00; 0x00; 0x00; 0x00; 0x00; 0x00; 0x00; 0x00; 0x00; 0x00; 0x00; 0x00; 0x00; 0x00; 0x00; 0x00; 0x00; 0x00; 0x02; 0xF2]
    (71727374, txt "BMT", 11, DevCombinedHeatCoolingMeter, 121, 128) /\
  agrees_with [0x37; 0x44; 0x93; 0x44; 0x48; 0x36; 0x35; 0x12; 0x18; 0x06; 0x7A; 0xC7; 0x00; 0x00; 0x20; 0x0C; 0x13; 0x91; 0x19; 0x00; 0x00; 0x4C; 0x13; 0x91; 0x17; 0x00; 0x00; 0x42; 0x6C; 0xBF; 0x2C; 0xCC; 0x08; 0x13; 0x91; 0x17; 0x00; 0x00; 0xC2; 0x08; 0x6C; 0xBF; 0x2C; 0x02; 0xBB; 0x56; 0x00; 0x00; 0x32; 0x6C; 0xFF; 0xFF; 0x04; 0x6D; 0x1E; 0x02]
    (12353648, txt "QDS", 24, DevWarmWaterMeter, 199, 0) /\
  agrees_with [0x5E; 0x44; 0x09; 0x07; 0x12; 0x12; 0x10; 0x15; 0x10; 0x07; 0x7A; 0x71; 0x00; 0x50; 0x05; 0x2F; 0x2F; 0x04; 0x6D; 0x01; 0x10; 0xA9; 0x27; 0x04; 0x13; 0x00; 0x00; 0x00; 0x00; 0x04; 0x93; 0x3B; 0x00; 0x00; 0x00; 0x00; 0x04; 0x93; 0x3C; 0x00; 0x00; 0x00; 0x00; 0x02; 0x3B; 0x00; 0x00; 0x02; 0x59; 0x2A; 0x0A; 0x44; 0x6D; 0x00; 0x00; 0xA1; 0x27; 0x44; 0x13; 0x00; 0x00; 0x00; 0x00; 0x44; 0x93; 0x3B; 0x00; 0x00; 0x00; 0x00; 0x44; 0x93; 0x3C; 0x00; 0x00; 0x00; 0x00; 0x01; 0xFD; 0x74; 0x62; 0x2F; 0x2F; 0x2F; 0x2F; 0x2F; 0x2F; 0x2F; 0x2F; 0x2F; 0x2F; 0x2F; 0x2F; 0x2F; 0x2F]
    (15101212, txt "AXI", 16, DevWaterMeter, 113, 0) /\
  agrees_with [0x2A; 0x44; 0x2D; 0x2C; 0x99; 0x87; 0x34; 0x76; 0x1B; 0x16; 0x8D; 0x20; 0x91; 0xD3; 0x7C; 0xAC; 0x21; 0xE1; 0xD6; 0x8C; 0xDA; 0xFF; 0xCD; 0x3D; 0xC4; 0x52; 0xBD; 0x80; 0x29; 0x13; 0xFF; 0x7B; 0x17; 0x06; 0xCA; 0x9E; 0x35; 0x5D; 0x6C; 0x27; 0x01; 0xCC; 0x24]
    (76348799, txt "KAM", 27, DevColdWaterMeter, 145, 32) /\
  agrees_with [0x23; 0x44; 0x2D; 0x2C; 0x45; 0x45; 0x71; 0x63; 0x1B; 0x16; 0x8D; 0x20; 0x6A; 0x31; 0xFB; 0x7C; 0x20; 0x39; 0xA3; 0x79; 0x60; 0x4B; 0x90; 0xBD; 0xFC; 0xBE; 0x8D; 0xD8; 0xCB; 0x18; 0xCE; 0x77; 0xDC; 0x41; 0xCE; 0x8C]
    (63714545, txt "KAM", 27, DevColdWaterMeter, 106, 32) /\
  agrees_with [0x2E; 0x44; 0x93; 0x15; 0x78; 0x56; 0x34; 0x12; 0x33; 0x03; 0x7A; 0x2A; 0x00; 0x20; 0x05; 0x59; 0x23; 0xC9; 0x5A; 0xAA; 0x26; 0xD1; 0xB2; 0xE7; 0x49; 0x3B; 0x01; 0x3E; 0xC4; 0xA6; 0xF6; 0xD3; 0x52; 0x9B; 0x52; 0x0E; 0xDF; 0xF0; 0xEA; 0x6D; 0xEF; 0xC9; 0x9D; 0x6D; 0x69; 0xEB; 0xF3]
    (12345678, txt "ELS", 51, DevGasMeter, 42, 0) /\
  agrees_with [0x5E; 0x44; 0x2D; 0x2C; 0x13; 0x71; 0x93; 0x82; 0x40; 0x04; 0x7A; 0xDD; 0x10; 0x50; 0x25; 0xF9; 0xDA; 0x8C; 0x44; 0x0B; 0x00; 0x32; 0x7A; 0xCE; 0x75; 0x1E; 0xE1; 0xE0; 0xA2; 0xBD; 0x41; 0x37; 0x64; 0x63; 0x03; 0x3C; 0xF9; 0x70; 0x18; 0x16; 0xB8; 0x84; 0xAB; 0x7C; 0x26; 0x03; 0x1C; 0x30; 0x18; 0x69; 0xB8; 0x1C; 0x99; 0x0C; 0x9E; 0x0F; 0x26; 0x19; 0x32; 0x0C; 0x26; 0xFF; 0x65; 0x6A; 0x89; 0x3F; 0x73; 0xE5; 0xC6; 0x2C; 0x2E; 0xD7; 0xB5; 0x54; 0xFA; 0xFA; 0x69; 0x52; 0x82; 0x3B; 0xB5; 0x33; 0xEF; 0x68; 0x44; 0x15; 0xAE; 0xBA; 0xA7; 0xBE; 0x48; 0xDA; 0xC1; 0x1A; 0xD2]
    (82937113, txt "KAM", 64, DevHeatMeterReturn, 221, 16) /\
  agrees_with [0x5E; 0x44; 0x2D; 0x2C; 0x13; 0x71; 0x93; 0x82; 0x40; 0x04; 0x7A; 0xDE; 0x10; 0x50; 0x25; 0xAB; 0x1A; 0xEA; 0x30; 0x80; 0x71; 0x84; 0xFA; 0xF7; 0xAD; 0xE4; 0xD6; 0xD9; 0x1C; 0xA8; 0xEA; 0x35; 0x50; 0x16; 0x5F; 0x99; 0x37; 0x0F; 0xF7; 0x8A; 0x0F; 0xA4; 0x24; 0xA5; 0x9E; 0x19; 0x00; 0x21; 0xF8; 0x3A; 0x74; 0x7D; 0xF5; 0x66; 0x39; 0xD9; 0x67; 0xE8; 0x41; 0x15; 0x53; 0x25; 0x26; 0x6F; 0xBD; 0xB5; 0x01; 0x09; 0xCE; 0xC8; 0x40; 0x6D; 0x7A; 0x62; 0x59; 0x74; 0xC8; 0x17; 0xF7; 0x99; 0x9B; 0xDF; 0xBE; 0x4C; 0x70; 0x32; 0x6C; 0x12; 0x68; 0x05; 0x94; 0x1C; 0xEF; 0xF7; 0xED]
    (82937113, txt "KAM", 64, DevHeatMeterReturn, 222, 16).
Proof. repeat split; vector. Qed.

(** tests/output_contract.rs:11-84, canonical_json_has_a_versioned_stable_root *)
Definition wired_frame_text : text := txt "68 3D 3D 68 08 01 72 00 51 20 02 82 4D 02 04 00 88 00 00 04 07 00 00 00 00 0C 15 03 00 00 00 0B 2E 00 00 00 0B 3B 00 00 00 0A 5A 88 12 0A 5E 16 05 0B 61 23 77 00 02 6C 8C 11 02 27 37 0D 0F 60 00 67 16".
Definition canonical (f : decoded_output -> option text) : option text :=
  match decode_hex (test_env false) wired_frame_text None true with Ok d => f d | _ => None end.
Definition record_at (i : nat) (f : record_out -> option text) : option text :=
  canonical (fun d => match nth_error (do_records d) i with Some r => f r | None => None end).
Definition shown (r : record_out) : option text := match vo_value (ro_value r) with Some (JString t) => Some t | _ => None end.
Example contract :
  canonical (fun d => Some (do_protocol d)) = Some (txt "wired") /\
  canonical (fun d => fo_function (do_frame d)) = Some (txt "RSP_UD (ACD: false, DFC: false)") /\
  record_at 2 (fun r => Some (ro_function r)) = Some (txt "Instantaneous value") /\
  record_at 3 (fun r => hd_error (ro_quantities r)) = Some (txt "Volume flow") /\
  record_at 4 (fun r => hd_error (ro_quantities r)) = Some (txt "Flow temperature") /\
  record_at 2 (fun r => Some (ro_data_coding r)) = Some (txt "6-digit BCD") /\
  record_at 9 (fun r => Some (ro_function r)) = Some (txt "Manufacturer specific") /\
  record_at 2 ro_unit = Some (txt "W") /\
  record_at 3 ro_unit = Some (txt "m3.h-1") /\
  record_at 0 (fun r => Some (vo_kind (ro_value r))) = Some (txt "decimal") /\
  record_at 0 shown = Some (txt "0") /\
  record_at 0 (fun r => Some (ro_data_hex r)) = Some (txt "00 00 00 00") /\
  record_at 7 shown = Some (txt "0012-01-12").
Proof. vm_compute. repeat split. Qed.

(** tests/application_layer_frames.rs:9-78, test_lsb_frame *)
Definition wired_values (frame : list N) : option (N * list (option data_type)) :=
  match wired_try_from (env_config (test_env false)) frame with
  | Ok (LongFrame _ _ d) =>
      match user_data_try_from d with
      | Ok (VariableLong _ h block) =>
          match records_all (env_config (test_env false)) block (Some h) with
          | Some items =>
              match collect_result items with
              | Ok rs => Some (lh_identification_number h, map (fun r => d_value (dr_data r)) rs)
              | _ => None
              end
          | None => None
          end
      | _ => None
      end
  | _ => None
  end.
Definition second (frame : list N) : option (N * option data_type) :=
  match wired_values frame with
  | Some (n, vs) => match nth_error vs 1 with Some v => Some (n, v) | None => None end
  | None => None
  end.
Example lsb_frame : second [0x68; 0x64; 0x64; 0x68; 0x08; 0x7F; 0x76; 0x09; 0x67; 0x01; 0x06; 0x00; 0x00; 0x51; 0x04; 0x50; 0x00; 0x00; 0x00; 0x02; 0x6C; 0x38; 0x1C; 0x0C; 0x0F; 0x00; 0x80; 0x87; 0x32; 0x8C; 0x20; 0x0F; 0x00; 0x00; 0x00; 0x00; 0x0C; 0x14; 0x13; 0x32; 0x82; 0x58; 0xBC; 0x10; 0x15; 0x00; 0x25; 0x81; 0x25; 0x8C; 0x20; 0x13; 0x00; 0x00; 0x00; 0x00; 0x8C; 0x30; 0x13; 0x00; 0x00; 0x01; 0x61; 0x8C; 0x40; 0x13; 0x00; 0x00; 0x16; 0x88; 0x0A; 0x3C; 0x01; 0x10; 0x0A; 0x2D; 0x00; 0x80; 0x0A; 0x5A; 0x07; 0x18; 0x0A; 0x5E; 0x06; 0x53; 0x0C; 0x22; 0x00; 0x16; 0x07; 0x26; 0x3C; 0x22; 0x00; 0x00; 0x33; 0x81; 0x04; 0x7E; 0x00; 0x00; 0x67; 0x0C; 0x0C; 0x16]
  = Some (9670106, Some (Number (f64_of_Z 808732))).
Proof. vm_compute. reflexivity. Qed.
Example non_lsb_frame : second [0x68; 0xC7; 0xC7; 0x68; 0x08; 0x38; 0x72; 0x56; 0x73; 0x23; 0x72; 0x2D; 0x2C; 0x34; 0x04; 0x87; 0x00; 0x00; 0x00; 0x04; 0x0F; 0x7F; 0x1C; 0x01; 0x00; 0x04; 0xFF; 0x07; 0x8A; 0xAD; 0x08; 0x00; 0x04; 0xFF; 0x08; 0x06; 0xFE; 0x05; 0x00; 0x04; 0x14; 0x4E; 0x55; 0x0B; 0x00; 0x84; 0x40; 0x14; 0x00; 0x00; 0x00; 0x00; 0x84; 0x80; 0x40; 0x14; 0x00; 0x00; 0x00; 0x00; 0x04; 0x22; 0x76; 0x7F; 0x00; 0x00; 0x34; 0x22; 0x8B; 0x2C; 0x00; 0x00; 0x02; 0x59; 0x61; 0x1B; 0x02; 0x5D; 0x5F; 0x10; 0x02; 0x61; 0x02; 0x0B; 0x04; 0x2D; 0x55; 0x00; 0x00; 0x00; 0x14; 0x2D; 0x83; 0x00; 0x00; 0x00; 0x04; 0x3B; 0x06; 0x01; 0x00; 0x00; 0x14; 0x3B; 0xAA; 0x01; 0x00; 0x00; 0x04; 0xFF; 0x22; 0x00; 0x00; 0x00; 0x00; 0x04; 0x6D; 0x06; 0x2C; 0x1F; 0x3A; 0x44; 0x0F; 0xCF; 0x11; 0x01; 0x00; 0x44; 0xFF; 0x07; 0x0B; 0x69; 0x08; 0x00; 0x44; 0xFF; 0x08; 0x54; 0xD3; 0x05; 0x00; 0x44; 0x14; 0x11; 0xF3; 0x0A; 0x00; 0xC4; 0x40; 0x14; 0x00; 0x00; 0x00; 0x00; 0xC4; 0x80; 0x40; 0x14; 0x00; 0x00; 0x00; 0x00; 0x54; 0x2D; 0x3A; 0x00; 0x00; 0x00; 0x54; 0x3B; 0x28; 0x01; 0x00; 0x00; 0x42; 0x6C; 0x01; 0x3A; 0x02; 0xFF; 0x1A; 0x01; 0x1A; 0x0C; 0x78; 0x56; 0x73; 0x23; 0x72; 0x04; 0xFF; 0x16; 0xE6; 0x84; 0x1E; 0x00; 0x04; 0xFF; 0x17; 0xC1; 0xD5; 0xB4; 0x00; 0x12; 0x16]
  = Some (72237356, Some (Number (f64_of_Z 568714))).
Proof. vm_compute. reflexivity. Qed.

(** tests/application_layer_frames.rs:80-122, test_manufacturer_specific_data *)
Example manufacturer_specific_data : exists n vs,
  wired_values [0x68; 0x55; 0x55; 0x68; 0x08; 0x1E; 0x72; 0x34; 0x35; 0x58; 0x12; 0x92; 0x26; 0x18; 0x04; 0x14; 0x00; 0x00; 0x00; 0x0C; 0x78; 0x34; 0x35; 0x58; 0x12; 0x04; 0x0E; 0x57; 0x64; 0x03; 0x00; 0x0C; 0x14; 0x73; 0x58; 0x44; 0x00; 0x0B; 0x2D; 0x06; 0x00; 0x00; 0x0B; 0x3B; 0x55; 0x00; 0x00; 0x0A; 0x5A; 0x87; 0x06; 0x0A; 0x5E; 0x77; 0x05; 0x0B; 0x61; 0x01; 0x11; 0x00; 0x04; 0x6D; 0x10; 0x02; 0x04; 0x3C; 0x02; 0x27; 0x79; 0x11; 0x09; 0xFD; 0x0E; 0x06; 0x09; 0xFD; 0x0F; 0x06; 0x8C; 0xC0; 0x00; 0x15; 0x71; 0x25; 0x00; 0x00; 0x0F; 0x00; 0x00; 0x86; 0x16] = Some (n, vs) /\
  length vs = 14%nat /\ nth_error vs 13 = Some (Some (ManufacturerSpecific [0; 0])) /\ nth_error vs 12 = Some (Some (Number (f64_of_Z 2571))).
Proof. eexists. eexists. split; [vm_compute; reflexivity|]. vm_compute. repeat split. Qed.

(** tests/application_layer_frames.rs:124-177, real32bit: 25 records, among them 56.869384765625 and 41.44091796875 *)
Example real32bit : exists n vs,
  wired_values [0x68; 0xA7; 0xA7; 0x68; 0x08; 0x4D; 0x72; 0x82; 0x04; 0x75; 0x30; 0xEE; 0x4D; 0x19; 0x04; 0xC2; 0x00; 0x00; 0x00; 0x04; 0x0E; 0x1B; 0x0E; 0x00; 0x00; 0x84; 0x0A; 0x0E; 0x4C; 0x06; 0x00; 0x00; 0x04; 0x13; 0x07; 0x81; 0x00; 0x00; 0x84; 0x0A; 0x13; 0x9D; 0x37; 0x00; 0x00; 0x0B; 0xFD; 0x0F; 0x00; 0x07; 0x01; 0x0A; 0xFD; 0x0D; 0x00; 0x11; 0x8C; 0x40; 0x79; 0x01; 0x00; 0x00; 0x00; 0x84; 0x40; 0x14; 0x31; 0x05; 0x00; 0x00; 0x84; 0x4A; 0x14; 0xFD; 0x04; 0x00; 0x00; 0x8C; 0x80; 0x40; 0x79; 0x02; 0x00; 0x00; 0x00; 0x84; 0x80; 0x40; 0x14; 0x27; 0x50; 0x00; 0x00; 0x84; 0x8A; 0x40; 0x14; 0x08; 0x31; 0x00; 0x00; 0x05; 0xFF; 0x01; 0xDF; 0xA3; 0xB1; 0x3E; 0x05; 0xFF; 0x02; 0xA8; 0x59; 0x6B; 0x3F; 0x0C; 0x78; 0x82; 0x04; 0x75; 0x30; 0x04; 0x6D; 0x05; 0x0B; 0x2F; 0x31; 0x82; 0x0A; 0x6C; 0xE1; 0xF1; 0x05; 0x5B; 0x40; 0x7A; 0x63; 0x42; 0x05; 0x5F; 0x80; 0xC3; 0x25; 0x42; 0x05; 0x3E; 0x00; 0x00; 0x00; 0x00; 0x05; 0x2B; 0x00; 0x00; 0x00; 0x00; 0x01; 0xFF; 0x2B; 0x00; 0x03; 0x22; 0x17; 0x3B; 0x00; 0x02; 0xFF; 0x2C; 0x00; 0x00; 0x1F; 0xA4; 0x16] = Some (n, vs) /\
  length vs = 25%nat /\
  In (Some (Number (SFdiv 53 1024 (f64_of_Z 4144091796875) (f64_of_Z 100000000000)))) vs /\
  In (Some (Number (SFdiv 53 1024 (f64_of_Z 56869384765625) (f64_of_Z 1000000000000)))) vs.
Proof.
  eexists. eexists. split; [vm_compute; reflexivity|]. split; [vm_compute; reflexivity|].
  vm_compute. repeat split; auto 40.
Qed.

(** tests/test_other_meters.rs:17-112, test_electricity_meter: label, units, exponent, value, storage, tariff, device *)
Definition row := (value_label * list (unit_name * Z) * Z * f64 * N * N * N)%type.
Definition electricity : list N := [0x68; 0x65; 0x65; 0x68; 0x08; 0x00; 0x72; 0x78; 0x56; 0x34; 0x12; 0x74; 0x52; 0xC7; 0x02; 0x2A; 0x00; 0x00; 0x00; 0x04; 0x05; 0x73; 0x00; 0x00; 0x00; 0x04; 0xFB; 0x82; 0x75; 0x00; 0x00; 0x00; 0x00; 0x04; 0x2A; 0x8F; 0x00; 0x00; 0x00; 0x04; 0xFB; 0x97; 0x72; 0xAF; 0xFF; 0xFF; 0xFF; 0x04; 0xFB; 0xB7; 0x72; 0xA5; 0x00; 0x00; 0x00; 0x02; 0xFD; 0xBA; 0x73; 0x64; 0x03; 0x84; 0x80; 0x80; 0x40; 0xFD; 0x48; 0x00; 0x00; 0x00; 0x00; 0x04; 0xFD; 0x48; 0xF7; 0x02; 0x00; 0x00; 0x84; 0x40; 0xFD; 0x59; 0x77; 0x00; 0x00; 0x00; 0x84; 0x80; 0x40; 0xFD; 0x59; 0x00; 0x00; 0x00; 0x00; 0x84; 0xC0; 0x40; 0xFD; 0x59; 0x00; 0x00; 0x00; 0x00; 0x1F; 0xF9; 0x16].
Definition rows_of (frame : list N) : list (option row) :=
  match mbus_wired_try_from (env_config (test_env false)) frame with
  | Ok m =>
      match md_data_records m with
      | Some s =>
          match collect (env_config (test_env false)) 300 s with
          | Some items => map (fun it => match it with
              | Ok r =>
                  match drh_processed (dr_header r), d_value (dr_data r) with
                  | {| ph_data_information := Some di; ph_value_information := Some vi |}, Some (Number x) =>
                      match vi_labels vi with
                      | l :: _ => Some (l, map (fun u => (u_name u, u_exponent u)) (vi_units vi), vi_decimal_scale_exponent vi, 
                                        x, di_storage_number di, di_tariff di, di_device di)
                      | [] => None
                      end
                  | _, _ => None
                  end
              | _ => None end) items
          | None => []
          end
      | None => []
      end
  | _ => []
  end.

Example electricity_meter : rows_of electricity =
  [Some (LEnergy, [(UWatt, 1%Z); (UHour, 1%Z)], (2)%Z, f64_of_Z (115), 0, 0, 0);
   Some (LReactiveEnergy, [(UReactiveWatt, 1%Z); (UHour, 1%Z)], (2)%Z, f64_of_Z (0), 0, 0, 0);
   Some (LPower, [(UWatt, 1%Z)], (-1)%Z, f64_of_Z (143), 0, 0, 0);
   Some (LReactivePower, [(UReactiveWatt, 1%Z)], (-1)%Z, f64_of_Z (-81), 0, 0, 0);
   Some (LApparentPower, [(UApparentWatt, 1%Z)], (-1)%Z, f64_of_Z (165), 0, 0, 0);
   Some (LDimensionless, [], (-3)%Z, f64_of_Z (868), 0, 0, 0);
   Some (LVoltage, [(UVolt, 1%Z)], (-1)%Z, f64_of_Z (0), 0, 0, 4);
   Some (LVoltage, [(UVolt, 1%Z)], (-1)%Z, f64_of_Z (759), 0, 0, 0);
   Some (LCurrent, [(UAmpere, 1%Z)], (-3)%Z, f64_of_Z (119), 0, 0, 1);
   Some (LCurrent, [(UAmpere, 1%Z)], (-3)%Z, f64_of_Z (0), 0, 0, 2);
   Some (LCurrent, [(UAmpere, 1%Z)], (-3)%Z, f64_of_Z (0), 0, 0, 3);
   None].
Proof. vm_compute. reflexivity. Qed.

(** src/annotate.rs:1516-1552 and 1554-1575, test_long_frame, test_short_frame, test_single_character_frame *)
Definition kinds (before : bool) (frame : list N) : list (segment_kind * N * N) :=
  match annotate_frame (env_config (test_env before)) frame with
  | Ok segs => map (fun s => (s_kind s, s_start s, s_end s)) segs
  | _ => []
  end.
Example annotate_short : kinds false [0x10; 0x5B; 0x01; 0x5C; 0x16] =
  [(KStartByte, 0, 1); (KCField, 1, 2); (KAField, 2, 3); (KChecksum, 3, 4); (KStopByte, 4, 5)].
Proof. vm_compute. reflexivity. Qed.
Example annotate_single : kinds false [0xE5] = [(KStartByte, 0, 1)].
Proof. vm_compute. reflexivity. Qed.
Definition docs_frame : list N := [0x68; 0x4D; 0x4D; 0x68; 0x08; 0x01; 0x72; 0x01; 0x00; 0x00; 0x00; 0x96; 0x15; 0x01; 0x00; 0x18; 0x00; 0x00; 0x00; 0x0C; 0x78; 0x56; 0x00; 0x00; 0x00; 0x01; 0xFD; 0x1B; 0x00; 0x02; 0xFC; 0x03; 0x48; 0x52; 0x25; 0x74; 0x44; 0x0D; 0x22; 0xFC; 0x03; 0x48; 0x52; 0x25; 0x74; 0xF1; 0x0C; 0x12; 0xFC; 0x03; 0x48; 0x52; 0x25; 0x74; 0x63; 0x11; 0x02; 0x65; 0xB4; 0x09; 0x22; 0x65; 0x86; 0x09; 0x12; 0x65; 0xB7; 0x09; 0x01; 0x72; 0x00; 0x72; 0x65; 0x00; 0x00; 0xB2; 0x01; 0x65; 0x00; 0x00; 0x1F; 0xB3; 0x16].
Example annotate_long :
  firstn 6 (kinds false docs_frame) =
    [(KStartByte, 0, 1); (KLength, 1, 3); (KStartByte, 3, 4); (KCField, 4, 5); (KAField, 5, 6); (KCiField, 6, 7)] /\
  map (fun k => fst (fst k)) (firstn 2 (rev (kinds false docs_frame))) = [KStopByte; KChecksum].
Proof. vm_compute. repeat split. Qed.
(** src/annotate.rs:1716-1741, test_plaintext_vif (only with plaintext before extension) *)
Example annotate_plaintext : existsb (fun k => match fst (fst k) with KPlaintextVif => true | _ => false end) (kinds true docs_frame) = true.
Proof. vm_compute. reflexivity. Qed.
(** src/annotate.rs:1743-1766, test_wireless_parse_directly *)
Example annotate_wireless : map (fun k => fst (fst k)) (firstn 6 (kinds false
    [0x19; 0x44; 0xAE; 0x4C; 0x44; 0x55; 0x22; 0x33; 0x68; 0x07; 0x7A; 0x55; 0x00; 0x00; 0x00; 0x00; 0x04; 0x13; 0x89; 0xE2; 0x01; 0x00;
     0x02; 0x3B; 0x00; 0x00])) =
  [KLField; KCField; KManufacturerCode; KIdentificationNumber; KVersion; KDeviceType].
Proof. vm_compute. reflexivity. Qed.
(** tests/test_wireless.rs:122-165, test_ci_78_wireless_frame_with_trailing_crc_annotations *)
Example annotate_trailing_crc :
  let ks := kinds false [0x14; 0x44; 0xAE; 0x0C; 0x78; 0x56; 0x34; 0x12; 0x01; 0x07; 0x8C; 0x20; 0x27; 0x78; 0x0B; 0x13; 0x43; 0x65; 0x87; 0x7A; 0xC5] in
  In (KCiField, 13, 14) ks /\ In (KDataPayload, 16, 19) ks /\ hd_error (rev ks) = Some (KCrc, 19, 21) /\
  existsb (fun k => match fst (fst k) with KUnknown => true | _ => false end) ks = false.
Proof. vm_compute. repeat split; auto 20. Qed.

(** crates/m-bus-core/src/decryption.rs:320-400, test_mode5_decryption_real_frame *)
Definition mode5_context : option key_context :=
  match mc_from_id 0x6A49 with
  | Ok c => Some {| kc_manufacturer := c; kc_identification_number := 14639203; kc_version := 0; kc_device_type := DevWaterMeter;
                    kc_security_mode := AesCbc128IvNonZero; kc_access_number := 0x50 |}
  | _ => None
  end.
Example mode5 : exists c,
  mode5_context = Some c /\
  derive_iv c = [0x49; 0x6A; 0x03; 0x92; 0x63; 0x14; 0x00; 0x07; 0x50; 0x50; 0x50; 0x50; 0x50; 0x50; 0x50; 0x50] /\
  decrypt_into aes128_decrypt (fun _ => Ok [0xF8; 0xB2; 0x4F; 0x12; 0xF9; 0xD1; 0x13; 0xF6; 0x80; 0xBE; 0xE7; 0x65; 0xFD; 0xE6; 0x7E; 0xC0])
    [0x98; 0xA7; 0x8E; 0x0D; 0x71; 0xAA; 0x63; 0x58; 0xEE; 0xBD; 0x0B; 0x20; 0xBF; 0xDF; 0x99; 0xED; 0xA2; 0xD2; 0x2F; 0xA2; 0x53; 0x14; 0xF3; 0xF1; 0xB8; 0x44; 0x70; 0x89; 0x8E; 0x49; 0x53; 0x03; 0x92; 0x37; 0x70; 0xBA; 0x8D; 0xDA; 0x97; 0xC9; 0x64; 0xF0; 0xEA; 0x6C; 0xE2; 0x4F; 0x56; 0x50; 0xC0; 0xA6; 0xCD; 0xF3; 0xDE; 0x37; 0xDE; 0x33; 0xFB; 0xFB; 0xEB; 0xAC; 0xE4; 0x00; 0x9B; 0xB0; 0xD8; 0xEB; 0xA2; 0xCB; 0xE8; 0x04; 0x33; 0xFF; 0x13; 0x13; 0x28; 0x20; 0x60; 0x20; 0xB1; 0xBF] c (repeat 0 80)
  = (Ok 80, [0x2F; 0x2F; 0x0C; 0x13; 0x29; 0x73; 0x06; 0x00; 0x02; 0x6C; 0x94; 0x21; 0x82; 0x04; 0x6C; 0x81; 0x21; 0x8C; 0x04; 0x13; 0x75; 0x44; 0x06; 0x00; 0x8D; 0x04; 0x93; 0x13; 0x2C; 0xFB; 0xFE; 0x12; 0x44; 0x00; 0x51; 0x41; 0x00; 0x70; 0x35; 0x00; 0x77; 0x33; 0x00; 0x75; 0x49; 0x00; 0x16; 0x36; 0x00; 0x73; 0x56; 0x00; 0x91; 0x55; 0x00; 0x95; 0x57; 0x00; 0x31; 0x57; 0x00; 0x28; 0x42; 0x00; 0x18; 0x47; 0x00; 0x61; 0x39; 0x00; 0x56; 0x42; 0x00; 0x02; 0xFD; 0x17; 0x00; 0x00; 0x2F; 0x2F]).
Proof. eexists. split; [vm_compute; reflexivity|]. vm_compute. repeat split. Qed.

(** src/mbus_data.rs:1856-1887, decrypted_utf8_text_is_not_rendered_as_latin1, on the decoded records *)
Definition test_key : list N := [1; 2; 3; 4; 5; 6; 7; 8; 9; 10; 11; 12; 13; 14; 15; 0x11].
Definition decoded_with_key (frame : list N) : option decoded_output :=
  match decode_bytes (test_env false) frame (Some test_key) false with Ok d => Some d | _ => None end.
Example utf8_text : exists d,
  decoded_with_key [0x2E; 0x44; 0x93; 0x15; 0x78; 0x56; 0x34; 0x12; 0x33; 0x03; 0x33; 0x63; 0x7A; 0x2A; 0x00; 0x20; 0x25; 0x57; 0xFB; 0x80; 0x16; 0xCA; 0x78; 0xE1; 0x24; 0x37; 0x00; 0xB5; 0x2E; 0x98; 0x1E; 0x19; 0x18; 0x23; 0x3A; 0xFE; 0x5E; 0x82; 0x6D; 0xD0; 0xD4; 0xAD; 0x78; 0x54; 0xC6; 0x97; 0xE7; 0xC8; 0xEB] = Some d /\
  exists before after, In (JString (before ++ [0x6D; 0xB3] ++ after)) (flat_map (fun r => match vo_value (ro_value r) with Some v => [v] | None => [] end) (do_records d)).
Proof.
  eexists. split; [vm_compute; reflexivity|]. exists [], []. vm_compute. auto 20.
Qed.

(** tests/rscada_xml.rs:168-200 and src/mbus_data.rs:1963-2012: the volume appears only with the key *)
Definition sealed_frame : list N := [0x2E; 0x44; 0x93; 0x15; 0x78; 0x56; 0x34; 0x12; 0x33; 0x03; 0x33; 0x63; 0x7A; 0x2A; 0x00; 0x20; 0x25; 0x59; 0x23; 0xC9; 0x5A; 0xAA; 0x26; 0xD1; 0xB2; 0xE7; 0x49; 0x3B; 0xC2; 0xAD; 0x01; 0x3E; 0xC4; 0xA6; 0xF6; 0xD3; 0x52; 0x9B; 0x52; 0x0E; 0xDF; 0xF0; 0xEA; 0x6D; 0xEF; 0xC9; 0x55; 0xB2; 0x9D; 0x6D; 0x69; 0xEB; 0xF3; 0xEC; 0x8A].
Example sealed_without_key : exists d,
  decode_bytes (test_env false) sealed_frame None false = Ok d /\ do_records d = [] /\ so_payload_protection (do_security d) = txt "encrypted".
Proof. eexists. split; [vm_compute; reflexivity|]. vm_compute. repeat split. Qed.
Example sealed_with_key : exists d r,
  decoded_with_key sealed_frame = Some d /\ hd_error (do_records d) = Some r /\ ro_quantities r = [txt "Volume"] /\ shown r = Some (txt "28504.27").
Proof. eexists. eexists. split; [vm_compute; reflexivity|]. split; [vm_compute; reflexivity|]. vm_compute. repeat split. Qed.
