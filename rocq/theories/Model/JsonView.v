(** Model of the JSON of annotated bytes (src/mbus_data.rs:1175-1265), with the texts of the ranges. *)
From Coq Require Import List NArith ZArith Bool String.
Import ListNotations.
From Verif Require Import Model.Base Model.Text Model.Core Model.F64 Model.Hex Model.Wired Model.Record Model.MbusData Model.Show
  Model.Annotate Model.Output Model.Json Model.AnnotateText.
Open Scope N_scope.
Open Scope list_scope.

(** annotate.rs:15-56, the names of the kinds with [rename_all = "snake_case"] *)
Definition kind_name (k : segment_kind) : string :=
  match k with
  | KStartByte => "start_byte" | KLength => "length" | KCField => "c_field" | KAField => "a_field"
  | KChecksum => "checksum" | KStopByte => "stop_byte" | KCiField => "ci_field"
  | KIdentificationNumber => "identification_number" | KManufacturerCode => "manufacturer_code" | KVersion => "version"
  | KDeviceType => "device_type" | KAccessNumber => "access_number" | KStatus => "status"
  | KConfigurationField => "configuration_field" | KEncryptionConfigByte => "encryption_config_byte"
  | KDif => "dif" | KDife => "dife" | KVif => "vif" | KVife => "vife" | KPlaintextVif => "plaintext_vif"
  | KDataPayload => "data_payload" | KLField => "l_field" | KWirelessManufacturerId => "wireless_manufacturer_id"
  | KCrc => "crc" | KExtendedLinkLayer => "extended_link_layer"
  | KEncryptedPayload => "encrypted_payload" | KManufacturerSpecific => "manufacturer_specific"
  | KIdleFiller => "idle_filler" | KUnknown => "unknown"
  end.
(** annotate.rs:95-102 *)
Definition layer_name (l : layer) : string :=
  match l with LFrame => "frame" | LAppHeader => "app_header" | LRecordField => "record_field" end.
(** annotate.rs:105-120, the values of the fields *)
Definition group_json (g : option N) : json := match g with Some n => VInt n | None => VNull end.
(** annotate.rs:105-120, written directly: the fields in the order of the struct *)
Definition segment_json (x : told) : json :=
  let '(s, detail) := x in
  VObject (always "start" (VInt (s_start s)) ++ always "end" (VInt (s_end s)) ++ always "kind" (VString (txt (kind_name (s_kind s))))
           ++ always "detail" (VString detail) ++ always "group" (group_json (s_group s))
           ++ always "layer" (VString (txt (layer_name (s_layer s))))).
(** annotate.rs:105-120 within [json!] (mbus_data.rs:1186-1190, 1224-1233, 1245-1250): a [serde_json::Map], whose keys are
    sorted (without the feature "preserve_order" of serde_json, which /repo does not ask for) *)
Definition segment_json_sorted (x : told) : json :=
  let '(s, detail) := x in
  VObject (always "detail" (VString detail) ++ always "end" (VInt (s_end s)) ++ always "group" (group_json (s_group s))
           ++ always "kind" (VString (txt (kind_name (s_kind s)))) ++ always "layer" (VString (txt (layer_name (s_layer s))))
           ++ always "start" (VInt (s_start s))).
(** the bytes and the segments within [json!], mbus_data.rs:1187-1188 and others *)
Definition bytes_json (data : list N) : json := VArray (map VInt data).
Definition segments_json (l : list told) : json := VArray (map segment_json_sorted l).

(** mbus_data.rs:1224-1233 and 1245-1250, the keys sorted *)
Definition annotated_json (data : list N) (l : list told) (original : option (list N * list told)) : json :=
  VObject (always "bytes" (bytes_json data)
           ++ always "decrypted" (VBool (match original with Some _ => true | None => false end))
           ++ if_some "original" (fun '(data, l) => VObject (always "bytes" (bytes_json data) ++ always "segments" (segments_json l)))
                original
           ++ always "schema_version" (VInt 3) ++ always "segments" (segments_json l)).
(** mbus_data.rs:1186-1190, the keys sorted *)
Definition hexview_json (data : list N) (l : list told) : json :=
  VObject (always "bytes" (bytes_json data) ++ always "decrypted" (VBool true) ++ always "segments" (segments_json l)).

(** mbus_data.rs:1204-1256, [render_annotated_bytes], with the texts of the segments; [Err None] is the model running out of
    fuel while decrypting *)
Definition annotated_document (env : environment) (display : f64 -> text) (data : list N) (key : option (list N))
  : outcome (option annotate_error) json :=
  let cf := env_config env in
  original_segments <- map_err Some (frame_told cf display data) ;;
  let plain := Ok (annotated_json data original_segments None) in
  match key with
  | None => plain
  | Some key =>
      shown <- map_err (fun _ => None) (decrypted_hexview cf (env_aes env) data key) ;;
      match shown with
      | None => plain
      | Some display_data =>
          display_segments <- map_err Some (frame_told cf display display_data) ;;
          display_segments <- map_err Some (replace_encrypted_told cf display display_segments display_data) ;;
          Ok (annotated_json display_data display_segments (Some (data, original_segments)))
      end
  end.

(** lib.rs:88-97 and crates/m-bus-core/src/lib.rs:502-506, [std::fmt::Display] of the error of [annotate_frame]; only the
    one error that it returns (annotate.rs:150-152) has its text here *)
Definition annotate_message (e : annotate_error) : text :=
  match e with AError (MFrameError InvalidStartByte) => txt "Invalid start byte" | _ => [] end.
(** mbus_data.rs:1258-1265, [annotated_segments_to_json]; the error is put between quotes as it is *)
Definition error_json_text (e : annotate_error) : text := txt "{""error"": """ ++ annotate_message e ++ txt """}".
Definition segments_text (cf : config) (display : f64 -> text) (data : list N) : outcome unit text :=
  match frame_told cf display data with
  | Ok l => Ok (to_string_pretty (VArray (map segment_json l)))
  | Err e => Ok (error_json_text e)
  | Panic p => Panic p
  end.
(** mbus_data.rs:1175-1201, [parse_to_hexview], from the bytes, with the texts of the segments *)
Definition hexview_text (env : environment) (display : f64 -> text) (data : list N) (key : option (list N)) : outcome unit text :=
  let cf := env_config env in
  match key with
  | None => segments_text cf display data
  | Some key =>
      shown <- decrypted_hexview cf (env_aes env) data key ;;
      match shown with
      | None => segments_text cf display data
      | Some display_data =>
          match frame_told cf display display_data with
          | Ok l =>
              l <- map_err (fun _ => tt) (replace_encrypted_told cf display l display_data) ;;
              Ok (to_string_pretty (hexview_json display_data l))
          | Err e => Ok (error_json_text e)
          | Panic p => Panic p
          end
      end
  end.
