(** Model of the text interface of src/mbus_data.rs (serialize_mbus_data), and of the codes and texts of the errors of
    src/output.rs. *)
From Coq Require Import List NArith Bool String.
Import ListNotations.
From Verif Require Import Model.Base Model.Text Model.F64 Model.Record Model.Hex Model.Decimal Model.Annotate Model.MbusData
  Model.Show Model.Output Model.Rscada Model.Format Model.Csv Model.AnnotateText Model.Json Model.JsonView Model.Render Model.Legacy
  Model.LegacyJson.
Open Scope N_scope.
Open Scope list_scope.

(** What is not modelled, as functions: the YAML text made by serde of what was found in a frame,
    [std::fmt::Display] of a number and the text serde_json gives to a finite f64, the texts of errors made elsewhere ([std::fmt::Display] of the link layer errors, the decryption errors, the XML errors and of
    [ParseIntError]), and [std::fmt::Debug] of a string. *)
Record legacy_renderers := {
  lr_display : f64 -> text;
  lr_number : f64 -> text;
  lr_yaml : parsed_output -> text;
  lr_frame_message : mbus_error -> text;
  lr_message : render_error -> text;
  lr_debug : text -> text
}.

(** output.rs:115-147, [OutputError], with the constructor that only [from_str] makes *)
Inductive serialize_error :=
| SUnsupportedFormat (format : text)
| SRender (e : render_error).

(** output.rs:150-161, [code] *)
Definition error_code (e : serialize_error) : text :=
  match e with
  | SUnsupportedFormat _ => txt "format.unsupported"
  | SRender (RDecode OEmptyInput) | SRender (RDecode (OInvalidHex EmptyInput)) => txt "input.empty"
  | SRender (RDecode (OInvalidHex (InvalidHex _))) => txt "input.invalid_hex"
  | SRender (RDecode (OInvalidHex (InvalidOption _))) | SRender (RDecode (OInvalidOption _ _)) => txt "option.invalid"
  | SRender (RDecode (OInvalidFrame _ _)) => txt "frame.invalid"
  | SRender (RDecode (ODecryption code)) => code
  | SRender (RDecode (ORecordsInvalid _ _)) => txt "application.records_invalid"
  | SRender (RDecode OFuel) => []
  | SRender (RXml _) => txt "xml.unsupported"
  | SRender (RAnnotation _) => txt "annotation.failed"
  | SRender RCsv => txt "render.serialization"
  end.

(** output.rs:163-175, [layer] *)
Definition error_layer (e : serialize_error) : text :=
  match e with
  | SRender (RDecode OEmptyInput) | SRender (RDecode (OInvalidHex EmptyInput)) | SRender (RDecode (OInvalidHex (InvalidHex _))) =>
      txt "input"
  | SRender (RDecode (OInvalidFrame _ _)) => txt "link"
  | SUnsupportedFormat _ | SRender (RDecode (OInvalidHex (InvalidOption _))) | SRender (RDecode (OInvalidOption _ _)) | SRender RCsv =>
      txt "render"
  | SRender (RDecode (ODecryption _)) => txt "security"
  | SRender (RDecode (ORecordsInvalid _ _)) | SRender (RXml _) | SRender (RAnnotation _) => txt "application"
  | SRender (RDecode OFuel) => []
  end.

(** output.rs:177-183, [byte_offset] *)
Definition error_byte_offset (e : serialize_error) : option N :=
  match e with
  | SRender (RDecode (OInvalidHex (InvalidHex index))) => Some index
  | _ => None
  end.

(** output.rs:186-208, [std::fmt::Display] of [OutputError] *)
Definition error_message (lr : legacy_renderers) (e : serialize_error) : text :=
  match e with
  | SUnsupportedFormat format =>
      txt "unsupported output format " ++ lr_debug lr format ++
      txt "; expected table, json, yaml, csv, mermaid, xml, annotated, or annotated-text"
  | SRender r =>
      match r with
      | RDecode OEmptyInput | RDecode (OInvalidHex EmptyInput) => txt "input must not be empty"
      | RDecode (OInvalidHex (InvalidHex index)) =>
          txt "invalid hexadecimal input at character " ++ dec index ++ txt ": " ++ lr_message lr r
      | RDecode (OInvalidFrame wired wireless) =>
          txt "data is not a valid wired or wireless M-Bus frame (wired: " ++ lr_frame_message lr wired ++
          txt "; wireless: " ++ lr_frame_message lr wireless ++ txt ")"
      | RDecode (OInvalidOption option message) => txt "invalid " ++ option ++ txt ": " ++ message
      | _ => lr_message lr r
      end
  end.

(** mbus_data.rs:160 and 162 *)
Definition error_text (lr : legacy_renderers) (e : serialize_error) : text :=
  txt "Error [" ++ error_code e ++ txt "]: " ++ error_message lr e.

(** mbus_data.rs:1168-1173, [parse_to_annotated] *)
Definition parse_to_annotated (cf : config) (lr : legacy_renderers) (input : text) : outcome unit text :=
  segments_text cf (lr_display lr) (clean_and_convert input).

(** mbus_data.rs:1175-1201, [parse_to_hexview], with the feature "decryption"; [Err tt] is the model running out of fuel *)
Definition parse_to_hexview (env : environment) (lr : legacy_renderers) (input : text) (key : option (list N)) : outcome unit text :=
  hexview_text env (lr_display lr) (clean_and_convert input) key.

(** mbus_data.rs:618-625, [parse_to_json] *)
Definition parse_to_json (env : environment) (lr : legacy_renderers) (input : text) (key : option (list N)) : outcome unit text :=
  o <- parse_frame_output env (lr_display lr) input key ;;
  Ok (match o with Some o => to_string_pretty (older_json (lr_number lr) o) | None => txt "{}" end).

(** mbus_data.rs:627-634, [parse_to_yaml] *)
Definition parse_to_yaml (env : environment) (lr : legacy_renderers) (input : text) (key : option (list N)) : outcome unit text :=
  o <- parse_frame_output env (lr_display lr) input key ;;
  Ok (match o with
      | Some o => lr_yaml lr o
      | None => txt "---" ++ [10] ++ txt "error: Could not parse data" ++ [10]
      end).

(** mbus_data.rs:139-164, [serialize_mbus_data] *)
Definition serialize_mbus_data (env : environment) (rn : renderers) (lr : legacy_renderers) (data format : text)
  (key : option (list N)) : outcome unit text :=
  let is s := text_eqb format (txt s) in
  if is "json-legacy"%string then parse_to_json env lr data key
  else if is "yaml-legacy"%string then parse_to_yaml env lr data key
  else if is "csv-wide"%string then
    (rows <- parse_to_csv env (lr_display lr) data key ;; Ok (concat (map csv_line rows)))
  else if is "annotated-legacy"%string then parse_to_annotated (env_config env) lr data
  else if is "hexview-legacy"%string then parse_to_hexview env lr data key
  else
    match format_from_str format with
    | Ok output_format =>
        match render_hex env rn data output_format {| op_key := key; op_include_enrichment := true; op_table_width := Some 100 |} with
        | Ok t => Ok t
        | Err e => Ok (error_text lr (SRender e))
        | Panic p => Panic p
        end
    | Err e => Ok (error_text lr (SUnsupportedFormat e))
    | Panic p => Panic p
    end.
