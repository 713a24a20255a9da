(** Model of the front ends: the command line tool (cli/src/main.rs), the Python module (python/src/lib.rs) and the
    JavaScript module (wasm/src/lib.rs).  Not modelled: clap (the arguments are read already), the conversions of pyo3 and
    wasm-bindgen, [json.loads] of Python, and failures of standard output. *)
From Coq Require Import List NArith Bool String.
Import ListNotations.
From Verif Require Import Model.Base Model.Text Model.F64 Model.Hex Model.MbusData Model.Show Model.Output Model.Format
  Model.Json Model.Render Model.Serialize.
Open Scope N_scope.
Open Scope list_scope.

(** the compact form of a document: serde_json::to_string, python/src/lib.rs:66 and 95 *)
Fixpoint parts (l : list text) : text :=
  match l with
  | [] => []
  | [p] => p
  | p :: rest => p ++ txt "," ++ parts rest
  end.
Fixpoint to_string (v : json) : text :=
  match v with
  | VNull => txt "null"
  | VBool b => if b then txt "true" else txt "false"
  | VNumber t => t
  | VString t => json_string t
  | VArray l => txt "[" ++ parts (map to_string l) ++ txt "]"
  | VObject m => txt "{" ++ parts (map (fun '(k, x) => json_string k ++ txt ":" ++ to_string x) m) ++ txt "}"
  end.

(** the errors of [decode_bytes], [decode_hex_bytes] and [decode_data_records], as [OutputError] *)
Definition of_output (e : output_error) : serialize_error := SRender (RDecode e).
Definition of_input (e : input_error) : serialize_error := of_output (OInvalidHex e).

(** cli/src/main.rs:82, 106 and python/src/lib.rs:18, [format!("[{}] {error}", error.code())] *)
Definition coded (lr : legacy_renderers) (e : serialize_error) : text :=
  txt "[" ++ error_code e ++ txt "] " ++ error_message lr e.

(** ** The command line tool *)

(** cli/src/main.rs:20-45, [Command::Parse] *)
Record arguments := {
  ar_file : option text;
  ar_data : option text;
  ar_format : text;
  ar_key : option text;
  ar_width : option N;
  ar_no_enrichment : bool
}.

(** what the tool finds around it: the contents of files, or the text of the error met (cli/src/main.rs:70), and whether
    standard output is a terminal, with its width if known (cli/src/main.rs:89-90) *)
Record surroundings := {
  su_read : text -> text + text;
  su_terminal : bool;
  su_columns : option N
}.

(** cli/src/main.rs:69-80; both a file and data cannot be given, as clap refuses that *)
Definition cli_input (su : surroundings) (ar : arguments) : outcome text text :=
  match ar_file ar, ar_data ar with
  | Some path, None =>
      match su_read su path with
      | inl contents => Ok contents
      | inr error => Err (txt "[input.file] failed to read " ++ path ++ txt ": " ++ error)
      end
  | None, Some data => Ok data
  | None, None => Err (txt "[option.invalid] either --file or --data must be provided")
  | Some _, Some _ => Panic PUnreachable
  end.

(** cli/src/main.rs:83-87 *)
Definition cli_key (ar : arguments) : outcome text (option bytes) :=
  match ar_key ar with
  | None => Ok None
  | Some value =>
      match cli_parse_key value with
      | Some key => Ok (Some key)
      | None => Err (txt "[option.invalid] key must contain exactly 32 hexadecimal characters")
      end
  end.

(** cli/src/main.rs:88-94 *)
Definition cli_width (su : surroundings) (ar : arguments) : option N :=
  match ar_width ar with
  | Some w => Some w
  | None => if su_terminal su then su_columns su else Some 100
  end.

(** cli/src/main.rs:58-111, [run]; the text printed *)
Definition cli_run (env : environment) (rn : renderers) (lr : legacy_renderers) (su : surroundings) (ar : arguments)
  : outcome text text :=
  input <- cli_input su ar ;;
  format <- map_err (fun e => coded lr (SUnsupportedFormat e)) (format_from_str (ar_format ar)) ;;
  key <- cli_key ar ;;
  map_err (fun e => coded lr (SRender e))
    (render_hex env rn input format
       {| op_key := key; op_include_enrichment := negb (ar_no_enrichment ar); op_table_width := cli_width su ar |}).

(** cli/src/main.rs:48-56, [main]: the exit code, and what standard output and standard error get *)
Record ending := { en_exit : N; en_out : text; en_error : text }.
Definition cli_main (env : environment) (rn : renderers) (lr : legacy_renderers) (su : surroundings) (ar : arguments)
  : outcome unit ending :=
  match cli_run env rn lr su ar with
  | Ok t => Ok {| en_exit := 0; en_out := t; en_error := [] |}
  | Err error => Ok {| en_exit := 1; en_out := []; en_error := txt "error: " ++ error ++ [10] |}
  | Panic p => Panic p
  end.

(** ** The Python module *)

(** an argument: what [extract::<String>] and [extract::<Vec<u8>>] make of it, python/src/lib.rs:26 and 30 *)
Inductive py_value :=
| PyText (t : text)
| PyBytes (b : bytes)
| PyOther.

(** python/src/lib.rs:11-15 and 37 *)
Inductive py_error :=
| TypeError (message : text)
| MbusParserError (message : text).

(** python/src/lib.rs:17-19, [parser_error] *)
Definition parser_error (lr : legacy_renderers) (e : serialize_error) : py_error := MbusParserError (coded lr e).

(** python/src/lib.rs:25-40, [extract_bytes] *)
Definition extract_bytes (lr : legacy_renderers) (value : py_value) (label : string) : outcome py_error bytes :=
  match value with
  | PyText t => map_err (fun e => parser_error lr (of_input e)) (decode_hex_bytes t)
  | PyBytes [] => Err (parser_error lr (of_output OEmptyInput))
  | PyBytes b => Ok b
  | PyOther => Err (TypeError (txt label ++ txt " must be a hexadecimal string or bytes-like object"))
  end.

(** python/src/lib.rs:47-54 and 148-156 *)
Definition sixteen (b : bytes) : outcome py_error (option bytes) :=
  if len b =? 16 then Ok (Some b)
  else Err (MbusParserError (txt "[option.invalid] key must contain exactly 16 bytes, received " ++ dec (len b))).

(** python/src/lib.rs:42-55, [extract_key] *)
Definition extract_key (lr : legacy_renderers) (key : option py_value) : outcome py_error (option bytes) :=
  match key with
  | None => Ok None
  | Some value => b <- extract_bytes lr value "key" ;; sixteen b
  end.

(** python/src/lib.rs:63-72, [records_json] *)
Definition records_json (env : environment) (rn : renderers) (lr : legacy_renderers) (data : bytes) : outcome py_error text :=
  records <- map_err (fun e => parser_error lr (of_output e)) (decode_data_records env data) ;;
  Ok (to_string (VArray (map (record_json (rn_number rn)) records))).

(** python/src/lib.rs:78-98, [parse]; the text given to [json.loads] *)
Definition py_parse (env : environment) (rn : renderers) (lr : legacy_renderers) (data : py_value) (key : option py_value)
  (include_enrichment : bool) : outcome py_error text :=
  data <- extract_bytes lr data "data" ;;
  key <- extract_key lr key ;;
  decoded <- map_err (fun e => parser_error lr (of_output e)) (decode_bytes env data key include_enrichment) ;;
  Ok (to_string (decoded_json (rn_number rn) decoded)).

(** python/src/lib.rs:101-105, [parse_records]; the text given to [json.loads] *)
Definition py_parse_records (env : environment) (rn : renderers) (lr : legacy_renderers) (data : py_value)
  : outcome py_error text :=
  data <- extract_bytes lr data "data" ;;
  records_json env rn lr data.

(** python/src/lib.rs:108-131, [render] *)
Definition py_render (env : environment) (rn : renderers) (lr : legacy_renderers) (data : py_value) (format : text)
  (key : option py_value) (width : option N) (include_enrichment : bool) : outcome py_error text :=
  data <- extract_bytes lr data "data" ;;
  format <- map_err (fun e => parser_error lr (SUnsupportedFormat e)) (format_from_str format) ;;
  key <- extract_key lr key ;;
  map_err (fun e => parser_error lr (SRender e))
    (render_bytes env rn data format
       {| op_key := key; op_include_enrichment := include_enrichment; op_table_width := width |}).

(** python/src/lib.rs:134-138, [parse_application_layer] *)
Definition py_parse_application_layer (env : environment) (rn : renderers) (lr : legacy_renderers) (data_record : text)
  : outcome py_error text :=
  b <- map_err (fun e => parser_error lr (of_input e)) (decode_hex_bytes data_record) ;;
  records_json env rn lr b.

(** python/src/lib.rs:141-171, [m_bus_parse]; [RenderOptions::default()] has no width *)
Definition py_m_bus_parse (env : environment) (rn : renderers) (lr : legacy_renderers) (data format : text) (key : option text)
  : outcome py_error text :=
  key <- match key with
         | None => Ok None
         | Some value => b <- map_err (fun e => parser_error lr (of_input e)) (decode_hex_bytes value) ;; sixteen b
         end ;;
  format <- map_err (fun e => parser_error lr (SUnsupportedFormat e)) (format_from_str format) ;;
  map_err (fun e => parser_error lr (SRender e))
    (render_hex env rn data format {| op_key := key; op_include_enrichment := true; op_table_width := None |}).

(** ** The JavaScript module *)

(** the error object, wasm/src/lib.rs:24-46, [error_to_js]; its name is always MbusParserError, and the offset a number *)
Record js_error := { je_message : text; je_code : text; je_layer : text; je_byte_offset : option N }.
Definition error_to_js (lr : legacy_renderers) (e : serialize_error) : js_error :=
  {| je_message := error_message lr e; je_code := error_code e; je_layer := error_layer e;
     je_byte_offset := error_byte_offset e |}.

(** wasm/src/lib.rs:48-61, [parse_key], as an [OutputError] *)
Definition js_key_error (e : input_error) : serialize_error :=
  match e with
  | InvalidOption n => of_output (OInvalidOption (txt "key") (txt "must contain exactly 16 bytes, received " ++ dec n))
  | _ => of_input e
  end.
Definition js_key (lr : legacy_renderers) (key_hex : option text) : outcome js_error (option bytes) :=
  map_err (fun e => error_to_js lr (js_key_error e)) (wasm_parse_key key_hex).

(** [unwrap_or(true)], wasm/src/lib.rs:69 *)
Definition or_true (o : option bool) : bool := match o with Some b => b | None => true end.

(** wasm/src/lib.rs:75-91, [m_bus_decode]; what is given to [serde_wasm_bindgen::to_value] *)
Definition js_decode (env : environment) (lr : legacy_renderers) (data : text) (key_hex : option text)
  (include_enrichment : option bool) : outcome js_error decoded_output :=
  key <- js_key lr key_hex ;;
  map_err (fun e => error_to_js lr (of_output e)) (decode_hex env data key (or_true include_enrichment)).

(** wasm/src/lib.rs:95-108, [m_bus_render] *)
Definition js_render (env : environment) (rn : renderers) (lr : legacy_renderers) (data format : text) (key_hex : option text)
  (width : option N) (include_enrichment : option bool) : outcome js_error text :=
  format <- map_err (fun e => error_to_js lr (SUnsupportedFormat e)) (format_from_str format) ;;
  key <- js_key lr key_hex ;;
  map_err (fun e => error_to_js lr (SRender e))
    (render_hex env rn data format
       {| op_key := key; op_include_enrichment := or_true include_enrichment; op_table_width := width |}).

(** wasm/src/lib.rs:112-130, [m_bus_parse] and [m_bus_parse_with_key]; [stringify] is [JSON.stringify] of JavaScript *)
Definition js_parse (env : environment) (rn : renderers) (lr : legacy_renderers) (stringify : js_error -> option text)
  (data format : text) (key_hex : option text) : outcome unit text :=
  match js_render env rn lr data format key_hex None None with
  | Ok t => Ok t
  | Err e => Ok (match stringify e with Some t => t | None => txt "M-Bus rendering failed" end)
  | Panic p => Panic p
  end.
