(** C122, C123, C124: the command line tool, the Python module and the JavaScript module. *)
From Coq Require Import List NArith Bool String.
Import ListNotations.
From Verif Require Import Model.Base Model.Text Model.F64 Model.Hex Model.MbusData Model.Show Model.Output Model.Format Model.Json Model.Render
  Model.Serialize Model.Bindings Spec.TextSpec Spec.FormatSpec Spec.OutputSpec Spec.JsonSpec Spec.SerializeSpec Spec.BindingsSpec
  Proof.AnnotateProps Proof.MbusProps Proof.OutputProps Proof.FormatProps Proof.LegacyProps Proof.JsonProps Proof.BindingsFacts Proof.BindingsProps.
Open Scope N_scope.
Open Scope list_scope.

(** C122: the tool ends well exactly if a text is given, the format named, the key (if any) 32 digits, the text one of bytes,
    and the library renders them; standard output then gets that rendering and nothing else *)
Theorem C122_success : forall env rn lr su ar t,
  cli_main env rn lr su ar = success t <->
  exists input f k data, given_text su ar input /\ names_format (ar_format ar) f /\ key_text (ar_key ar) k /\ hex_input input data /\
    render_bytes env rn data f (asked k (negb (ar_no_enrichment ar)) (table_width su ar)) = Ok t.
Proof. exact tool_success. Qed.
Print Assumptions C122_success.
Example C122_example : exists t, tool piped (told_file "frame.hex" " CSV" None) = success t /\ t <> [] /\
  given_text piped (told_file "frame.hex" " CSV" None) (hex_string ex_wired_clear ++ [10]) /\ names_format (txt " CSV") FCsv /\
  key_text None None /\ hex_input (hex_string ex_wired_clear ++ [10]) ex_wired_clear /\ table_width piped (told_file "frame.hex" " CSV" None) = 100.
Proof. exact tool_example. Qed.

(** ... and else with exit code 1, an empty standard output, and one complaint with a code for what is wrong *)
Theorem C122_failure : forall env rn lr su ar e, cli_main env rn lr su ar = Ok e ->
  (exists t, Ok e = success t) \/ (exists code message, Ok e = complaint code message /\ cli_cause su ar code message).
Proof. exact tool_failure. Qed.
Print Assumptions C122_failure.
Example C122_failure_example :
  tool piped told_nothing = complaint (txt "option.invalid") (txt "either --file or --data must be provided") /\
  tool piped (told_file "other.hex" "table" None) = complaint (txt "input.file") (txt "failed to read other.hex: No such file or directory") /\
  tool piped (told_file "frame.hex" "html" None) =
    complaint (txt "format.unsupported") (txt "unsupported output format ""html""; expected table, json, yaml, csv, mermaid, xml, annotated, or annotated-text") /\
  tool piped (told_file "frame.hex" "table" (Some (txt "5A 5A"))) = complaint (txt "option.invalid") (txt "key must contain exactly 32 hexadecimal characters") /\
  tool piped (told_data (txt "68 0G") "table" None) = complaint (txt "input.invalid_hex") (txt "invalid hexadecimal input at character 3: message") /\
  tool narrow (told_file "frame.hex" "table" None) = complaint (txt "option.invalid") (txt "invalid table_width: must be at least 32 columns") /\
  tool piped (told_data (txt "68 06") "table" None) =
    complaint (txt "frame.invalid") (txt "data is not a valid wired or wireless M-Bus frame (wired: not a frame; wireless: not a frame)").
Proof. exact tool_failure_example. Qed.

(** it panics only where the library does, or if given two inputs, which clap refuses *)
Theorem C122_panic : forall env rn lr su ar, is_panic (cli_main env rn lr su ar) ->
  (ar_file ar <> None /\ ar_data ar <> None) \/
  exists input f k data, given_text su ar input /\ names_format (ar_format ar) f /\ key_text (ar_key ar) k /\ hex_input input data /\
    is_panic (render_bytes env rn data f (asked k (negb (ar_no_enrichment ar)) (table_width su ar))).
Proof. exact tool_panic. Qed.
Print Assumptions C122_panic.
Example C122_panic_example : is_panic (tool piped (told_data (txt "68 01 01 68") "json" None)).
Proof. eexists. vm_compute. reflexivity. Qed.

(** C123: the tool, the Python module (given text or bytes) and the JavaScript module give the library's rendering, or all make
    the same complaint *)
Theorem C123_render : forall env rn lr su ar input data f k pk width,
  ar_file ar = None -> ar_data ar = Some input -> hex_input input data -> names_format (ar_format ar) f ->
  key_text (ar_key ar) k -> (pk = option_map PyText (ar_key ar) \/ pk = option_map PyBytes k) ->
  table_width su ar = (match width with Some w => w | None => 100 end) ->
  let enrichment := negb (ar_no_enrichment ar) in
  let python x := py_render env rn lr x (ar_format ar) pk width enrichment in
  let javascript := js_render env rn lr input (ar_format ar) (ar_key ar) width (Some enrichment) in
  let tool := cli_main env rn lr su ar in
  match render_bytes env rn data f {| op_key := k; op_include_enrichment := enrichment; op_table_width := width |} with
  | Ok t => python (PyText input) = Ok t /\ python (PyBytes data) = Ok t /\ javascript = Ok t /\ tool = success t
  | Err e => exists code layer message,
      all_complain [python (PyText input); python (PyBytes data)] javascript tool code layer message None /\
      code = error_code (SRender e) /\ layer = error_layer (SRender e) /\ message = error_message lr (SRender e) /\
      (failure data k f code layer \/ (f = FTable /\ table_width su ar < 32 /\ code = txt "option.invalid" /\ layer = txt "render"))
  | Panic p => python (PyText input) = Panic p /\ python (PyBytes data) = Panic p /\ javascript = Panic p /\ tool = Panic p
  end.
Proof. exact all_render. Qed.
Print Assumptions C123_render.
Example C123_example : exists t, let ar := told_data (hex_string (long_frame (ex_sealed ex_long_head))) "json" (Some (hex_string ex_key)) in
  key_text (ar_key ar) (Some ex_key) /\ hex_input (hex_string (long_frame (ex_sealed ex_long_head))) (long_frame (ex_sealed ex_long_head)) /\
  tool piped ar = success t /\
  py_render ex_env json_renderers ex_legacy (PyBytes (long_frame (ex_sealed ex_long_head))) (txt "json") (Some (PyBytes ex_key)) None true = Ok t /\
  js_render ex_env json_renderers ex_legacy (hex_string (long_frame (ex_sealed ex_long_head))) (txt "json") (Some (hex_string ex_key)) (Some 100) (Some true) = Ok t.
Proof. exact all_example. Qed.

Theorem C123_unread : forall env rn lr su ar input f k pk width,
  ar_file ar = None -> ar_data ar = Some input -> (forall data, ~ hex_input input data) -> names_format (ar_format ar) f ->
  key_text (ar_key ar) k -> (pk = option_map PyText (ar_key ar) \/ pk = option_map PyBytes k) ->
  exists code message offset, unread input code offset /\
    all_complain [py_render env rn lr (PyText input) (ar_format ar) pk width (negb (ar_no_enrichment ar))]
      (js_render env rn lr input (ar_format ar) (ar_key ar) width (Some (negb (ar_no_enrichment ar))))
      (cli_main env rn lr su ar) code (txt "input") message offset.
Proof. exact all_unread. Qed.
Print Assumptions C123_unread.
Example C123_unread_example : exists message,
  py_render ex_env json_renderers ex_legacy (PyText (txt "68 0G")) (txt "json") None None true = py_complaint (txt "input.invalid_hex") message /\
  js_render ex_env json_renderers ex_legacy (txt "68 0G") (txt "json") None None (Some true) = js_complaint (txt "input.invalid_hex") (txt "input") message (Some 3) /\
  tool piped (told_data (txt "68 0G") "json" None) = complaint (txt "input.invalid_hex") message /\ (forall data, ~ hex_input (txt "68 0G") data).
Proof. exact unread_example. Qed.

Theorem C123_unnamed : forall env rn lr su ar input data pk k width,
  ar_file ar = None -> ar_data ar = Some input -> hex_input input data -> (forall f, ~ names_format (ar_format ar) f) -> key_text (ar_key ar) k ->
  exists message, message = txt "unsupported output format " ++ lr_debug lr (ar_format ar) ++
      txt "; expected table, json, yaml, csv, mermaid, xml, annotated, or annotated-text" /\
    all_complain [py_render env rn lr (PyText input) (ar_format ar) pk width (negb (ar_no_enrichment ar));
                  py_render env rn lr (PyBytes data) (ar_format ar) pk width (negb (ar_no_enrichment ar))]
      (js_render env rn lr input (ar_format ar) (ar_key ar) width (Some (negb (ar_no_enrichment ar))))
      (cli_main env rn lr su ar) (txt "format.unsupported") (txt "render") message None.
Proof. exact all_unnamed. Qed.
Print Assumptions C123_unnamed.
Example C123_unnamed_example : (forall f, ~ names_format (txt "html") f) /\
  py_render ex_env json_renderers ex_legacy (PyText (txt "68 06")) (txt "html") None None true =
    py_complaint (txt "format.unsupported") (txt "unsupported output format ""html""; expected table, json, yaml, csv, mermaid, xml, annotated, or annotated-text").
Proof. exact unnamed_example. Qed.

(** the older functions of the two modules: the same rendering, 100 columns wide and with the details of the manufacturer *)
Theorem C123_older : forall env rn lr stringify input data format f key k,
  hex_input input data -> names_format format f -> py_key (option_map PyText key) k ->
  match render_bytes env rn data f (asked k true 100) with
  | Ok t => py_m_bus_parse env rn lr input format key = Ok t /\ js_parse env rn lr stringify input format key = Ok t
  | Err e => exists code layer message, code = error_code (SRender e) /\ failure data k f code layer /\
      py_m_bus_parse env rn lr input format key = py_complaint code message /\
      js_parse env rn lr stringify input format key =
        Ok (match stringify {| je_message := message; je_code := code; je_layer := layer; je_byte_offset := None |} with
            | Some t => t | None => txt "M-Bus rendering failed" end)
  | Panic p => py_m_bus_parse env rn lr input format key = Panic p /\ js_parse env rn lr stringify input format key = Panic p
  end.
Proof. exact older_functions. Qed.
Print Assumptions C123_older.
Example C123_older_example : exists t, py_m_bus_parse ex_env json_renderers ex_legacy (hex_string ex_wired_clear) (txt "json") None = Ok t /\ t <> [] /\
  js_parse ex_env json_renderers ex_legacy (fun _ => None) (txt "68 06") (txt "json") None = Ok (txt "M-Bus rendering failed") /\
  py_m_bus_parse ex_env json_renderers ex_legacy (txt "68 06") (txt "json") None =
    py_complaint (txt "frame.invalid") (txt "data is not a valid wired or wireless M-Bus frame (wired: not a frame; wireless: not a frame)").
Proof. exact older_example. Qed.

(** C124: Python's parse makes a JSON text that says what decoding gives, or complains as the library does *)
Theorem C124_parse : forall env rn lr value data key k en,
  numerals (rn_number rn) -> bytes_ok data -> py_bytes value data -> py_key key k ->
  match decode_bytes env data k en with
  | Ok d => exists t v, py_parse env rn lr value key en = Ok t /\ only_value t v /\ says_decoded (rn_number rn) d v
  | Err e => exists code layer message, py_parse env rn lr value key en = py_complaint code message /\ failure data k FJson code layer
  | Panic p => py_parse env rn lr value key en = Panic p
  end.
Proof. exact python_parse. Qed.
Print Assumptions C124_parse.
Theorem C124_lossless : forall env rn lr value value' data data' key key' k k' en en' t d d',
  apart (rn_number rn) -> numerals (rn_number rn) ->
  py_bytes value data -> py_bytes value' data' -> py_key key k -> py_key key' k' ->
  decode_bytes env data k en = Ok d -> decode_bytes env data' k' en' = Ok d' ->
  py_parse env rn lr value key en = Ok t -> py_parse env rn lr value' key' en' = Ok t -> d = d'.
Proof. exact python_lossless. Qed.
Print Assumptions C124_lossless.
Example C124_example : exists t d, py_parse ex_env json_renderers ex_legacy (PyBytes ex_wired_clear) None false = Ok t /\
  firstn 60 t = txt "{""schema_version"":3,""decode_state"":""complete"",""protocol"":""wi" /\ decode_bytes ex_env ex_wired_clear None false = Ok d /\
  py_bytes (PyText (hex_string ex_wired_clear)) ex_wired_clear /\ py_bytes (PyBytes ex_wired_clear) ex_wired_clear /\ bytes_ok ex_wired_clear /\ numerals (rn_number json_renderers).
Proof. exact python_example. Qed.

(** parse_records, and the older parse_application_layer *)
Theorem C124_records : forall env rn lr value data, numerals (rn_number rn) -> py_bytes value data ->
  match decode_data_records env data with
  | Ok outs => exists t v, py_parse_records env rn lr value = Ok t /\ only_value t v /\ list_of (says_record (rn_number rn)) (Some v) outs
  | Err e => exists message, py_parse_records env rn lr value = py_complaint (error_code (SRender (RDecode e))) message
  | Panic p => py_parse_records env rn lr value = Panic p
  end.
Proof. exact python_records. Qed.
Print Assumptions C124_records.
Theorem C124_application : forall env rn lr input, py_parse_application_layer env rn lr input = py_parse_records env rn lr (PyText input).
Proof. exact python_application. Qed.
Print Assumptions C124_application.
Example C124_records_example : exists t, py_parse_records ex_env json_renderers ex_legacy (PyBytes ex_clear_block) = Ok t /\
  firstn 30 t = txt "[{""index"":0,""function"":""Instan" /\
  py_parse_records ex_env json_renderers ex_legacy (PyText (txt "04 13 01")) = py_complaint (txt "application.records_invalid") (txt "message").
Proof. exact records_example. Qed.

(** other arguments are refused *)
Theorem C124_refused : forall env rn lr value, (forall data, ~ py_bytes value data) ->
  (forall key en, py_refused "data" value (py_parse env rn lr value key en)) /\ py_refused "data" value (py_parse_records env rn lr value) /\
  (forall format key width en, py_refused "data" value (py_render env rn lr value format key width en)).
Proof. exact python_refused. Qed.
Print Assumptions C124_refused.
Theorem C124_key_refused : forall env rn lr value data key en, py_bytes value data -> (forall k, ~ py_key (Some key) k) ->
  py_refused "key" key (py_parse env rn lr value (Some key) en) \/
  exists b, py_bytes key b /\ List.length b <> 16%nat /\
    py_parse env rn lr value (Some key) en = py_complaint (txt "option.invalid") (txt "key must contain exactly 16 bytes, received " ++ dec (len b)).
Proof. exact python_key_refused. Qed.
Print Assumptions C124_key_refused.
Example C124_refused_example :
  py_parse ex_env json_renderers ex_legacy PyOther None true = Err (TypeError (txt "data must be a hexadecimal string or bytes-like object")) /\
  py_parse ex_env json_renderers ex_legacy (PyBytes []) None true = py_complaint (txt "input.empty") (txt "input must not be empty") /\
  py_parse ex_env json_renderers ex_legacy (PyBytes ex_wired_clear) (Some PyOther) true = Err (TypeError (txt "key must be a hexadecimal string or bytes-like object")) /\
  py_parse ex_env json_renderers ex_legacy (PyBytes ex_wired_clear) (Some (PyBytes [1; 2; 3])) true =
    py_complaint (txt "option.invalid") (txt "key must contain exactly 16 bytes, received 3").
Proof. exact refused_example. Qed.

(** JavaScript's m_bus_decode *)
Theorem C124_javascript : forall env lr input data key k en, hex_input input data -> js_key_text key k ->
  match decode_bytes env data k (match en with Some b => b | None => true end) with
  | Ok d => exists d', js_decode env lr input key en = Ok d' /\ same_but_raw d d' /\ rw_input (do_raw d') = Some input /\
      rw_original_frame_hex (do_raw d') = rw_original_frame_hex (do_raw d)
  | Err e => exists code layer message, js_decode env lr input key en = js_complaint code layer message None /\ failure data k FJson code layer
  | Panic p => js_decode env lr input key en = Panic p
  end.
Proof. exact javascript_decode. Qed.
Print Assumptions C124_javascript.
Theorem C124_javascript_unread : forall env lr input key k en, (forall data, ~ hex_input input data) -> js_key_text key k ->
  exists code message offset, unread input code offset /\ js_decode env lr input key en = js_complaint code (txt "input") message offset.
Proof. exact javascript_unread. Qed.
Print Assumptions C124_javascript_unread.
Theorem C124_javascript_key : forall env lr input key en, (forall k, ~ js_key_text (Some key) k) ->
  (exists code message offset, unread key code offset /\ js_decode env lr input (Some key) en = js_complaint code (txt "input") message offset) \/
  (exists b, hex_input key b /\ List.length b <> 16%nat /\ js_decode env lr input (Some key) en =
     js_complaint (txt "option.invalid") (txt "render") (txt "invalid key: must contain exactly 16 bytes, received " ++ dec (len b)) None).
Proof. exact javascript_key. Qed.
Print Assumptions C124_javascript_key.
Example C124_javascript_example : exists d, js_decode ex_env ex_legacy (hex_string ex_wired_clear) (Some (txt "  ")) None = Ok d /\ js_key_text (Some (txt "  ")) None /\
  js_decode ex_env ex_legacy (txt "68 06") None None =
    js_complaint (txt "frame.invalid") (txt "link") (txt "data is not a valid wired or wireless M-Bus frame (wired: not a frame; wireless: not a frame)") None /\
  js_decode ex_env ex_legacy (txt "68 0G") None None = js_complaint (txt "input.invalid_hex") (txt "input") (txt "invalid hexadecimal input at character 3: message") (Some 3) /\
  js_decode ex_env ex_legacy (txt "68 06") (Some (txt "0102")) None =
    js_complaint (txt "option.invalid") (txt "render") (txt "invalid key: must contain exactly 16 bytes, received 2") None.
Proof. exact javascript_example. Qed.

(** a complaint does not say whether the key or the frame is at fault: a key that is no text of bytes gets the code, the place
    and the message of a frame that is the same text *)
Theorem C124_key_blame_refuted : forall env rn lr, exists input key code message offset,
  hex_input input ex_wired_clear /\ unread key code offset /\
  (forall en, py_parse env rn lr (PyText input) (Some (PyText key)) en = py_complaint code message) /\
  (forall en, js_decode env lr input (Some key) en = js_complaint code (txt "input") message offset) /\
  (forall en, py_parse env rn lr (PyText key) None en = py_complaint code message) /\
  (forall en, js_decode env lr key None en = js_complaint code (txt "input") message offset).
Proof. exact key_blamed. Qed.
Print Assumptions C124_key_blame_refuted.
