(** C120, C121: the JSON outputs. *)
From Coq Require Import List NArith ZArith String.
Import ListNotations.
From Verif Require Import Model.Base Model.Text Model.F64 Model.Show Model.Record Model.MbusData Model.Annotate Model.Output Model.Format Model.Json Model.AnnotateText Model.JsonView Model.Hex Model.Render Model.Legacy Model.Serialize
  Spec.AnnotateSpec Spec.JsonSpec Spec.JsonViewSpec Proof.AnnotateProps Proof.MbusProps Proof.OutputProps Proof.FormatProps
  Proof.JsonDocs Proof.JsonBack Proof.JsonViewFacts Proof.JsonProps.
Open Scope N_scope.
Open Scope list_scope.

(** C120.  The JSON output is a JSON text (RFC 8259) of one value; no object in it names a member twice; and the value says
    what decoding the frame gives, field by field.  Asked of the text of a number that is not an integer: it is a numeral. *)
Theorem C120_json env rn data options t : numerals (rn_number rn) -> render_bytes env rn data FJson options = Ok t ->
  exists d v, decode_bytes env data (op_key options) (op_include_enrichment options) = Ok d /\ json_text t v /\
    (forall v', json_text t v' -> v' = v) /\ distinct v /\ says_decoded (rn_number rn) d v.
Proof. exact (json_output env rn data options t). Qed.
Print Assumptions C120_json.

(** Nothing is lost: frames of the same JSON decode to the same. *)
Theorem C120_lossless env rn data options data' options' t d d' : apart (rn_number rn) -> numerals (rn_number rn) ->
  render_bytes env rn data FJson options = Ok t -> render_bytes env rn data' FJson options' = Ok t ->
  decode_bytes env data (op_key options) (op_include_enrichment options) = Ok d ->
  decode_bytes env data' (op_key options') (op_include_enrichment options') = Ok d' -> d = d'.
Proof. exact (json_lossless env rn data options data' options' t d d'). Qed.
Print Assumptions C120_lossless.
Example C120_example : exists t d v, render_bytes ex_env json_renderers ex_wired_clear FJson ex_options = Ok t /\
  render_bytes ex_env json_renderers ex_wired_clear FJson wide_options = Ok t /\
  decode_bytes ex_env ex_wired_clear None false = Ok d /\ json_text t v /\ numerals ex_number /\ apart ex_number /\
  starts t ["{"; "  ""schema_version"": 3,"; "  ""decode_state"": ""complete"","; "  ""protocol"": ""wired"","; "  ""frame"": {"; "    ""kind"": ""long"","]%string /\
  exists r value, field v "records" = Some (VArray [r; value]) /\ (exists x, field r "value" = Some x /\ text_of (field x "value") (txt "12345.678")).
Proof. exact json_example. Qed.

(** C121.  The annotated output is a JSON text of one value.  It holds the bytes shown, and for each range of them its place,
    its kind, the text about it, its record and its layer; these are the ranges that annotating the bytes gives.  If the
    bytes shown were decrypted it says so, and holds the bytes received and their ranges too. *)
Theorem C121_annotated env rn data key t : render_annotated_bytes env rn data key = Ok t ->
  exists v, only_value t v /\ exists shown l original, says_annotated shown l original v /\
    match original with
    | None => shown = data /\ frame_told (env_config env) (rn_display rn) data = Ok l
    | Some (data0, l0) => data0 = data /\ frame_told (env_config env) (rn_display rn) data = Ok l0 /\
        (exists k, key = Some k /\ decrypted_hexview (env_config env) (env_aes env) data k = Ok (Some shown)) /\
        exists segs, annotate_frame (env_config env) shown = Ok segs /\ replace_encrypted (env_config env) segs shown = Ok (map fst l)
    end.
Proof. exact (annotated_text env rn data key t). Qed.
Print Assumptions C121_annotated.
Example C121_annotated_example : exists t v, render_annotated_bytes ex_env json_renderers ex_wired_clear None = Ok t /\ json_text t v /\
  starts t ["{"; "  ""bytes"": ["; "    104,"; "    26,"]%string /\ flag_of (field v "decrypted") false /\
  exists s rest, field v "segments" = Some (VArray (s :: rest)) /\ length rest = 22%nat /\ text_of (field s "detail") (txt "Start: 0x68").
Proof. exact annotated_example. Qed.

(** the frame received can be read from the text, even when decrypted bytes are shown *)
Theorem C121_bytes env rn data key t env' rn' data' key' :
  render_annotated_bytes env rn data key = Ok t -> render_annotated_bytes env' rn' data' key' = Ok t -> data = data'.
Proof. exact (annotated_back env rn data key t env' rn' data' key'). Qed.
Print Assumptions C121_bytes.
Example C121_decrypted_example : exists t v, render_annotated_bytes ex_env json_renderers (long_frame (ex_sealed ex_long_head)) (Some ex_key) = Ok t /\ json_text t v /\
  flag_of (field v "decrypted") true /\
  (exists o, field v "original" = Some o /\ list_of (fun b x => x = VNumber (dec b)) (field o "bytes") (long_frame (ex_sealed ex_long_head))) /\
  list_of (fun b x => x = VNumber (dec b)) (field v "bytes") (long_frame (ex_plain ex_long_head)).
Proof. exact decrypted_example. Qed.

(** the older outputs: a JSON text too, also when the bytes are refused *)
Theorem C121_older_segments env rn lr input key t : serialize_mbus_data env rn lr input (txt "annotated-legacy") key = Ok t ->
  exists v, only_value t v /\ says_segments (env_config env) (lr_display lr) (clean_and_convert input) v.
Proof. exact (older_segments env rn lr input key t). Qed.
Print Assumptions C121_older_segments.
Example C121_refused_example : exists t, serialize_mbus_data ex_env json_renderers json_legacy (txt "01 02 03") (txt "annotated-legacy") None = Ok t /\
  t = txt "{""error"": ""Invalid start byte""}".
Proof. exact refused_example. Qed.

Theorem C121_older_view env rn lr input key t :
  (forall k shown, key = Some k -> decrypted_hexview (env_config env) (env_aes env) (clean_and_convert input) k = Ok (Some shown) -> bytes_ok shown) ->
  serialize_mbus_data env rn lr input (txt "hexview-legacy") key = Ok t ->
  exists v, only_value t v /\
    (says_segments (env_config env) (lr_display lr) (clean_and_convert input) v \/
     exists k shown, key = Some k /\ decrypted_hexview (env_config env) (env_aes env) (clean_and_convert input) k = Ok (Some shown) /\
       ((exists l0 l, annotate_frame (env_config env) shown = Ok l0 /\ replace_encrypted (env_config env) l0 shown = Ok (map fst l) /\
           says_bytes v shown l /\ flag_of (field v "decrypted") true) \/
        ((exists e, annotate_frame (env_config env) shown = Err e) /\ text_of (field v "error") (txt "Invalid start byte")))).
Proof. exact (older_view env rn lr input key t). Qed.
Print Assumptions C121_older_view.
Example C121_view_example : exists t v,
  clean_and_convert (hex_string (long_frame (ex_sealed ex_long_head))) = long_frame (ex_sealed ex_long_head) /\
  (forall k shown, Some ex_key = Some k -> decrypted_hexview (env_config ex_env) (env_aes ex_env) (long_frame (ex_sealed ex_long_head)) k = Ok (Some shown) -> bytes_ok shown) /\
  serialize_mbus_data ex_env json_renderers json_legacy (hex_string (long_frame (ex_sealed ex_long_head))) (txt "hexview-legacy") (Some ex_key) = Ok t /\ json_text t v /\
  list_of (fun b x => x = VNumber (dec b)) (field v "bytes") (long_frame (ex_plain ex_long_head)).
Proof. exact hexview_example. Qed.
