(** C127, C128: the older JSON output. *)
From Coq Require Import List NArith ZArith String.
Import ListNotations.
From Verif Require Import Model.Base Model.Text Model.Hex Model.F64 Model.Wired Model.Wireless Model.UserData Model.Record Model.MbusData Model.Show Model.Output Model.Json Model.Render Model.Legacy Model.Serialize
  Spec.WiredSpec Spec.WirelessSpec Spec.AppSpec Spec.JsonSpec Spec.LegacyJsonSpec Proof.AnnotateProps Proof.MbusProps Proof.OutputProps Proof.FormatProps Proof.LegacyProps
  Proof.JsonProps Proof.LegacyJsonFacts Proof.LegacyJsonBack Proof.LegacyJsonProps.
Open Scope N_scope.
Open Scope list_scope.

(** C127.  The older JSON output is a JSON text of one value, which says the frame, the headers of its user data, its records
    and the summary, part by part; if there is no frame in the input it is the empty object *)
Theorem C127_json : forall env rn lr input key t, numerals (lr_number lr) ->
  serialize_mbus_data env rn lr input (txt "json-legacy") key = Ok t ->
  (parse_frame_output env (lr_display lr) input key = Ok None /\ t = txt "{}") \/
  (exists o v, parse_frame_output env (lr_display lr) input key = Ok (Some o) /\ only_value t v /\ says_older (lr_number lr) o v).
Proof. exact older_json_text. Qed.
Print Assumptions C127_json.
(** ... the frame is the one received, and the user data are those of its payload *)
Theorem C127_source : forall env display data key f payload o, bytes_ok data -> any_frame data f payload ->
  parse_frame_bytes env display data key = Ok (Some o) -> po_frame o = f /\ application_of payload (po_user_data o).
Proof. exact older_source. Qed.
Print Assumptions C127_source.
Example C127_example : exists t o v, numerals (lr_number json_legacy) /\ apart (lr_number json_legacy) /\
  serialize_mbus_data ex_env json_renderers json_legacy (hex_string ex_wired_clear) (txt "json-legacy") None = Ok t /\
  parse_frame_output ex_env (lr_display json_legacy) (hex_string ex_wired_clear) None = Ok (Some o) /\ only_value t v /\
  starts t ["{"; "  ""data_records"": ["; "    {"; "      ""data"": {"; "        ""size"": 4,"; "        ""value"": {"]%string /\
  exists r value, field v "data_records" = Some (VArray [r; value]) /\ text_of (field r "raw_bytes") (txt "0C1378563412").
Proof. exact older_example. Qed.
Example C127_source_example : exists f a payload o o', bytes_ok ex_wired_clear /\ any_frame ex_wired_clear (inl (LongFrame f a payload)) (Some payload) /\
  parse_frame_bytes ex_env ex_number ex_wired_clear None = Ok (Some o) /\
  bytes_ok ex_air /\ (exists fr, any_frame ex_air (inr fr) (Some (wf_data fr))) /\ parse_frame_bytes ex_env ex_number ex_air None = Ok (Some o').
Proof. exact older_source_example. Qed.

(** C128.  Inputs with the same older JSON have the same frame (of a wired frame, all but the payload, which is shown by its
    records), the same headers, the same bytes in every record and the same summary, up to values that are not finite *)
Theorem C128_lossless : forall env rn lr input input' key key' t o o', apart (lr_number lr) -> numerals (lr_number lr) ->
  serialize_mbus_data env rn lr input (txt "json-legacy") key = Ok t -> serialize_mbus_data env rn lr input' (txt "json-legacy") key' = Ok t ->
  parse_frame_output env (lr_display lr) input key = Ok (Some o) -> parse_frame_output env (lr_display lr) input' key' = Ok (Some o') ->
  frame_shown (po_frame o) (po_frame o') /\ option_map user_data_head (po_user_data o) = option_map user_data_head (po_user_data o') /\
  record_bytes o = record_bytes o' /\ alike_summaries (po_summary o) (po_summary o').
Proof. exact older_lossless. Qed.
Print Assumptions C128_lossless.
Example C128_example : exists t o, apart (lr_number json_legacy) /\ numerals (lr_number json_legacy) /\
  serialize_mbus_data ex_env json_renderers json_legacy (hex_string ex_wired_clear) (txt "json-legacy") None = Ok t /\
  serialize_mbus_data ex_env json_renderers json_legacy (txt "0x" ++ hex_string ex_wired_clear) (txt "json-legacy") (Some ex_key) = Ok t /\
  parse_frame_output ex_env (lr_display json_legacy) (hex_string ex_wired_clear) None = Ok (Some o) /\
  parse_frame_output ex_env (lr_display json_legacy) (txt "0x" ++ hex_string ex_wired_clear) (Some ex_key) = Ok (Some o) /\
  record_bytes o = Some [txt "0C1378563412"; txt "01FD1705"].
Proof. exact lossless_example. Qed.
