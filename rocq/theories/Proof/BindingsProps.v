(** Examples for the front ends. *)
From Coq Require Import List NArith Lia Bool String.
Import ListNotations.
From Verif Require Import Model.Base Model.Text Model.F64 Model.Hex Model.MbusData Model.Show Model.Output Model.Format Model.Json Model.Render
  Model.Serialize Model.Bindings Spec.TextSpec Spec.FormatSpec Spec.OutputSpec Spec.JsonSpec Spec.SerializeSpec Spec.BindingsSpec
  Proof.BaseFacts Proof.TextFacts Proof.HexFacts Proof.AnnotateProps Proof.MbusProps Proof.OutputProps Proof.FormatProps Proof.LegacyProps Proof.JsonProps Proof.BindingsFacts.
Open Scope N_scope.
Open Scope list_scope.

Definition disk (path : text) : text + text :=
  if text_eqb path (txt "frame.hex") then inl (hex_string ex_wired_clear ++ [10]) else inr (txt "No such file or directory").
Definition piped : surroundings := {| su_read := disk; su_terminal := false; su_columns := Some 20 |}.
Definition narrow : surroundings := {| su_read := disk; su_terminal := true; su_columns := Some 20 |}.
Definition told_file (path format : string) (key : option text) : arguments :=
  {| ar_file := Some (txt path); ar_data := None; ar_format := txt format; ar_key := key; ar_width := None; ar_no_enrichment := false |}.
Definition told_data (data : text) (format : string) (key : option text) : arguments :=
  {| ar_file := None; ar_data := Some data; ar_format := txt format; ar_key := key; ar_width := None; ar_no_enrichment := false |}.
Definition told_nothing : arguments :=
  {| ar_file := None; ar_data := None; ar_format := txt "table"; ar_key := None; ar_width := None; ar_no_enrichment := false |}.
Definition tool := cli_main ex_env json_renderers ex_legacy.

Lemma tool_example : exists t, tool piped (told_file "frame.hex" " CSV" None) = success t /\ t <> [] /\
  given_text piped (told_file "frame.hex" " CSV" None) (hex_string ex_wired_clear ++ [10]) /\ names_format (txt " CSV") FCsv /\
  key_text None None /\ hex_input (hex_string ex_wired_clear ++ [10]) ex_wired_clear /\ table_width piped (told_file "frame.hex" " CSV" None) = 100.
Proof.
  assert (E : exists t, tool piped (told_file "frame.hex" " CSV" None) = success t /\ t <> []).
  { eexists. split; [vm_compute; reflexivity|discriminate]. }
  destruct E as (t & E & N). exists t. split; [exact E|]. split; [exact N|]. split; [left; exists (txt "frame.hex"); repeat split; vm_compute; reflexivity|].
  split; [apply named; vm_compute; reflexivity|]. split; [exact I|]. split; [apply decode_hex_exact; vm_compute; reflexivity|reflexivity].
Qed.
Lemma tool_failure_example :
  tool piped told_nothing = complaint (txt "option.invalid") (txt "either --file or --data must be provided") /\
  tool piped (told_file "other.hex" "table" None) = complaint (txt "input.file") (txt "failed to read other.hex: No such file or directory") /\
  tool piped (told_file "frame.hex" "html" None) =
    complaint (txt "format.unsupported") (txt "unsupported output format ""html""; expected table, json, yaml, csv, mermaid, xml, annotated, or annotated-text") /\
  tool piped (told_file "frame.hex" "table" (Some (txt "5A 5A"))) = complaint (txt "option.invalid") (txt "key must contain exactly 32 hexadecimal characters") /\
  tool piped (told_data (txt "68 0G") "table" None) = complaint (txt "input.invalid_hex") (txt "invalid hexadecimal input at character 3: message") /\
  tool narrow (told_file "frame.hex" "table" None) = complaint (txt "option.invalid") (txt "invalid table_width: must be at least 32 columns") /\
  tool piped (told_data (txt "68 06") "table" None) =
    complaint (txt "frame.invalid") (txt "data is not a valid wired or wireless M-Bus frame (wired: not a frame; wireless: not a frame)").
Proof. repeat (split; [vm_compute; reflexivity|]). vm_compute. reflexivity. Qed.
Lemma all_example : exists t, let ar := told_data (hex_string (long_frame (ex_sealed ex_long_head))) "json" (Some (hex_string ex_key)) in
  key_text (ar_key ar) (Some ex_key) /\ hex_input (hex_string (long_frame (ex_sealed ex_long_head))) (long_frame (ex_sealed ex_long_head)) /\
  tool piped ar = success t /\
  py_render ex_env json_renderers ex_legacy (PyBytes (long_frame (ex_sealed ex_long_head))) (txt "json") (Some (PyBytes ex_key)) None true = Ok t /\
  js_render ex_env json_renderers ex_legacy (hex_string (long_frame (ex_sealed ex_long_head))) (txt "json") (Some (hex_string ex_key)) (Some 100) (Some true) = Ok t.
Proof.
  assert (E : exists t, js_render ex_env json_renderers ex_legacy (hex_string (long_frame (ex_sealed ex_long_head))) (txt "json") (Some (hex_string ex_key)) (Some 100) (Some true) = Ok t)
    by (eexists; vm_compute; reflexivity).
  destruct E as (t & E). exists t. cbv zeta. split; [apply cli_key_exact; vm_compute; reflexivity|]. split; [apply decode_hex_exact; vm_compute; reflexivity|].
  split; [|split; [|exact E]].
  - assert (E' := E); vm_compute in E'; apply Ok_inj in E'; subst t. vm_compute. reflexivity.
  - assert (E' := E); vm_compute in E'; apply Ok_inj in E'; subst t. vm_compute. reflexivity.
Qed.
Lemma unread_example : exists message,
  py_render ex_env json_renderers ex_legacy (PyText (txt "68 0G")) (txt "json") None None true = py_complaint (txt "input.invalid_hex") message /\
  js_render ex_env json_renderers ex_legacy (txt "68 0G") (txt "json") None None (Some true) = js_complaint (txt "input.invalid_hex") (txt "input") message (Some 3) /\
  tool piped (told_data (txt "68 0G") "json" None) = complaint (txt "input.invalid_hex") message /\ (forall data, ~ hex_input (txt "68 0G") data).
Proof.
  eexists. split; [vm_compute; reflexivity|]. split; [vm_compute; reflexivity|]. split; [vm_compute; reflexivity|].
  intros data H. apply decode_hex_exact in H. vm_compute in H. discriminate H.
Qed.
Lemma unnamed_example : (forall f, ~ names_format (txt "html") f) /\
  py_render ex_env json_renderers ex_legacy (PyText (txt "68 06")) (txt "html") None None true =
    py_complaint (txt "format.unsupported") (txt "unsupported output format ""html""; expected table, json, yaml, csv, mermaid, xml, annotated, or annotated-text").
Proof. split; [apply not_named; vm_compute; reflexivity|vm_compute; reflexivity]. Qed.
Lemma older_example : exists t, py_m_bus_parse ex_env json_renderers ex_legacy (hex_string ex_wired_clear) (txt "json") None = Ok t /\ t <> [] /\
  js_parse ex_env json_renderers ex_legacy (fun _ => None) (txt "68 06") (txt "json") None = Ok (txt "M-Bus rendering failed") /\
  py_m_bus_parse ex_env json_renderers ex_legacy (txt "68 06") (txt "json") None =
    py_complaint (txt "frame.invalid") (txt "data is not a valid wired or wireless M-Bus frame (wired: not a frame; wireless: not a frame)").
Proof. eexists. split; [vm_compute; reflexivity|]. split; [discriminate|]. split; vm_compute; reflexivity. Qed.
Lemma python_example : exists t d, py_parse ex_env json_renderers ex_legacy (PyBytes ex_wired_clear) None false = Ok t /\
  firstn 60 t = txt "{""schema_version"":3,""decode_state"":""complete"",""protocol"":""wi" /\ decode_bytes ex_env ex_wired_clear None false = Ok d /\
  py_bytes (PyText (hex_string ex_wired_clear)) ex_wired_clear /\ py_bytes (PyBytes ex_wired_clear) ex_wired_clear /\ bytes_ok ex_wired_clear /\ numerals (rn_number json_renderers).
Proof.
  eexists. eexists. split; [vm_compute; reflexivity|]. split; [vm_compute; reflexivity|]. split; [vm_compute; reflexivity|].
  split; [apply decode_hex_exact; vm_compute; reflexivity|]. split; [split; [reflexivity|discriminate]|]. split; [lit|exact ex_numerals].
Qed.
Lemma records_example : exists t, py_parse_records ex_env json_renderers ex_legacy (PyBytes ex_clear_block) = Ok t /\
  firstn 30 t = txt "[{""index"":0,""function"":""Instan" /\
  py_parse_records ex_env json_renderers ex_legacy (PyText (txt "04 13 01")) = py_complaint (txt "application.records_invalid") (txt "message").
Proof. eexists. split; [vm_compute; reflexivity|]. split; vm_compute; reflexivity. Qed.
Lemma refused_example :
  py_parse ex_env json_renderers ex_legacy PyOther None true = Err (TypeError (txt "data must be a hexadecimal string or bytes-like object")) /\
  py_parse ex_env json_renderers ex_legacy (PyBytes []) None true = py_complaint (txt "input.empty") (txt "input must not be empty") /\
  py_parse ex_env json_renderers ex_legacy (PyBytes ex_wired_clear) (Some PyOther) true = Err (TypeError (txt "key must be a hexadecimal string or bytes-like object")) /\
  py_parse ex_env json_renderers ex_legacy (PyBytes ex_wired_clear) (Some (PyBytes [1; 2; 3])) true =
    py_complaint (txt "option.invalid") (txt "key must contain exactly 16 bytes, received 3").
Proof. repeat (split; [vm_compute; reflexivity|]). vm_compute. reflexivity. Qed.
Lemma javascript_example : exists d, js_decode ex_env ex_legacy (hex_string ex_wired_clear) (Some (txt "  ")) None = Ok d /\ js_key_text (Some (txt "  ")) None /\
  js_decode ex_env ex_legacy (txt "68 06") None None =
    js_complaint (txt "frame.invalid") (txt "link") (txt "data is not a valid wired or wireless M-Bus frame (wired: not a frame; wireless: not a frame)") None /\
  js_decode ex_env ex_legacy (txt "68 0G") None None = js_complaint (txt "input.invalid_hex") (txt "input") (txt "invalid hexadecimal input at character 3: message") (Some 3) /\
  js_decode ex_env ex_legacy (txt "68 06") (Some (txt "0102")) None =
    js_complaint (txt "option.invalid") (txt "render") (txt "invalid key: must contain exactly 16 bytes, received 2") None.
Proof.
  eexists. split; [vm_compute; reflexivity|]. split; [cbn; repeat constructor; cbn; tauto|]. repeat (split; [vm_compute; reflexivity|]). vm_compute. reflexivity.
Qed.

(** the key is at fault, but the code and the message are those of a fault in the frame *)
Lemma key_blamed env rn lr : exists input key code message offset, hex_input input ex_wired_clear /\ unread key code offset /\
  (forall en, py_parse env rn lr (PyText input) (Some (PyText key)) en = py_complaint code message) /\
  (forall en, js_decode env lr input (Some key) en = js_complaint code (txt "input") message offset) /\
  (forall en, py_parse env rn lr (PyText key) None en = py_complaint code message) /\
  (forall en, js_decode env lr key None en = js_complaint code (txt "input") message offset).
Proof.
  exists (hex_string ex_wired_clear), (txt "123"), (txt "input.invalid_hex"), (error_message lr (of_input (InvalidHex 2))), (Some 2).
  assert (Ek : decode_hex_bytes (txt "123") = Err (InvalidHex 2)) by (vm_compute; reflexivity).
  assert (Ed : decode_hex_bytes (hex_string ex_wired_clear) = Ok ex_wired_clear) by (vm_compute; reflexivity).
  split; [apply decode_hex_exact; exact Ed|]. split; [exact (proj1 (unread_error _ _ Ek))|].
  split. { intros en. unfold py_parse. cbn [extract_bytes]. rewrite Ed. cbn [map_err bind extract_key extract_bytes]. rewrite Ek. reflexivity. }
  split. { intros en. unfold js_decode, js_key, wasm_parse_key. rewrite Ek. reflexivity. }
  split. { intros en. unfold py_parse. cbn [extract_bytes]. rewrite Ek. reflexivity. }
  intros en. unfold js_decode, js_key. cbn [wasm_parse_key map_err bind]. unfold decode_hex. rewrite Ek. reflexivity.
Qed.
