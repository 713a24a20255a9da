(** Examples for the properties of the older JSON output. *)
From Coq Require Import List NArith ZArith Lia Bool String.
Import ListNotations.
From Verif Require Import Model.Base Model.Text Model.Core Model.F64 Model.Hex Model.Wired Model.Wireless Model.UserData Model.Record Model.MbusData Model.Show Model.Output Model.Render Model.Json
  Model.Legacy Model.LegacyJson Model.Serialize Spec.WiredSpec Spec.WirelessSpec Spec.AppSpec Spec.AnnotateSpec Spec.MbusSpec Spec.JsonSpec Spec.LegacyJsonSpec
  Proof.BaseFacts Proof.WiredFacts Proof.JsonDocs Proof.JsonViewFacts Proof.LegacyJsonFacts Proof.AnnotateProps Proof.MbusProps Proof.OutputProps Proof.FormatProps Proof.LegacyProps Proof.JsonProps.
Open Scope N_scope.
Open Scope list_scope.

Definition older_of (input : text) : option json :=
  match parse_frame_output ex_env ex_number input None with Ok (Some o) => Some (older_json ex_number o) | _ => None end.
Lemma older_example : exists t o v, numerals (lr_number json_legacy) /\ apart (lr_number json_legacy) /\
  serialize_mbus_data ex_env json_renderers json_legacy (hex_string ex_wired_clear) (txt "json-legacy") None = Ok t /\
  parse_frame_output ex_env (lr_display json_legacy) (hex_string ex_wired_clear) None = Ok (Some o) /\ only_value t v /\
  starts t ["{"; "  ""data_records"": ["; "    {"; "      ""data"": {"; "        ""size"": 4,"; "        ""value"": {"]%string /\
  exists r value, field v "data_records" = Some (VArray [r; value]) /\ text_of (field r "raw_bytes") (txt "0C1378563412").
Proof.
  destruct (parse_frame_output ex_env (lr_display json_legacy) (hex_string ex_wired_clear) None) as [[o|]|e|p] eqn:D; [|exfalso; vm_compute in D; discriminate..].
  exists (to_string_pretty (older_json ex_number o)), o, (older_json ex_number o).
  split; [exact ex_numerals|]. split; [exact ex_apart|].
  split. { change (parse_to_json ex_env json_legacy (hex_string ex_wired_clear) None = Ok (to_string_pretty (older_json ex_number o))). unfold parse_to_json. rewrite D. reflexivity. }
  split; [reflexivity|]. split; [exact (fine_only _ (older_fine _ o ex_numerals))|].
  vm_compute in D. apply Ok_inj in D. injection D as <-. split; [apply starts_dec; vm_compute; reflexivity|].
  do 2 eexists. split; [vm_compute; reflexivity|vm_compute; reflexivity].
Qed.

Lemma older_source_example : exists f a payload o o', bytes_ok ex_wired_clear /\ any_frame ex_wired_clear (inl (LongFrame f a payload)) (Some payload) /\
  parse_frame_bytes ex_env ex_number ex_wired_clear None = Ok (Some o) /\
  bytes_ok ex_air /\ (exists fr, any_frame ex_air (inr fr) (Some (wf_data fr))) /\ parse_frame_bytes ex_env ex_number ex_air None = Ok (Some o').
Proof.
  destruct (parse_frame_bytes ex_env ex_number ex_wired_clear None) as [[o|]|e|p] eqn:D; [|exfalso; vm_compute in D; discriminate..].
  destruct (parse_frame_bytes ex_env ex_number ex_air None) as [[o'|]|e|p] eqn:D'; [|exfalso; vm_compute in D'; discriminate..].
  clear D D'. exists (RspUd false false), (Primary 1), ex_clear_message, o, o'. split; [lit|].
  split; [constructor; apply WLong; [cbn; auto 20|cbn; lia|discriminate]|]. split; [reflexivity|]. split; [lit|]. split; [|reflexivity].
  destruct air_example as (fr & _ & _ & _ & Wm & Nw & C & _). exists fr. apply (AnyAir _ ex_air fr Nw); [left; split; [reflexivity|exact C]|exact Wm].
Qed.
Lemma lossless_example : exists t o, apart (lr_number json_legacy) /\ numerals (lr_number json_legacy) /\
  serialize_mbus_data ex_env json_renderers json_legacy (hex_string ex_wired_clear) (txt "json-legacy") None = Ok t /\
  serialize_mbus_data ex_env json_renderers json_legacy (txt "0x" ++ hex_string ex_wired_clear) (txt "json-legacy") (Some ex_key) = Ok t /\
  parse_frame_output ex_env (lr_display json_legacy) (hex_string ex_wired_clear) None = Ok (Some o) /\
  parse_frame_output ex_env (lr_display json_legacy) (txt "0x" ++ hex_string ex_wired_clear) (Some ex_key) = Ok (Some o) /\
  record_bytes o = Some [txt "0C1378563412"; txt "01FD1705"].
Proof.
  destruct (parse_frame_output ex_env (lr_display json_legacy) (hex_string ex_wired_clear) None) as [[o|]|e|p] eqn:D; [|exfalso; vm_compute in D; discriminate..].
  assert (D' : parse_frame_output ex_env (lr_display json_legacy) (txt "0x" ++ hex_string ex_wired_clear) (Some ex_key) = Ok (Some o)) by (rewrite <- D; vm_compute; reflexivity).
  exists (to_string_pretty (older_json ex_number o)), o. split; [exact ex_apart|]. split; [exact ex_numerals|].
  split. { change (parse_to_json ex_env json_legacy (hex_string ex_wired_clear) None = Ok (to_string_pretty (older_json ex_number o))). unfold parse_to_json. rewrite D. reflexivity. }
  split. { change (parse_to_json ex_env json_legacy (txt "0x" ++ hex_string ex_wired_clear) (Some ex_key) = Ok (to_string_pretty (older_json ex_number o))). unfold parse_to_json. rewrite D'. reflexivity. }
  split; [reflexivity|]. split; [exact D'|]. vm_compute in D. apply Ok_inj in D. injection D as <-. vm_compute. reflexivity.
Qed.
