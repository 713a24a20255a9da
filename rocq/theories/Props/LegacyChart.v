(** C113: the boxes of the older chart for the frame and the meter.  Its records are in Props/Legacy.v. *)
From Coq Require Import List NArith String.
Import ListNotations.
From Verif Require Import Model.Base Model.Text Model.Core Model.Wired Model.Wireless Model.Hex Model.Output Model.Legacy
  Spec.CoreSpec Spec.WiredSpec Spec.WirelessSpec Spec.AnnotateSpec Spec.MbusSpec Spec.OutputSpec Spec.ChartSpec
  Proof.AnnotateProps Proof.OutputProps Proof.LegacyProps Proof.LegacyChart.
Open Scope N_scope.
Open Scope list_scope.

(** the chart of a wired frame shows the function and the address, and of a meter with a long header what the older summary
    says of it (C110) *)
Theorem C113_boxes_partial : forall env display input data fr key o t, clean_and_convert input = data -> bytes_ok data ->
  wired_meaning data fr -> parse_frame_bytes env display data key = Ok (Some o) -> parse_to_mermaid env display input = Ok t ->
  shows_frame t (po_summary o) /\ shows_meter t (po_summary o).
Proof. exact wired_boxes. Qed.
Print Assumptions C113_boxes_partial.
(** the chart of a wireless frame shows its function and the sender *)
Theorem C113_sender_partial : forall env display input data w fr t, clean_and_convert input = data -> bytes_ok data -> not_wired data ->
  received data w -> wireless_meaning w fr -> parse_to_mermaid env display input = Ok t ->
  shows_control t (wf_control_field fr) /\ shows_sender t (env_registry env) (wf_manufacturer_id fr).
Proof. exact wireless_boxes. Qed.
Print Assumptions C113_sender_partial.

Example C113_boxes_example : exists fr o t,
  clean_and_convert (hex_string ex_wired_clear) = ex_wired_clear /\ bytes_ok ex_wired_clear /\ wired_meaning ex_wired_clear fr /\
  parse_frame_bytes ex_env ex_display ex_wired_clear None = Ok (Some o) /\ parse_to_mermaid ex_env ex_display (hex_string ex_wired_clear) = Ok t /\
  fs_function (po_summary o) <> None /\ fs_version (po_summary o) = Some 1.
Proof. exact boxes_example. Qed.
Example C113_sender_example : exists fr t,
  clean_and_convert (hex_string ex_air_encoded) = ex_air_encoded /\ bytes_ok ex_air_encoded /\ not_wired ex_air_encoded /\ received ex_air_encoded ex_air /\
  wireless_meaning ex_air fr /\ parse_to_mermaid ex_env ex_display (hex_string ex_air_encoded) = Ok t /\ mi_version (wf_manufacturer_id fr) = 1.
Proof. exact sender_example. Qed.
