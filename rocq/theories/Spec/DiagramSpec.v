(** What the diagram of a frame should contain. *)
From Coq Require Import List NArith String.
Import ListNotations.
From Verif Require Import Model.Base Model.Text Model.F64 Model.Show Model.Output Spec.EscapeSpec Spec.RenderSpec Spec.MermaidSpec.
Open Scope N_scope.
Open Scope list_scope.

Definition with_dot (a b : text) : text := a ++ [32; 0xB7; 32] ++ b.

(** what a group of nodes says: name of the node and text *)
Definition frame_says (d : decoded_output) : list (text * text) :=
  [(txt "FRAME_KIND", with_dot (do_protocol d) (fo_kind (do_frame d)))]
  ++ (match fo_function (do_frame d) with Some f => [(txt "FRAME_FUNCTION", with_dot (txt "Function") f)] | None => [] end)
  ++ (match fo_address (do_frame d) with Some a => [(txt "FRAME_ADDRESS", with_dot (txt "Address") a)] | None => [] end).
Definition meter_says (d : decoded_output) : list (text * text) :=
  match do_identity d with
  | None => []
  | Some i =>
      [(txt "METER_ID", with_dot (txt "ID") (given (id_id i) (txt "unknown")));
       (txt "METER_MANUFACTURER", with_dot (txt "Manufacturer") (given (id_manufacturer_code i) (txt "unknown manufacturer")))]
      ++ (match id_device_type i with Some t => [(txt "METER_TYPE", with_dot (txt "Type") t)] | None => [] end)
      ++ (match id_version i with Some v => [(txt "METER_VERSION", with_dot (txt "Version") (dec v))] | None => [] end)
  end.
Definition security_says (d : decoded_output) : list (text * text) :=
  [(txt "SECURITY_MODE", so_payload_protection (do_security d)); (txt "SECURITY_STATE", so_decryption_state (do_security d))].
Definition diagnostics_say (d : decoded_output) : list (text * text) :=
  match do_diagnostics d with
  | [] => []
  | g :: _ => [(txt "DIAG", with_dot (dec (N.of_nat (List.length (do_diagnostics d))) ++ txt " diagnostic(s)") (dg_code g))]
  end.
(** one node for each record, numbered from 0, with its reading *)
Definition records_say (number : f64 -> text) (d : decoded_output) (l : list (text * text)) : Prop :=
  List.length l = List.length (do_records d) /\
  forall i r, nth_error (do_records d) i = Some r ->
    exists t, nth_error l i = Some (txt "R" ++ dec (N.of_nat i), t) /\ shown_reading number r t.

(** [written said nodes]: the nodes with these names and, escaped, these texts *)
Definition written (said nodes : list (text * text)) : Prop :=
  Forall2 (fun x y => fst x = fst y /\ escaped xml_entities label_forbidden (snd y) (one_line (snd x))) said nodes.

(** the arrows: along the nodes of the frame, the meter and security; from the frame to the
    other groups, and from the meter to the records *)
Definition expected_arrows (d : decoded_output) : list (text * text) :=
  let has_meter := match do_identity d with Some _ => true | None => false end in
  chain (map fst (frame_says d)) ++ chain (map fst (meter_says d))
  ++ (if has_meter then [(txt "FRAME_SG", txt "METER_SG")] else [])
  ++ [(txt "SECURITY_MODE", txt "SECURITY_STATE"); (txt "FRAME_SG", txt "SECURITY_SG")]
  ++ (match do_records d with
      | [] => []
      | _ => [(if has_meter then txt "METER_SG" else txt "FRAME_SG", txt "RECORDS_SG")]
      end)
  ++ (match do_diagnostics d with [] => [] | _ => [(txt "FRAME_SG", txt "DIAG")] end).
