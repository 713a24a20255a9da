(** Model of the JSON outputs: the documents that the [Serialize] derives of src/output.rs and src/annotate.rs make, and
    the text that [serde_json::to_string_pretty] makes of a document.  The crate serde_json is not in /repo: its writer
    ([PrettyFormatter], [format_escaped_str]) is modelled from its documentation. *)
From Coq Require Import List NArith ZArith Bool String.
Import ListNotations.
From Verif Require Import Model.Base Model.Text Model.Core Model.F64 Model.Hex Model.Wired Model.Record Model.MbusData Model.Show
  Model.Output.
Open Scope N_scope.
Open Scope list_scope.

(** [serde_json::Value] as used by output.rs and mbus_data.rs; a number is its text *)
Inductive json :=
| VNull
| VBool (b : bool)
| VNumber (t : text)
| VString (t : text)
| VArray (l : list json)
| VObject (m : list (text * json)).

(** ** The writer: output.rs:526 and mbus_data.rs:621, 1186, 1224, 1245 and 1262 call it *)

(** one character in a string; a number has two lower case hexadecimal digits after [\u00] *)
Definition hex_low (n : N) : N := if n <? 10 then 48 + n else 87 + n.
Definition json_char (c : N) : text :=
  if c =? 0x22 then [0x5C; 0x22] else if c =? 0x5C then [0x5C; 0x5C]
  else if c =? 8 then [0x5C; 0x62] else if c =? 9 then [0x5C; 0x74] else if c =? 10 then [0x5C; 0x6E]
  else if c =? 12 then [0x5C; 0x66] else if c =? 13 then [0x5C; 0x72]
  else if c <? 0x20 then [0x5C; 0x75; 48; 48; hex_low (c / 16); hex_low (c mod 16)]
  else [c].
(** a string, output.rs:526 *)
Definition json_string (t : text) : text := [0x22] ++ flat_map json_char t ++ [0x22].
(** a new line indented for depth [d], output.rs:526 *)
Definition new_line (d : nat) : text := 10 :: concat (repeat (txt "  ") d).
(** the parts of an array or object, one per line, output.rs:526 *)
Fixpoint lines (d : nat) (parts : list text) : text :=
  match parts with
  | [] => []
  | [p] => new_line d ++ p
  | p :: rest => new_line d ++ p ++ txt "," ++ lines d rest
  end.
(** a value whose first line is indented for depth [d], output.rs:526 *)
Fixpoint write (d : nat) (v : json) : text :=
  match v with
  | VNull => txt "null"
  | VBool b => if b then txt "true" else txt "false"
  | VNumber t => t
  | VString t => json_string t
  | VArray [] => txt "[]"
  | VArray l => txt "[" ++ lines (S d) (map (write (S d)) l) ++ new_line d ++ txt "]"
  | VObject [] => txt "{}"
  | VObject m =>
      txt "{" ++ lines (S d) (map (fun '(k, x) => json_string k ++ txt ": " ++ write (S d) x) m) ++ new_line d ++ txt "}"
  end.
(** [serde_json::to_string_pretty], output.rs:526 *)
Definition to_string_pretty (v : json) : text := write 0 v.

(** ** The document of a decoded frame *)

(** a field that is always there, one with [skip_serializing_if = "Option::is_none"], and one with
    [skip_serializing_if = "Vec::is_empty"]: output.rs:212-384 *)
Definition always (name : string) (v : json) : list (text * json) := [(txt name, v)].
Definition if_some {A} (name : string) (f : A -> json) (o : option A) : list (text * json) :=
  match o with Some a => [(txt name, f a)] | None => [] end.
Definition if_any {A} (name : string) (f : A -> json) (l : list A) : list (text * json) :=
  match l with [] => [] | _ => [(txt name, VArray (map f l))] end.
(** an integer, output.rs:214 and others *)
Definition VInt (n : N) : json := VNumber (dec n).

(** output.rs:228-237 *)
Definition frame_json (f : frame_output) : json :=
  VObject (always "kind" (VString (fo_kind f)) ++ if_some "function" VString (fo_function f)
           ++ if_some "address" VString (fo_address f) ++ if_some "control_field" VString (fo_control_field f)).
(** output.rs:239-252 *)
Definition identity_json (i : meter_identity) : json :=
  VObject (always "source" (VString (id_source i)) ++ if_some "id" VString (id_id i)
           ++ if_some "manufacturer_code" VString (id_manufacturer_code i) ++ if_some "version" VInt (id_version i)
           ++ if_some "device_type" VString (id_device_type i) ++ if_some "device_type_code" VInt (id_device_type_code i)).
(** output.rs:254-260 *)
Definition meter_json (d : decoded_output) : json :=
  VObject (if_some "identity" identity_json (do_identity d)
           ++ if_any "alternate_identities" identity_json (do_alternate_identities d)).
(** output.rs:262-266, 268-273, 275-279 *)
Definition access_json (x : text * N) : json := VObject (always "source" (VString (fst x)) ++ always "value" (VInt (snd x))).
Definition status_json (x : text * text * text) : json :=
  let '(source, raw, display) := x in
  VObject (always "source" (VString source) ++ always "raw" (VString raw) ++ always "display" (VString display)).
Definition configuration_json (x : text * text) : json :=
  VObject (always "source" (VString (fst x)) ++ always "raw" (VString (snd x))).
(** output.rs:281-293 *)
Definition ell_json (e : ell_out) : json :=
  VObject (always "communication_control" (VString (eo_communication_control e))
           ++ always "access_number" (VInt (eo_access_number e))
           ++ if_some "receiver_manufacturer" VString (eo_receiver_manufacturer e)
           ++ if_some "receiver_address" VString (eo_receiver_address e)
           ++ if_some "session_number" VString (eo_session_number e) ++ if_some "payload_crc" VString (eo_payload_crc e)).
(** output.rs:295-307 *)
Definition transport_json (t : transport_output) : json :=
  VObject (if_some "header_kind" VString (to_header_kind t) ++ if_any "access_numbers" access_json (to_access_numbers t)
           ++ if_any "statuses" status_json (to_statuses t) ++ if_some "configuration" configuration_json (to_configuration t)
           ++ if_some "ell" ell_json (to_ell t)).
(** output.rs:309-322 *)
Definition security_json (s : security_output) : json :=
  VObject (always "payload_protection" (VString (so_payload_protection s)) ++ if_some "mode" VString (so_mode s)
           ++ if_some "mode_code" VInt (so_mode_code s) ++ always "decryption_state" (VString (so_decryption_state s))
           ++ always "key_supplied" (VBool (so_key_supplied s))
           ++ if_some "encrypted_payload_hex" VString (so_encrypted_payload_hex s)
           ++ if_some "decrypted_payload_hex" VString (so_decrypted_payload_hex s)).
(** output.rs:341-351; [number] is the text serde_json gives to a finite f64 *)
Definition json_value_json (number : f64 -> text) (v : json_value) : json :=
  match v with
  | JString t => VString t
  | JFloat x => VNumber (number x)
  | JObject components =>
      VObject (map (fun '(k, c) => (k, match c with inl n => VInt n | inr t => VString t end)) components)
  end.
Definition value_json (number : f64 -> text) (v : value_out) : json :=
  VObject (always "kind" (VString (vo_kind v)) ++ if_some "value" (json_value_json number) (vo_value v)).
(** output.rs:324-339 *)
Definition record_json (number : f64 -> text) (r : record_out) : json :=
  VObject (always "index" (VInt (ro_index r)) ++ always "function" (VString (ro_function r))
           ++ always "storage_number" (VInt (ro_storage_number r)) ++ always "tariff" (VInt (ro_tariff r))
           ++ always "subunit" (VInt (ro_subunit r)) ++ always "quantities" (VArray (map VString (ro_quantities r)))
           ++ always "value" (value_json number (ro_value r)) ++ if_some "unit" VString (ro_unit r)
           ++ always "data_coding" (VString (ro_data_coding r)) ++ always "header_hex" (VString (ro_header_hex r))
           ++ always "data_hex" (VString (ro_data_hex r))).
(** output.rs:353-363 *)
Definition raw_json (r : raw_output) : json :=
  VObject (if_some "input" VString (rw_input r) ++ always "original_frame_hex" (VString (rw_original_frame_hex r))
           ++ always "normalized_frame_hex" (VString (rw_normalized_frame_hex r))
           ++ always "byte_length" (VInt (rw_byte_length r))
           ++ always "format_a_crc_stripped" (VBool (rw_format_a_crc_stripped r))
           ++ if_some "payload_hex" VString (rw_payload_hex r)).
(** output.rs:365-375; [offset_end] is never there *)
Definition diagnostic_json (d : diagnostic) : json :=
  VObject (always "severity" (VString (dg_severity d)) ++ always "code" (VString (dg_code d))
           ++ always "layer" (VString (dg_layer d)) ++ always "message" (VString (dg_message d))
           ++ if_some "offset_start" VInt (dg_offset_start d)).
(** output.rs:377-384 and 1242-1250; the code is that of the identity (output.rs:986-994) *)
Definition enrichment_json (code : option text) (e : text * text * text) : json :=
  let '(name, website, description) := e in
  VObject (always "source" (VString (txt "bundled_manufacturer_registry"))
           ++ always "manufacturer_code" (VString (match code with Some c => c | None => [] end))
           ++ always "manufacturer_name" (VString name) ++ always "manufacturer_website" (VString website)
           ++ always "manufacturer_description" (VString description)).
(** output.rs:212-226; 23 for the version *)
Definition decoded_json (number : f64 -> text) (d : decoded_output) : json :=
  VObject (always "schema_version" (VInt 3) ++ always "decode_state" (VString (do_decode_state d))
           ++ always "protocol" (VString (do_protocol d)) ++ always "frame" (frame_json (do_frame d))
           ++ always "meter" (meter_json d) ++ always "transport" (transport_json (do_transport d))
           ++ always "security" (security_json (do_security d))
           ++ always "records" (VArray (map (record_json number) (do_records d))) ++ always "raw" (raw_json (do_raw d))
           ++ always "diagnostics" (VArray (map diagnostic_json (do_diagnostics d)))
           ++ if_some "enrichment"
                (enrichment_json (match do_identity d with Some i => id_manufacturer_code i | None => None end))
                (do_enrichment d)).

(** output.rs:526 *)
Definition render_json (number : f64 -> text) (d : decoded_output) : text := to_string_pretty (decoded_json number d).
