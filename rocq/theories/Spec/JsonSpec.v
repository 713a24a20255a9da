(** JSON texts (RFC 8259), and what the JSON outputs should say. *)
From Coq Require Import List NArith ZArith Bool String.
Import ListNotations.
From Verif Require Import Model.Base Model.Text Model.F64 Model.Show Model.Output Model.Json.
Open Scope N_scope.
Open Scope list_scope.

(** ** The grammar *)

(** RFC 8259, section 2 *)
Definition blank (c : N) : Prop := c = 0x20 \/ c = 9 \/ c = 10 \/ c = 13.
Definition blanks (t : text) : Prop := Forall blank t.

(** section 6: numbers *)
Definition digit (c : N) : Prop := 48 <= c <= 57.
Definition digits (t : text) : Prop := t <> [] /\ Forall digit t.
Definition whole_part (t : text) : Prop := t = [48] \/ (exists c rest, t = c :: rest /\ 49 <= c <= 57 /\ Forall digit rest).
Definition fraction (t : text) : Prop := t = [] \/ (exists ds, t = 46 :: ds /\ digits ds).
Definition exponent (t : text) : Prop :=
  t = [] \/ (exists e sign ds, t = e :: sign ++ ds /\ (e = 101 \/ e = 69) /\ (sign = [] \/ sign = [43] \/ sign = [45]) /\ digits ds).
Definition numeral (t : text) : Prop :=
  exists sign w f e, t = sign ++ w ++ f ++ e /\ (sign = [] \/ sign = [45]) /\ whole_part w /\ fraction f /\ exponent e.

(** section 7: strings.  [hex_value c n]: the hexadecimal digit [c] stands for [n]. *)
Inductive hex_value : N -> N -> Prop :=
| HexDigit n : n < 10 -> hex_value (48 + n) n
| HexUpper n : 10 <= n < 16 -> hex_value (55 + n) n
| HexLower n : 10 <= n < 16 -> hex_value (87 + n) n.
Definition four_hex (a b c d u : N) : Prop :=
  exists x y z w, hex_value a x /\ hex_value b y /\ hex_value c z /\ hex_value d w /\ u = ((x * 16 + y) * 16 + z) * 16 + w.
Definition short_escapes : list (N * N) :=
  [(0x22, 0x22); (0x5C, 0x5C); (0x2F, 0x2F); (0x62, 8); (0x66, 12); (0x6E, 10); (0x72, 13); (0x74, 9)].
(** [chars raw t]: between quotes, [raw] stands for the characters [t].  Texts are made of Unicode characters. *)
Inductive chars : text -> text -> Prop :=
| CharsNone : chars [] []
| CharsPlain c raw t : 0x20 <= c -> c <> 0x22 -> c <> 0x5C -> chars raw t -> chars (c :: raw) (c :: t)
| CharsShort e c raw t : In (e, c) short_escapes -> chars raw t -> chars (0x5C :: e :: raw) (c :: t)
| CharsHex a b c d u raw t : four_hex a b c d u -> ~ (0xD800 <= u <= 0xDFFF) -> chars raw t ->
    chars (0x5C :: 0x75 :: a :: b :: c :: d :: raw) (u :: t)
| CharsPair a b c d hi a' b' c' d' lo raw t : four_hex a b c d hi -> 0xD800 <= hi <= 0xDBFF ->
    four_hex a' b' c' d' lo -> 0xDC00 <= lo <= 0xDFFF -> chars raw t ->
    chars (0x5C :: 0x75 :: a :: b :: c :: d :: 0x5C :: 0x75 :: a' :: b' :: c' :: d' :: raw)
      (0x10000 + (hi - 0xD800) * 0x400 + (lo - 0xDC00) :: t).
Definition quoted (raw : text) : text := 0x22 :: raw ++ [0x22].

(** sections 3 to 5: values *)
Inductive value : text -> json -> Prop :=
| IsNull : value (txt "null") VNull
| IsTrue : value (txt "true") (VBool true)
| IsFalse : value (txt "false") (VBool false)
| IsNumber t : numeral t -> value t (VNumber t)
| IsString raw t : chars raw t -> value (quoted raw) (VString t)
| IsEmptyArray w : blanks w -> value (txt "[" ++ w ++ txt "]") (VArray [])
| IsArray t l : elements t l -> value (txt "[" ++ t ++ txt "]") (VArray l)
| IsEmptyObject w : blanks w -> value (txt "{" ++ w ++ txt "}") (VObject [])
| IsObject t m : members t m -> value (txt "{" ++ t ++ txt "}") (VObject m)
with elements : text -> list json -> Prop :=
| LastElement w t v w' : blanks w -> value t v -> blanks w' -> elements (w ++ t ++ w') [v]
| MoreElements w t v w' rest l : blanks w -> value t v -> blanks w' -> elements rest l ->
    elements (w ++ t ++ w' ++ txt "," ++ rest) (v :: l)
with members : text -> list (text * json) -> Prop :=
| LastMember w raw k w1 w2 t v w3 : blanks w -> chars raw k -> blanks w1 -> blanks w2 -> value t v -> blanks w3 ->
    members (w ++ quoted raw ++ w1 ++ txt ":" ++ w2 ++ t ++ w3) [(k, v)]
| MoreMembers w raw k w1 w2 t v w3 rest m : blanks w -> chars raw k -> blanks w1 -> blanks w2 -> value t v -> blanks w3 ->
    members rest m -> members (w ++ quoted raw ++ w1 ++ txt ":" ++ w2 ++ t ++ w3 ++ txt "," ++ rest) ((k, v) :: m).

(** [json_text t v]: [t] is a JSON text, and [v] its value *)
Definition json_text (t : text) (v : json) : Prop := exists w t' w', t = w ++ t' ++ w' /\ blanks w /\ blanks w' /\ value t' v.

(** ** Looking into a value *)

(** the members of an object, and the one of this name *)
Definition fields_of (v : json) : list (text * json) := match v with VObject m => m | _ => [] end.
Definition field (v : json) (name : string) : option json :=
  option_map snd (find (fun '(k, _) => text_eqb k (txt name)) (fields_of v)).
(** every object in it names each of its members once *)
Inductive distinct : json -> Prop :=
| DistinctAtom v : (match v with VArray _ | VObject _ => False | _ => True end) -> distinct v
| DistinctArray l : Forall distinct l -> distinct (VArray l)
| DistinctObject m : NoDup (map fst m) -> Forall distinct (map snd m) -> distinct (VObject m).

(** a text of [v] and of nothing else, all names distinct *)
Definition only_value (t : text) (v : json) : Prop := json_text t v /\ (forall v', json_text t v' -> v' = v) /\ distinct v.

(** a text, a number, a flag, and lists of values; something that may be missing: then there is no such member *)
Definition text_of (o : option json) (t : text) : Prop := o = Some (VString t).
Definition number_of (o : option json) (n : N) : Prop := o = Some (VNumber (dec n)).
Definition flag_of (o : option json) (b : bool) : Prop := o = Some (VBool b).
Definition list_of {A} (is : A -> json -> Prop) (o : option json) (l : list A) : Prop :=
  exists vs, o = Some (VArray vs) /\ Forall2 is l vs.
Definition if_there {A} (is : option json -> A -> Prop) (o : option json) (x : option A) : Prop :=
  match x with Some a => is o a | None => o = None end.
Definition if_not_empty {A} (is : A -> json -> Prop) (o : option json) (l : list A) : Prop :=
  match l with [] => o = None | _ => list_of is o l end.
Definition inside (is : json -> Prop) (o : option json) : Prop := exists v, o = Some v /\ is v.

(** what is asked of the text of a number that is not an integer: it is a numeral, and other numbers have other texts *)
Definition finite (x : f64) : Prop := match x with S754_zero _ | S754_finite _ _ _ => True | _ => False end.
Definition numerals (number : f64 -> text) : Prop := forall x, finite x -> numeral (number x).
Definition apart (number : f64 -> text) : Prop := forall x y, finite x -> finite y -> number x = number y -> x = y.

(** ** The decoded frame *)
Definition says_frame (f : frame_output) (v : json) : Prop :=
  text_of (field v "kind") (fo_kind f) /\ if_there text_of (field v "function") (fo_function f) /\
  if_there text_of (field v "address") (fo_address f) /\ if_there text_of (field v "control_field") (fo_control_field f).
Definition says_identity (i : meter_identity) (v : json) : Prop :=
  text_of (field v "source") (id_source i) /\ if_there text_of (field v "id") (id_id i) /\
  if_there text_of (field v "manufacturer_code") (id_manufacturer_code i) /\
  if_there number_of (field v "version") (id_version i) /\ if_there text_of (field v "device_type") (id_device_type i) /\
  if_there number_of (field v "device_type_code") (id_device_type_code i).
Definition says_meter (d : decoded_output) (v : json) : Prop :=
  if_there (fun o i => inside (says_identity i) o) (field v "identity") (do_identity d) /\
  if_not_empty says_identity (field v "alternate_identities") (do_alternate_identities d).
Definition says_access (x : text * N) (v : json) : Prop :=
  text_of (field v "source") (fst x) /\ number_of (field v "value") (snd x).
Definition says_status (x : text * text * text) (v : json) : Prop :=
  let '(source, raw, display) := x in
  text_of (field v "source") source /\ text_of (field v "raw") raw /\ text_of (field v "display") display.
Definition says_configuration (x : text * text) (v : json) : Prop :=
  text_of (field v "source") (fst x) /\ text_of (field v "raw") (snd x).
Definition says_ell (e : ell_out) (v : json) : Prop :=
  text_of (field v "communication_control") (eo_communication_control e) /\
  number_of (field v "access_number") (eo_access_number e) /\
  if_there text_of (field v "receiver_manufacturer") (eo_receiver_manufacturer e) /\
  if_there text_of (field v "receiver_address") (eo_receiver_address e) /\
  if_there text_of (field v "session_number") (eo_session_number e) /\
  if_there text_of (field v "payload_crc") (eo_payload_crc e).
Definition says_transport (t : transport_output) (v : json) : Prop :=
  if_there text_of (field v "header_kind") (to_header_kind t) /\
  if_not_empty says_access (field v "access_numbers") (to_access_numbers t) /\
  if_not_empty says_status (field v "statuses") (to_statuses t) /\
  if_there (fun o c => inside (says_configuration c) o) (field v "configuration") (to_configuration t) /\
  if_there (fun o e => inside (says_ell e) o) (field v "ell") (to_ell t).
Definition says_security (s : security_output) (v : json) : Prop :=
  text_of (field v "payload_protection") (so_payload_protection s) /\ if_there text_of (field v "mode") (so_mode s) /\
  if_there number_of (field v "mode_code") (so_mode_code s) /\
  text_of (field v "decryption_state") (so_decryption_state s) /\ flag_of (field v "key_supplied") (so_key_supplied s) /\
  if_there text_of (field v "encrypted_payload_hex") (so_encrypted_payload_hex s) /\
  if_there text_of (field v "decrypted_payload_hex") (so_decrypted_payload_hex s).
(** the value of a record: a text; a number, of which [number] is the text; or the parts of a date, each a number or a word *)
Definition says_value (number : f64 -> text) (x : json_value) (v : json) : Prop :=
  match x with
  | JString t => v = VString t
  | JFloat f => v = VNumber (number f)
  | JObject parts => exists m, v = VObject m /\
      Forall2 (fun part y => fst y = fst part /\
                 match snd part with inl n => snd y = VNumber (dec n) | inr t => snd y = VString t end) parts m
  end.
Definition says_value_out (number : f64 -> text) (x : value_out) (v : json) : Prop :=
  text_of (field v "kind") (vo_kind x) /\
  if_there (fun o y => inside (says_value number y) o) (field v "value") (vo_value x).
Definition says_record (number : f64 -> text) (r : record_out) (v : json) : Prop :=
  number_of (field v "index") (ro_index r) /\ text_of (field v "function") (ro_function r) /\
  number_of (field v "storage_number") (ro_storage_number r) /\ number_of (field v "tariff") (ro_tariff r) /\
  number_of (field v "subunit") (ro_subunit r) /\
  list_of (fun q x => x = VString q) (field v "quantities") (ro_quantities r) /\
  inside (says_value_out number (ro_value r)) (field v "value") /\ if_there text_of (field v "unit") (ro_unit r) /\
  text_of (field v "data_coding") (ro_data_coding r) /\ text_of (field v "header_hex") (ro_header_hex r) /\
  text_of (field v "data_hex") (ro_data_hex r).
Definition says_raw (r : raw_output) (v : json) : Prop :=
  if_there text_of (field v "input") (rw_input r) /\ text_of (field v "original_frame_hex") (rw_original_frame_hex r) /\
  text_of (field v "normalized_frame_hex") (rw_normalized_frame_hex r) /\
  number_of (field v "byte_length") (rw_byte_length r) /\
  flag_of (field v "format_a_crc_stripped") (rw_format_a_crc_stripped r) /\
  if_there text_of (field v "payload_hex") (rw_payload_hex r).
Definition says_diagnostic (d : diagnostic) (v : json) : Prop :=
  text_of (field v "severity") (dg_severity d) /\ text_of (field v "code") (dg_code d) /\
  text_of (field v "layer") (dg_layer d) /\ text_of (field v "message") (dg_message d) /\
  if_there number_of (field v "offset_start") (dg_offset_start d).
Definition says_enrichment (code : text) (x : text * text * text) (v : json) : Prop :=
  let '(name, website, description) := x in
  text_of (field v "source") (txt "bundled_manufacturer_registry") /\ text_of (field v "manufacturer_code") code /\
  text_of (field v "manufacturer_name") name /\ text_of (field v "manufacturer_website") website /\
  text_of (field v "manufacturer_description") description.
(** the code of the manufacturer that the enrichment is about *)
Definition identity_code (d : decoded_output) (code : text) : Prop :=
  exists i, do_identity d = Some i /\ id_manufacturer_code i = Some code.
Definition says_decoded (number : f64 -> text) (d : decoded_output) (v : json) : Prop :=
  number_of (field v "schema_version") 3 /\ text_of (field v "decode_state") (do_decode_state d) /\
  text_of (field v "protocol") (do_protocol d) /\ inside (says_frame (do_frame d)) (field v "frame") /\
  inside (says_meter d) (field v "meter") /\ inside (says_transport (do_transport d)) (field v "transport") /\
  inside (says_security (do_security d)) (field v "security") /\
  list_of (says_record number) (field v "records") (do_records d) /\ inside (says_raw (do_raw d)) (field v "raw") /\
  list_of says_diagnostic (field v "diagnostics") (do_diagnostics d) /\
  if_there (fun o e => exists code, identity_code d code /\ inside (says_enrichment code e) o)
    (field v "enrichment") (do_enrichment d).
