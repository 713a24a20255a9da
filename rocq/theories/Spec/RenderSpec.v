(** What the text formats should show, written without reference to the code that renders. *)
From Coq Require Import List NArith String.
Import ListNotations.
From Verif Require Import Model.Base Model.Text Model.F64 Model.Show Model.Output Spec.TableSpec.
Open Scope N_scope.

(** the texts one after the other with a separator between them *)
Fixpoint separated (sep : text) (l : list text) : text :=
  match l with
  | [] => []
  | [t] => t
  | t :: rest => t ++ sep ++ separated sep rest
  end.

(** [shown_value number r t]: [t] is the value of the record as text: the text of the value
    itself; the components of an incomplete date; the bytes of manufacturer data; a remark *)
Inductive shown_value (number : f64 -> text) (r : record_out) : text -> Prop :=
| SvText t : vo_value (ro_value r) = Some (JString t) -> shown_value number r t
| SvNumber x : vo_value (ro_value r) = Some (JFloat x) -> shown_value number r (number x)
| SvComponents components :
    vo_value (ro_value r) = Some (JObject components) ->
    shown_value number r (separated (txt ", ")
      (map (fun c => fst c ++ txt "=" ++ match snd c with inl n => dec n | inr w => w end) components))
| SvBytes : vo_value (ro_value r) = None -> vo_kind (ro_value r) = txt "manufacturer_specific" ->
    shown_value number r (filter (fun c => negb (c =? 32)) (ro_data_hex r))
| SvNothing : vo_value (ro_value r) = None -> vo_kind (ro_value r) = txt "none" -> shown_value number r (txt "No data")
| SvUnknown : vo_value (ro_value r) = None -> vo_kind (ro_value r) = txt "unknown" ->
    shown_value number r (txt "Unsupported value type").

(** [shown_reading number r t]: quantity, value and unit *)
Definition shown_reading (number : f64 -> text) (r : record_out) (t : text) : Prop :=
  exists v, shown_value number r v /\
    t = (match ro_quantities r with [] => txt "Reading" | q => separated (txt ", ") q end)
        ++ txt ": " ++ v ++ (match ro_unit r with Some u => txt " " ++ u | None => [] end).

(** the bytes of the record, header first *)
Definition shown_bytes (r : record_out) (t : text) : Prop :=
  t = separated (txt " ") (filter (fun x => match x with [] => false | _ => true end) [ro_header_hex r; ro_data_hex r]).

(** storage number, tariff and subunit *)
Definition shown_numbers (r : record_out) : text :=
  separated (txt "/") [dec (ro_storage_number r); dec (ro_tariff r); dec (ro_subunit r)].

(** [column headers row name cell]: under the header [name] stands [cell] *)
Definition column (headers row : list text) (name cell : text) : Prop :=
  exists k, nth_error headers k = Some name /\ nth_error row k = Some cell.

(** the text, or none *)
Definition given (o : option text) (default : text) : text := match o with Some t => t | None => default end.

(** what a table says about the frame *)
Definition frame_summary (d : decoded_output) : list (text * text) :=
  let dash := [0x2014] in
  [ (txt "Function", given (fo_function (do_frame d)) dash);
    (txt "Meter", given (match do_identity d with Some i => id_id i | None => None end) dash);
    (txt "Manufacturer", given (match do_identity d with Some i => id_manufacturer_code i | None => None end) dash);
    (txt "Device", given (match do_identity d with Some i => id_device_type i | None => None end) dash);
    (txt "Security", so_payload_protection (do_security d) ++ [32; 0xB7; 32] ++ so_decryption_state (do_security d)) ]
  ++ match do_enrichment d with
     | Some (name, website, description) =>
         [(txt "Manufacturer name", name); (txt "Website", website); (txt "Description", description)]
     | None => []
     end.

(** [fields cw lines rows]: the lines are a box with the columns Field and Value *)
Definition field_box (cw : N -> N) (width : N) (rows : list (text * text)) (lines : list text) : Prop :=
  exists widths, table_width widths = width /\
    boxed cw widths [txt "Field"; txt "Value"] (map (fun r => [fst r; snd r]) rows) lines.

(** [records_shown number cw width records lines]: a table of the records; wide ones have a
    column for each part, narrower ones put coding and bytes under the reading, the narrowest
    have a box for each record *)
Inductive records_shown (number : f64 -> text) (cw : N -> N) (width : N) (records : list record_out) : list text -> Prop :=
| RsNone : records = [] -> records_shown number cw width records []
| RsWide widths rows lines : records <> [] -> 100 <= width -> table_width widths = width ->
    Forall2 (fun r row => exists reading bytes, shown_reading number r reading /\ shown_bytes r bytes /\
      row = [dec (ro_index r); reading; ro_function r; shown_numbers r; ro_data_coding r; bytes]) records rows ->
    boxed cw widths [txt "#"; txt "Reading"; txt "Function"; txt "S/T/U"; txt "Coding"; txt "Raw"] rows lines ->
    records_shown number cw width records lines
| RsMedium widths rows lines : records <> [] -> 72 <= width < 100 -> table_width widths = width ->
    Forall2 (fun r row => exists reading bytes, shown_reading number r reading /\ shown_bytes r bytes /\
      row = [dec (ro_index r); reading ++ [10] ++ ro_data_coding r ++ [32; 0xB7; 32] ++ txt "raw " ++ bytes;
             ro_function r; shown_numbers r]) records rows ->
    boxed cw widths [txt "#"; txt "Reading / detail"; txt "Function"; txt "S/T/U"] rows lines ->
    records_shown number cw width records lines
| RsNarrow boxes : records <> [] -> 32 <= width < 72 ->
    Forall2 (fun r box => exists reading bytes lines, shown_reading number r reading /\ shown_bytes r bytes /\
      field_box cw width [(txt "Reading", reading); (txt "Function", ro_function r);
                          (txt "Storage/Tariff/Subunit", shown_numbers r); (txt "Coding", ro_data_coding r);
                          (txt "Raw", bytes)] lines /\
      box = (txt "Record " ++ dec (ro_index r)) :: lines) records boxes ->
    records_shown number cw width records (concat boxes).

(** the problems found, with their severity *)
Inductive diagnostics_shown (cw : N -> N) (width : N) (diagnostics : list diagnostic) : list text -> Prop :=
| DsNone : diagnostics = [] -> diagnostics_shown cw width diagnostics []
| DsSome lines : diagnostics <> [] ->
    field_box cw width (map (fun g => (dg_code g, dg_severity g ++ txt ": " ++ dg_message g)) diagnostics) lines ->
    diagnostics_shown cw width diagnostics (txt "Diagnostics" :: lines).

(** *** One row for the frame *)

(** [frame_column d name cell]: what the row says about the frame; what is not known is empty *)
Inductive frame_column (d : decoded_output) : text -> text -> Prop :=
| FcVersion : frame_column d (txt "schema_version") (txt "3")
| FcProtocol : frame_column d (txt "protocol") (do_protocol d)
| FcKind : frame_column d (txt "frame_kind") (fo_kind (do_frame d))
| FcFunction : frame_column d (txt "frame_function") (given (fo_function (do_frame d)) [])
| FcAddress : frame_column d (txt "address") (given (fo_address (do_frame d)) [])
| FcMeter i : do_identity d = Some i -> frame_column d (txt "meter_id") (given (id_id i) [])
| FcManufacturer i : do_identity d = Some i -> frame_column d (txt "manufacturer_code") (given (id_manufacturer_code i) [])
| FcSource i : do_identity d = Some i -> frame_column d (txt "identity_source") (id_source i)
| FcNoIdentity name : do_identity d = None ->
    In name [txt "meter_id"; txt "manufacturer_code"; txt "identity_source"] -> frame_column d name []
| FcAccess : frame_column d (txt "access_numbers")
    (separated (txt "|") (map (fun a => fst a ++ txt ":" ++ dec (snd a)) (to_access_numbers (do_transport d))))
| FcStatus : frame_column d (txt "status_codes")
    (separated (txt "|") (map (fun s => snd (fst s)) (to_statuses (do_transport d))))
| FcMode : frame_column d (txt "security_mode") (given (so_mode (do_security d)) [])
| FcDecryption : frame_column d (txt "decryption_state") (so_decryption_state (do_security d))
| FcState : frame_column d (txt "decode_state") (do_decode_state d)
| FcCount : frame_column d (txt "record_count") (dec (N.of_nat (List.length (do_records d))))
| FcDiagnostics : frame_column d (txt "diagnostic_codes") (separated (txt "|") (map dg_code (do_diagnostics d)))
| FcName name website description : do_enrichment d = Some (name, website, description) ->
    frame_column d (txt "manufacturer_name") name
| FcWebsite name website description : do_enrichment d = Some (name, website, description) ->
    frame_column d (txt "manufacturer_website") website
| FcNoEnrichment name : do_enrichment d = None ->
    In name [txt "manufacturer_name"; txt "manufacturer_website"] -> frame_column d name []
| FcHex : frame_column d (txt "frame_hex") (rw_original_frame_hex (do_raw d)).

(** [record_column number r field cell]: what the row says about a record *)
Inductive record_column (number : f64 -> text) (r : record_out) : text -> text -> Prop :=
| RcFunction : record_column number r (txt "function") (ro_function r)
| RcStorage : record_column number r (txt "storage_number") (dec (ro_storage_number r))
| RcTariff : record_column number r (txt "tariff") (dec (ro_tariff r))
| RcSubunit : record_column number r (txt "subunit") (dec (ro_subunit r))
| RcQuantities : record_column number r (txt "quantities") (separated (txt "|") (ro_quantities r))
| RcType : record_column number r (txt "value_type") (vo_kind (ro_value r))
| RcValue v : shown_value number r v -> record_column number r (txt "value") v
| RcUnit : record_column number r (txt "unit") (given (ro_unit r) [])
| RcCoding : record_column number r (txt "data_coding") (ro_data_coding r)
| RcHeader : record_column number r (txt "header_hex") (ro_header_hex r)
| RcData : record_column number r (txt "data_hex") (ro_data_hex r).

(** [csv_column number d name cell]: the columns of a frame: those about the frame, and those of
    each record, numbered from 0 *)
Definition csv_column (number : f64 -> text) (d : decoded_output) (name cell : text) : Prop :=
  frame_column d name cell \/
  exists i r field, nth_error (do_records d) i = Some r /\ record_column number r field cell /\
    name = txt "record_" ++ dec (N.of_nat i) ++ txt "_" ++ field.
