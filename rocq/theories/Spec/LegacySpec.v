(** What the older outputs ("csv-wide", "json-legacy", "yaml-legacy") should say, written without reference to the code
    that makes them. *)
From Coq Require Import List NArith ZArith String.
Import ListNotations.
From Verif Require Import Model.Base Model.Text Model.Core Model.F64 Model.DataInfo Model.ValueInfo Model.Record Model.Output
  Model.Show Model.Escape Model.Legacy Spec.CoreSpec Spec.WiredSpec Spec.VifSpec Spec.OutputSpec Spec.DetailSpec Spec.RenderSpec.
Open Scope N_scope.
Open Scope list_scope.

(** three capital letters *)
Definition three_capitals (code : text) : Prop :=
  exists a b c, code = [a; b; c] /\ capital a /\ capital b /\ capital c.

(** [wide_column s name cell]: what the row of the wide CSV says about the frame summary [s]; what is not known is empty.
    The records are numbered from 1. *)
Inductive wide_column (s : Legacy.frame_summary) : text -> text -> Prop :=
| WcType : wide_column s (txt "FrameType") (fs_frame_type s)
| WcFunction : wide_column s (txt "Function") (given (fs_function s) [])
| WcAddress : wide_column s (txt "Address") (given (fs_address s) [])
| WcNumber : wide_column s (txt "Identification Number") (given (fs_identification_number s) [])
| WcCode m : fs_manufacturer s = Some m -> wide_column s (txt "Manufacturer") (ms_code m)
| WcName m name website description : fs_manufacturer s = Some m -> ms_info m = Some (name, website, description) ->
    wide_column s (txt "Manufacturer Name") name
| WcUnlisted m : fs_manufacturer s = Some m -> ms_info m = None -> wide_column s (txt "Manufacturer Name") []
| WcNoManufacturer name : fs_manufacturer s = None -> In name [txt "Manufacturer"; txt "Manufacturer Name"] -> wide_column s name []
| WcAccess : wide_column s (txt "Access Number") (given (option_map dec (fs_access_number s)) [])
| WcStatus : wide_column s (txt "Status") (given (fs_status s) [])
| WcMode : wide_column s (txt "Security Mode") (given (fs_security_mode s) [])
| WcVersion : wide_column s (txt "Version") (given (option_map dec (fs_version s)) [])
| WcDevice : wide_column s (txt "Device Type") (given (fs_device_type s) [])
| WcValue i r : nth_error (fs_records s) i = Some r ->
    wide_column s (txt "DataPoint" ++ dec (N.of_nat (S i)) ++ txt "_Value") (rs_display r)
| WcInfo i r : nth_error (fs_records s) i = Some r ->
    wide_column s (txt "DataPoint" ++ dec (N.of_nat (S i)) ++ txt "_Info") (rs_data_information r).

(** the words of the older outputs for the function of a value, beside the names of the newer ones *)
Definition function_words : list (text * text) :=
  [(txt "Instantaneous value", txt "Inst"); (txt "Maximum value", txt "Max"); (txt "Minimum value", txt "Min");
   (txt "Value during error state", txt "Value During Error State")].

(** a record of the older summary and one of the decoded output are the same: they have the same bytes, storage number
    and function *)
Definition same_record (o : record_out) (s : record_summary) : Prop :=
  rs_header_hex s = ro_header_hex o /\ rs_data_hex s = ro_data_hex o /\
  (rs_data_information s = txt "None" \/
   exists word coding, rs_data_information s = dec (ro_storage_number o) ++ txt "," ++ word ++ txt "," ++ coding /\
     (In (ro_function o, word) function_words \/ exists special, coding = txt "Special Functions (" ++ special)).

(** the older summary and the decoded output show the same records, or both panic; the records of the older JSON and YAML
    are those of the decoded output if all can be read, and none otherwise *)
Definition same_listing (new : outcome output_error decoded_output) (old : outcome unit (option parsed_output)) : Prop :=
  match new, old with
  | Ok d, Ok (Some o) =>
      Forall2 same_record (do_records d) (fs_records (po_summary o)) /\
      exists rs, po_records o = Some rs /\ (do_decode_state d = txt "complete" -> listed 0 rs (do_records d)) /\
        (do_decode_state d <> txt "complete" -> rs = [])
  | Panic p, Panic q => p = q
  | _, _ => False
  end.

(** [same_meter env x s]: the summary names the meter [x] *)
Definition same_meter (env : environment) (x : meter_identity) (s : Legacy.frame_summary) : Prop :=
  fs_identification_number s = id_id x /\ fs_version s = id_version x /\ fs_device_type s = id_device_type x /\
  exists m, fs_manufacturer s = Some m /\ ms_info m = env_registry env (ms_code m) /\
    forall code, id_manufacturer_code x = Some code -> ms_code m = code.

(** [same_transport d s]: access number, status and security mode are those of the transport header *)
Definition same_transport (d : decoded_output) (s : Legacy.frame_summary) : Prop :=
  (forall source access, In (source, access) (to_access_numbers (do_transport d)) -> source <> txt "ell" ->
     fs_access_number s = Some access) /\
  (forall source raw status, In (source, raw, status) (to_statuses (do_transport d)) -> fs_status s = Some status) /\
  (forall mode, so_mode (do_security d) = Some mode -> fs_security_mode s = Some mode).

(** the older texts of the functions of a control byte *)
Definition old_function_texts : list (N * text) :=
  [ (0x40, txt "SndNk"); (0x44, txt "SndNr");
    (0x53, txt "SndUd (FCB: false)"); (0x73, txt "SndUd (FCB: true)");
    (0x5B, txt "ReqUd2 (FCB: false)"); (0x7B, txt "ReqUd2 (FCB: true)");
    (0x5A, txt "ReqUd1 (FCB: false)"); (0x7A, txt "ReqUd1 (FCB: true)");
    (0x08, txt "RspUd (ACD: false, DFC: false)"); (0x18, txt "RspUd (ACD: false, DFC: true)");
    (0x28, txt "RspUd (ACD: true, DFC: false)"); (0x38, txt "RspUd (ACD: true, DFC: true)") ].

(** [old_frame data type function address]: how the older summary shows the wired frame [data] *)
Inductive old_frame : list N -> text -> option text -> option text -> Prop :=
| OfSingle rest : old_frame (0xE5 :: rest) (txt "SingleCharacter") None None
| OfShort c a t s : In (c, t) old_function_texts -> address_text a s ->
    old_frame (short_layout c a) (txt "ShortFrame") (Some t) (Some s)
| OfLong x c a t s payload : In (c, t) old_function_texts -> address_text a s ->
    old_frame (long_layout x c a payload) (if c =? 0x53 then txt "ControlFrame" else txt "LongFrame") (Some t) (Some s).

(** ** How a record reads in the older outputs *)
Definition old_quantity_texts : list (value_label * text) :=
  [ (LEnergy, txt "Energy"); (LVolume, txt "Volume"); (LMass, txt "Mass"); (LOnTime, txt "OnTime");
    (LOperatingTime, txt "OperatingTime"); (LPower, txt "Power"); (LVolumeFlow, txt "VolumeFlow");
    (LMassFlow, txt "MassFlow"); (LFlowTemperature, txt "FlowTemperature"); (LReturnTemperature, txt "ReturnTemperature");
    (LTemperatureDifference, txt "TemperatureDifference"); (LExternalTemperature, txt "ExternalTemperature");
    (LPressure, txt "Pressure"); (LDate, txt "Date"); (LDateTime, txt "DateTime");
    (LDimensionlessHCA, txt "DimensionlessHCA"); (LAveragingDuration, txt "AveragingDuration");
    (LActualityDuration, txt "ActualityDuration"); (LFabricationNumber, txt "FabricationNumber");
    (LEnhancedIdentification, txt "EnhancedIdentification"); (LAddress, txt "Address") ].
(** exponents are raised: 0xB3 is a raised 3, 0xB9 a raised 1, 0x207B a raised minus *)
Definition old_unit_texts : list (list unit_ * text) :=
  map (fun '(u, t) => (unit_of u, t))
  [ ([(UWatt, 1%Z); (UHour, 1%Z)], txt "Wh"); ([(UJoul, 1%Z)], txt "J"); ([(UMeter, 3%Z)], txt "m" ++ [0xB3]);
    ([(UKilogram, 1%Z)], txt "Kg"); ([(USecond, 1%Z)], txt "s"); ([(UMinute, 1%Z)], txt "min"); ([(UHour, 1%Z)], txt "h");
    ([(UDay, 1%Z)], txt "day"); ([(UWatt, 1%Z)], txt "W"); ([(UJoul, 1%Z); (UHour, (-1)%Z)], txt "Jh" ++ [0x207B; 0xB9]);
    ([(UMeter, 3%Z); (UHour, (-1)%Z)], txt "m" ++ [0xB3] ++ txt "h" ++ [0x207B; 0xB9]);
    ([(UMeter, 3%Z); (UMinute, (-1)%Z)], txt "m" ++ [0xB3] ++ txt "min" ++ [0x207B; 0xB9]);
    ([(UMeter, 3%Z); (USecond, (-1)%Z)], txt "m" ++ [0xB3] ++ txt "s" ++ [0x207B; 0xB9]);
    ([(UKilogram, 1%Z); (UHour, (-1)%Z)], txt "Kgh" ++ [0x207B; 0xB9]);
    ([(UCelsius, 1%Z)], [0xB0] ++ txt "C"); ([(UKelvin, 1%Z)], [0xB0] ++ txt "K"); ([(UBar, 1%Z)], txt "Bar") ].

Definition old_months : list (month * text) :=
  [ (January, txt "Jan"); (February, txt "Feb"); (March, txt "Mar"); (April, txt "Apr"); (May, txt "May"); (June, txt "Jun");
    (July, txt "Jul"); (August, txt "Aug"); (September, txt "Sep"); (October, txt "Oct"); (November, txt "Nov"); (December, txt "Dec") ].

(** a component of a date: one of [shown], every one, or none *)
Inductive component {A} (shown : A -> text -> Prop) : single_every_or_invalid A -> text -> Prop :=
| CpOne a t : shown a t -> component shown (Single a) t
| CpEvery : component shown Every (txt "Every")
| CpInvalid : component shown Invalid (txt "Invalid").
Definition number_component : single_every_or_invalid N -> text -> Prop := component (fun n t => t = dec n).
Definition month_component : single_every_or_invalid month -> text -> Prop := component (fun m t => In (m, t) old_months).

(** [old_value display x t]: the value [x] is written [t]; [display] writes floating point numbers *)
Inductive old_value (display : f64 -> text) : data_type -> text -> Prop :=
| OvNumber f : old_value display (Number f) (display f)
| OvLossy f : old_value display (LossyNumber f) (display f)
| OvText x : old_value display (Text x) (decode_text_unit x)
| OvDate day m year d mo y : number_component day d -> month_component m mo -> number_component year y ->
    old_value display (Date day m year) (d ++ txt "/" ++ mo ++ txt "/" ++ y)
| OvDateTime day m year hour minute d mo y h mi : number_component day d -> month_component m mo -> number_component year y ->
    number_component hour h -> number_component minute mi ->
    old_value display (DateTime day m year hour minute) (d ++ txt "/" ++ mo ++ txt "/" ++ y ++ txt " " ++ h ++ txt ":" ++ mi ++ txt ":00")
| OvSeconds day m year hour minute second d mo y h mi sec : number_component day d -> month_component m mo -> number_component year y ->
    number_component hour h -> number_component minute mi -> number_component second sec ->
    old_value display (DateTimeWithSeconds day m year hour minute second)
      (d ++ txt "/" ++ mo ++ txt "/" ++ y ++ txt " " ++ h ++ txt ":" ++ mi ++ txt ":" ++ sec)
| OvTime second minute hour h mi sec : number_component hour h -> number_component minute mi -> number_component second sec ->
    old_value display (Time second minute hour) (h ++ txt ":" ++ mi ++ txt ":" ++ sec)
| OvSpecific bytes :
    old_value display (ManufacturerSpecific bytes) (txt "Manufacturer Specific: [" ++ separated (txt ", ") (map dec bytes) ++ txt "]").

(** a power of ten that is not 1 *)
Definition old_exponent (e : Z) : text := if (e =? 0)%Z then [] else txt "e" ++ dec_Z e.
(** the unit of a row of the table, in brackets; durations have none *)
Inductive old_unit (r : vif_row) : option text -> text -> Prop :=
| OuUnit t : ~ duration r -> In (vr_units r, t) old_unit_texts -> old_unit r (Some t) (txt "[" ++ t ++ txt "]")
| OuNone : duration r \/ vr_units r = [] -> old_unit r None [].

(** ** The older chart *)
(** the lines of the records [rs] in the chart, numbered from [i]: the text of the record, of which the last bracket may be
    missing, escaped *)
Inductive old_nodes (display : f64 -> text) : N -> list data_record -> text -> Prop :=
| OnEnd i : old_nodes display i [] []
| OnNext i r rs t rest : rs_display (summarize_record display r) = t \/ rs_display (summarize_record display r) = t ++ txt ")" ->
    old_nodes display (i + 1) rs rest ->
    old_nodes display i (r :: rs)
      (txt "        R" ++ dec i ++ txt "[" ++ [34] ++ legacy_mermaid_escape t ++ [34] ++ txt "]" ++ [10] ++ rest).

(** names side by side *)
Fixpoint side_by_side (row : list text) : text :=
  match row with
  | a :: (b :: _) as rest => txt "        " ++ a ++ txt "~~~" ++ b ++ [10] ++ side_by_side rest
  | _ => []
  end.
Definition blank_node (name : text) : text := txt "        " ++ name ++ txt "[" ++ [34] ++ txt " " ++ [34] ++ txt "]" ++ [10].
(** [laid_rows n names t]: [t] puts [names] in rows of [n]; in the last row blank nodes with names of
    their own stand before and after, so that it is in the middle *)
Inductive laid_rows (n : nat) : list text -> text -> Prop :=
| RowsNone : laid_rows n [] []
| RowsFull row names t : List.length row = n -> laid_rows n names t -> laid_rows n (row ++ names) (side_by_side row ++ t)
| RowsLast row before after : row <> [] -> (List.length row < n)%nat -> NoDup (before ++ row ++ after) ->
    List.length (before ++ row ++ after) = n -> List.length after = List.length before \/ List.length after = S (List.length before) ->
    laid_rows n row (concat (map blank_node (before ++ after)) ++ side_by_side (before ++ row ++ after)).
