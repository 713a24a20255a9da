(** The boxes of the older chart, written without reference to the code that draws it. *)
From Coq Require Import List NArith String.
Import ListNotations.
From Verif Require Import Model.Base Model.Text Model.Core Model.Wireless Model.Show Model.Escape Model.Output Model.Legacy Spec.LegacyJsonSpec.
Open Scope N_scope.
Open Scope list_scope.

(** a line of the chart is a box with this name and label *)
Definition boxed (t name label : text) : Prop :=
  exists before rest, t = before ++ txt "        " ++ name ++ txt "[" ++ [34] ++ label ++ [34] ++ txt "]" ++ [10] ++ rest.

(** what the summary says of the frame and of the meter stands in boxes of the chart, escaped (C50) *)
Definition shows_frame (t : text) (s : frame_summary) : Prop :=
  (forall f, fs_function s = Some f -> boxed t (txt "FUNC") (txt "Function: " ++ legacy_mermaid_escape f)) /\
  (forall a, fs_address s = Some a -> boxed t (txt "ADDR") (txt "Address: " ++ legacy_mermaid_escape a)).
Definition shows_meter (t : text) (s : frame_summary) : Prop :=
  forall v, fs_version s = Some v -> exists id m d acc st,
    fs_identification_number s = Some id /\ fs_manufacturer s = Some m /\ fs_device_type s = Some (show_device_type d) /\
    fs_access_number s = Some acc /\ fs_status s = Some st /\
    boxed t (txt "DEV1") (txt "ID: " ++ legacy_mermaid_escape id) /\
    boxed t (txt "DEV2") (txt "Manufacturer: " ++ legacy_mermaid_escape (ms_code m)) /\
    boxed t (txt "DEV3") (txt "Version: " ++ dec v) /\
    (forall name, In (d, name) device_names -> boxed t (txt "DEV4") (txt "Device Type: " ++ txt name)) /\
    boxed t (txt "DEV5") (txt "Access Number: " ++ dec acc) /\
    boxed t (txt "DEV6") (txt "Status: " ++ legacy_mermaid_escape st) /\
    forall name website description, ms_info m = Some (name, website, description) ->
      boxed t (txt "DEV7") (txt "Name: " ++ legacy_mermaid_escape name) /\
      boxed t (txt "DEV8") (txt "Website: " ++ legacy_mermaid_escape website) /\
      boxed t (txt "DEV9") (legacy_mermaid_escape description).
(** the meter named by the link layer of a wireless frame *)
Definition shows_sender (t : text) (registry : text -> option (text * text * text)) (m : manufacturer_id) : Prop :=
  boxed t (txt "MFR") (txt "Manufacturer: " ++ legacy_mermaid_escape (show_manufacturer (mi_manufacturer_code m))) /\
  boxed t (txt "ID") (txt "ID: IdentificationNumber { number: " ++ dec (mi_identification_number m) ++ txt " }") /\
  (forall name, In (mi_device_type m, name) device_names -> boxed t (txt "DEVT") (txt "Device Type: " ++ txt name)) /\
  boxed t (txt "VER") (txt "Version: " ++ dec (mi_version m)) /\
  forall name website description, registry (show_manufacturer (mi_manufacturer_code m)) = Some (name, website, description) ->
    boxed t (txt "MFRNAME") (txt "Name: " ++ legacy_mermaid_escape name) /\
    boxed t (txt "MFRWEB") (txt "Website: " ++ legacy_mermaid_escape website) /\
    boxed t (txt "MFRDESC") (legacy_mermaid_escape description).
(** the control byte of a wireless frame is named, with its flags, or marked as unknown *)
Definition function_words : list (N * string) :=
  [(0x40, "SndNk { prm: false }"); (0x44, "SndNr"); (0x53, "SndUd { fcb: false }"); (0x73, "SndUd { fcb: true }");
   (0x5B, "ReqUd2 { fcb: false }"); (0x7B, "ReqUd2 { fcb: true }"); (0x5A, "ReqUd1 { fcb: false }"); (0x7A, "ReqUd1 { fcb: true }");
   (0x08, "RspUd { acd: false, dfc: false }"); (0x18, "RspUd { acd: false, dfc: true }");
   (0x28, "RspUd { acd: true, dfc: false }"); (0x38, "RspUd { acd: true, dfc: true }")]%string.
Definition shows_control (t : text) (c : N) : Prop :=
  (forall word, In (c, word) function_words -> boxed t (txt "FUNC") (txt "Function: Some(" ++ txt word ++ txt ")")) /\
  (~ In c (map fst function_words) -> boxed t (txt "FUNC") (txt "Function: None")).
