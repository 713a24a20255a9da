(** What the JSON of annotated bytes should say. *)
From Coq Require Import List NArith ZArith Bool String.
Import ListNotations.
From Verif Require Import Model.Base Model.Core Model.Text Model.F64 Model.Show Model.Annotate Model.AnnotateText Model.Output Model.Json Spec.JsonSpec.
Open Scope N_scope.
Open Scope list_scope.

(** the names of the kinds of a range, and of its layers *)
Definition kind_names : list (segment_kind * string) :=
  [(KStartByte, "start_byte"); (KLength, "length"); (KCField, "c_field"); (KAField, "a_field"); (KChecksum, "checksum");
   (KStopByte, "stop_byte"); (KCiField, "ci_field"); (KIdentificationNumber, "identification_number");
   (KManufacturerCode, "manufacturer_code"); (KVersion, "version"); (KDeviceType, "device_type");
   (KAccessNumber, "access_number"); (KStatus, "status"); (KConfigurationField, "configuration_field");
   (KEncryptionConfigByte, "encryption_config_byte"); (KDif, "dif"); (KDife, "dife"); (KVif, "vif"); (KVife, "vife");
   (KPlaintextVif, "plaintext_vif"); (KDataPayload, "data_payload"); (KLField, "l_field");
   (KWirelessManufacturerId, "wireless_manufacturer_id"); (KCrc, "crc"); (KExtendedLinkLayer, "extended_link_layer");
   (KEncryptedPayload, "encrypted_payload"); (KManufacturerSpecific, "manufacturer_specific");
   (KIdleFiller, "idle_filler"); (KUnknown, "unknown")]%string.
Definition layer_names : list (layer * string) :=
  [(LFrame, "frame"); (LAppHeader, "app_header"); (LRecordField, "record_field")]%string.
Definition says_segment (x : told) (v : json) : Prop :=
  let '(s, detail) := x in
  number_of (field v "start") (s_start s) /\ number_of (field v "end") (s_end s) /\
  (exists name, In (s_kind s, name) kind_names /\ text_of (field v "kind") (txt name)) /\ text_of (field v "detail") detail /\
  (match s_group s with Some g => number_of (field v "group") g | None => field v "group" = Some VNull end) /\
  (exists name, In (s_layer s, name) layer_names /\ text_of (field v "layer") (txt name)).
Definition says_bytes (v : json) (data : list N) (l : list told) : Prop :=
  list_of (fun b x => x = VNumber (dec b)) (field v "bytes") data /\ list_of says_segment (field v "segments") l.
Definition says_annotated (data : list N) (l : list told) (original : option (list N * list told)) (v : json) : Prop :=
  number_of (field v "schema_version") 3 /\ says_bytes v data l /\
  flag_of (field v "decrypted") (match original with Some _ => true | None => false end) /\
  if_there (fun o x => inside (fun v => says_bytes v (fst x) (snd x)) o) (field v "original") original.
(** without the texts of the ranges *)
Definition without (original : option (list N * list told)) : option (list N * list segment) :=
  option_map (fun x => (fst x, map fst (snd x))) original.

(** the older list of ranges: those of the bytes, or the error *)
Definition says_segments (cf : config) (display : f64 -> text) (data : list N) (v : json) : Prop :=
  (exists l, frame_told cf display data = Ok l /\ list_of says_segment (Some v) l) \/
  ((exists e, annotate_frame cf data = Err e) /\ text_of (field v "error") (txt "Invalid start byte")).
