(** What the text interface should answer, written without reference to the code that answers. *)
From Coq Require Import List NArith String.
Import ListNotations.
From Verif Require Import Model.Base Model.Text Model.Core Model.Wired Model.Record Model.Annotate Model.Format Model.Output Model.Json Model.AnnotateText Model.Render Model.Serialize
  Spec.WiredSpec Spec.RecordSpec Spec.AnnotateSpec Spec.OutputSpec Spec.JsonSpec Spec.JsonViewSpec.
Open Scope N_scope.
Open Scope list_scope.

(** the names of the older outputs *)
Definition older_names : list text :=
  [txt "json-legacy"; txt "yaml-legacy"; txt "csv-wide"; txt "annotated-legacy"; txt "hexview-legacy"].

Definition decryption_codes : list text :=
  [txt "security.unsupported_mode"; txt "security.invalid_key"; txt "security.decryption_failed"; txt "security.unknown_state"].

(** [failure data key format code layer]: rendering the frame [data] with the key [key] in the format [format] may fail
    with this code, and the layer to blame *)
Inductive failure (data : list N) (key : option (list N)) : output_format -> text -> text -> Prop :=
| FlFrame f : In f [FTable; FJson; FYaml; FCsv; FMermaid] -> ~ readable data ->
    failure data key f (txt "frame.invalid") (txt "link")
| FlSecurity f code : In f [FTable; FJson; FYaml; FCsv; FMermaid] -> key <> None -> In code decryption_codes ->
    failure data key f code (txt "security")
| FlXmlFrame : ~ readable data -> failure data key FXml (txt "xml.unsupported") (txt "application")
| FlXmlWired fr : wired_meaning data fr -> failure data key FXml (txt "xml.unsupported") (txt "application")
| FlXmlKey : key <> None -> failure data key FXml (txt "xml.unsupported") (txt "application")
| FlAnnotation f : In f [FAnnotated; FAnnotatedText] -> ~ readable data ->
    failure data key f (txt "annotation.failed") (txt "application")
| FlAnnotationKey : key <> None -> failure data key FAnnotated (txt "annotation.failed") (txt "application").

(** [labelled cf display block segs]: the segments [segs] tile the bytes [display], and the groups of segments are the
    records of [block], in order *)
Definition labelled (cf : config) (display block : list N) (segs : list segment) : Prop :=
  tiles 0 segs (len display) /\
  forall items, records_all cf block None = Some items -> Forall (item_ok cf) items ->
    (forall k r, nth_error items k = Some (Ok r) -> fields display (group segs (N.of_nat k)) = record_parts r) /\
    (forall g, (forall k r, nth_error items k = Some (Ok r) -> g <> N.of_nat k) -> group segs g = []).

(** [decrypted_view env rn lr data input key display block segs0]: the annotated view of the frame [data], whose own
    segments are [segs0], and the older hex view of the text [input] are JSON texts, which both show the bytes [display] with
    the same segments, which label the records of [block], and say that they were decrypted; the former shows [data] with
    [segs0] too.  Or both panic, and then somewhere in [display] there is a record whose reading panics *)
Definition decrypted_view (env : environment) (rn : renderers) (lr : legacy_renderers) (data : list N) (input : text)
  (key display block : list N) (segs0 : list segment) : Prop :=
  (exists segs, labelled (env_config env) display block segs /\
     (exists t v l l0, render_annotated_bytes env rn data (Some key) = Ok t /\ only_value t v /\
        says_annotated display l (Some (data, l0)) v /\ map fst l = segs /\ map fst l0 = segs0) /\
     (exists t v l, serialize_mbus_data env rn lr input (txt "hexview-legacy") (Some key) = Ok t /\ only_value t v /\
        says_bytes v display l /\ flag_of (field v "decrypted") true /\ map fst l = segs)) \/
  (is_panic (render_annotated_bytes env rn data (Some key)) /\
   is_panic (serialize_mbus_data env rn lr input (txt "hexview-legacy") (Some key)) /\
   exists pre suf post, display = pre ++ suf ++ post /\ panic_cause (env_config env) suf).
