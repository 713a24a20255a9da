(** C90 to C94: the texts a frame is rendered as. *)
From Coq Require Import String List NArith ZArith Lia.
Import ListNotations.
From Verif Require Import Model.Base Model.Text Model.Show Model.Core Model.F64 Model.Hex Model.Format Model.Annotate Model.Output Model.Rscada Model.AnnotateText Model.Render
  Spec.CsvSpec Spec.TextSpec Spec.TableSpec Spec.EscapeSpec Spec.OutputSpec Spec.RenderSpec Spec.MermaidSpec Spec.DiagramSpec Spec.DumpSpec
  Proof.AnnotateProps Proof.MbusProps Proof.OutputProps
  Proof.RenderTable Proof.RenderFacts Proof.RenderFrame Proof.MermaidFacts Proof.MermaidFrame Proof.DumpFacts Proof.FormatProps.
Open Scope N_scope.

(** C90: the CSV can be read in one way only, as a line of headings and a line of as many cells; no heading occurs twice, and
    a heading has a cell under it exactly when the decoded output has that column with that content *)
Theorem C90_csv : forall env rn data options t, render_bytes env rn data FCsv options = Ok t ->
  exists d headers row, decode_bytes env data (op_key options) (op_include_enrichment options) = Ok d /\
    reads_only t [headers; row] /\
    length headers = length row /\ NoDup headers /\
    forall name cell, column headers row name cell <-> csv_column (rn_number rn) d name cell.
Proof. exact csv_text. Qed.
Print Assumptions C90_csv.
Example C90_example : exists t d,
  render_bytes ex_env ex_renderers ex_wired_clear FCsv ex_options = Ok t /\
  decode_bytes ex_env ex_wired_clear None false = Ok d /\ List.length (do_records d) = 2%nat /\
  csv_column (rn_number ex_renderers) d (txt "record_0_value") (txt "12345.678").
Proof. exact csv_example. Qed.

(** C91: the table begins with a title, then shows the summary of the frame, each record with its
    index, label, reading, storage, tariff, subunit, function and bytes, and each diagnostic: every
    text is found again by reading the cells of its column from top to bottom, no line is wider
    than the width asked for.  [P] are the characters the width of which is that of a
    single character; the measures are those of the renderer *)
Theorem C91_table : forall env rn data options (P : N -> Prop) t,
  (forall c, In c box_chars -> rn_cw rn c = 1) -> (forall s, Forall P s -> rn_sw rn s = display (rn_cw rn) s) -> (forall c, P c -> rn_cw rn c <= 3) ->
  (forall c, 32 <= c <= 126 -> rn_cw rn c = 1) ->
  render_bytes env rn data FTable options = Ok t -> Forall (fun c => c = 10 \/ P c) t ->
  exists d width title summary records diagnostics,
    decode_bytes env data (op_key options) (op_include_enrichment options) = Ok d /\
    width = (match op_table_width options with Some w => w | None => 100 end) /\ 32 <= width /\
    t = unlines (title ++ summary ++ records ++ diagnostics) /\
    laid_out (rn_cw rn) width (do_protocol d ++ txt " " ++ fo_kind (do_frame d) ++ txt " frame" ++ [32; 0xB7; 32] ++
      do_decode_state d ++ txt " decode") title /\
    field_box (rn_cw rn) width (frame_summary d) summary /\
    records_shown (rn_number rn) (rn_cw rn) width (do_records d) records /\
    diagnostics_shown (rn_cw rn) width (do_diagnostics d) diagnostics /\
    Forall (fun l => (~ In 10 l /\ display (rn_cw rn) l <= width) \/ exists n, l = txt "Record " ++ dec n)
      (title ++ summary ++ records ++ diagnostics).
Proof. exact table_text. Qed.
Print Assumptions C91_table.
Example C91_example : exists t d,
  (forall c, In c box_chars -> rn_cw ex_renderers c = 1) /\ (forall s, Forall (fun _ => True) s -> rn_sw ex_renderers s = display (rn_cw ex_renderers) s) /\
  (forall c : N, True -> rn_cw ex_renderers c <= 3) /\ (forall c, 32 <= c <= 126 -> rn_cw ex_renderers c = 1) /\
  render_bytes ex_env ex_renderers ex_wired_clear FTable ex_options = Ok t /\ Forall (fun c => c = 10 \/ True) t /\
  decode_bytes ex_env ex_wired_clear None false = Ok d /\ List.length (do_records d) = 2%nat.
Proof. exact table_example. Qed.

(** C92: every line of the diagram is a statement of the diagram language, every node is declared
    once, in its group, before it is used; the labels, once unescaped, are what the frame, the
    meter, the security, the records and the diagnostics are to say, and the arrows join the groups
    and chain the records in order *)
Theorem C92_diagram : forall env rn data options t, render_bytes env rn data FMermaid options = Ok t ->
  exists d lines statements l said,
    decode_bytes env data (op_key options) (op_include_enrichment options) = Ok d /\
    t = unlines lines /\ Forall (fun line => ~ In 10 line) lines /\ map read_statement lines = map Some statements /\
    well_formed statements l /\
    written (frame_says d) (nodes_of (txt "FRAME_SG") l) /\
    written (meter_says d) (nodes_of (txt "METER_SG") l) /\
    written (security_says d) (nodes_of (txt "SECURITY_SG") l) /\
    records_say (rn_number rn) d said /\ written said (nodes_of (txt "RECORDS_SG") l) /\
    written (diagnostics_say d) (nodes_of [] l) /\
    arrows statements = expected_arrows d /\ neighbours statements = chain (map fst said).
Proof. exact diagram_shown. Qed.
Print Assumptions C92_diagram.
Example C92_example : exists t d,
  render_bytes ex_env ex_renderers ex_wired_clear FMermaid ex_options = Ok t /\
  decode_bytes ex_env ex_wired_clear None false = Ok d /\ List.length (do_records d) = 2%nat.
Proof. exact diagram_example. Qed.

(** C93: the annotated text shows all bytes of the frame in a dump, at their offsets, and then one
    line for each segment of the annotation, in order, with its place, bytes, kind and detail, under
    a heading for each part of the frame and for each record *)
Theorem C93_annotated_text : forall env rn data options t, bytes_ok data -> render_bytes env rn data FAnnotatedText options = Ok t ->
  exists segs rows list, frame_told (env_config env) (rn_display rn) data = Ok segs /\
    t = unlines ([txt "Hex Dump:"; repeat 0x2500 68] ++ rows ++
      [[]; txt "Offset       Hex                      Kind                   Detail";
       repeat 0x2500 12 ++ txt " " ++ repeat 0x2500 24 ++ txt " " ++ repeat 0x2500 22 ++ txt " " ++ repeat 0x2500 26] ++ list) /\
    dump 0 data rows /\ listing data None segs list.
Proof. exact annotated_text. Qed.
Print Assumptions C93_annotated_text.
(** ... and the dump determines the bytes *)
Theorem C93_bytes_read_back : forall offset data data' rows, dump offset data rows -> dump offset data' rows -> data = data'.
Proof. exact dump_determines. Qed.
Print Assumptions C93_bytes_read_back.
Example C93_example : exists segs t, bytes_ok ex_wired_clear /\
  render_bytes ex_env ex_renderers ex_wired_clear FAnnotatedText ex_options = Ok t /\
  annotate_frame debug ex_wired_clear = Ok segs /\ List.length segs = 23%nat.
Proof. exact annotated_example. Qed.

(** C94: JSON, YAML, CSV and the diagram are rendered exactly for the frames that decode, and any
    other frame gives the very error (or panic) of decoding *)
Theorem C94_rendered_if_decoded : forall env rn data options format, In format [FJson; FYaml; FCsv; FMermaid] ->
  (exists d t, decode_bytes env data (op_key options) (op_include_enrichment options) = Ok d /\
     render_bytes env rn data format options = Ok t) \/
  (exists e, decode_bytes env data (op_key options) (op_include_enrichment options) = Err e /\
     render_bytes env rn data format options = Err (RDecode e)) \/
  (exists p, decode_bytes env data (op_key options) (op_include_enrichment options) = Panic p /\
     render_bytes env rn data format options = Panic p).
Proof. exact always_rendered. Qed.
Print Assumptions C94_rendered_if_decoded.
(** ... the table also needs a width of at least 32 columns *)
Theorem C94_table : forall env rn data options,
  let width := match op_table_width options with Some w => w | None => 100 end in
  (exists d t, decode_bytes env data (op_key options) (op_include_enrichment options) = Ok d /\ 32 <= width /\
     render_bytes env rn data FTable options = Ok t) \/
  (exists d o m, decode_bytes env data (op_key options) (op_include_enrichment options) = Ok d /\ width < 32 /\
     render_bytes env rn data FTable options = Err (RDecode (OInvalidOption o m))) \/
  (exists e, decode_bytes env data (op_key options) (op_include_enrichment options) = Err e /\
     render_bytes env rn data FTable options = Err (RDecode e)) \/
  (exists p, decode_bytes env data (op_key options) (op_include_enrichment options) = Panic p /\
     render_bytes env rn data FTable options = Panic p).
Proof. exact table_rendered. Qed.
Print Assumptions C94_table.
(** ... annotated text and XML depend on the annotation and on the conversion alone: the key and the
    width change nothing about the former, the width nothing about the latter *)
Theorem C94_other_formats : forall env rn data options,
  match annotate_frame (env_config env) data with
  | Ok _ => exists t, render_bytes env rn data FAnnotatedText options = Ok t
  | Err e => render_bytes env rn data FAnnotatedText options = Err (RAnnotation e)
  | Panic p => render_bytes env rn data FAnnotatedText options = Panic p
  end /\
  match render_from_bytes env (rn_powi rn) data (op_key options) with
  | Ok t => render_bytes env rn data FXml options = Ok t
  | Err e => render_bytes env rn data FXml options = Err (RXml e)
  | Panic p => render_bytes env rn data FXml options = Panic p
  end.
Proof. exact other_rendered. Qed.
Print Assumptions C94_other_formats.
(** ... and hexadecimal text is rendered as the bytes it stands for, in every format *)
Theorem C94_hexadecimal : forall env rn input format options,
  (forall data, hex_input input data -> render_hex env rn input format options = render_bytes env rn data format options) /\
  ((forall data, ~ hex_input input data) -> exists e, render_hex env rn input format options = Err (RDecode (OInvalidHex e))).
Proof. exact hex_rendered. Qed.
Print Assumptions C94_hexadecimal.
Example C94_example : exists t e,
  hex_input (txt "68 06") [0x68; 0x06] /\
  render_hex ex_env ex_renderers (txt "68 06") FJson ex_options = Err e /\
  render_hex ex_env ex_renderers (hex_string ex_wired_clear) FYaml ex_options = Ok t /\
  render_bytes ex_env ex_renderers ex_wired_clear FTable {| op_key := None; op_include_enrichment := false; op_table_width := Some 31 |}
    = Err (RDecode (OInvalidOption (txt "table_width") (txt "must be at least 32 columns"))).
Proof. exact rendered_example. Qed.
