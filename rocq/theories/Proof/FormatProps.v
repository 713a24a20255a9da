(** Concrete renderings, and the remaining facts about the choice of the format. *)
From Coq Require Import String List NArith ZArith Lia.
Import ListNotations.
From Verif Require Import Model.Base Model.Text Model.Show Model.Core Model.F64 Model.Hex Model.Format Model.Annotate Model.Output Model.Rscada Model.AnnotateText Model.Render
  Spec.TooltipSpec Spec.TextSpec Spec.TableSpec Spec.EscapeSpec Spec.OutputSpec Spec.RenderSpec Spec.MermaidSpec Spec.DiagramSpec
  Proof.HexFacts Proof.AnnotateProps Proof.MbusProps Proof.OutputProps Proof.RscadaProps
  Proof.RenderTable Proof.RenderFacts Proof.RenderFrame Proof.MermaidFacts Proof.MermaidFrame Proof.TooltipFacts.
Open Scope N_scope.

Definition ex_renderers : renderers := {|
  rn_cw := fun _ => 1; rn_sw := display (fun _ => 1); rn_number := fun _ => txt "1.5";
  rn_yaml := fun _ => txt "{}";
  rn_powi := ex_powi; rn_display := fun _ => txt "1.5" |}.
Definition ex_options : render_options := {| op_key := None; op_include_enrichment := false; op_table_width := None |}.

Lemma table_text env rn data options (P : N -> Prop) t :
  (forall c, In c box_chars -> rn_cw rn c = 1) -> (forall s, Forall P s -> rn_sw rn s = display (rn_cw rn) s) -> (forall c, P c -> rn_cw rn c <= 3) ->
  (forall c, 32 <= c <= 126 -> rn_cw rn c = 1) ->
  render_bytes env rn data FTable options = Ok t -> Forall (fun c => c = 10 \/ P c) t ->
  exists d width title summary records diagnostics,
    decode_bytes env data (op_key options) (op_include_enrichment options) = Ok d /\
    width = (match op_table_width options with Some w => w | None => 100 end) /\ 32 <= width /\
    t = unlines (title ++ summary ++ records ++ diagnostics) /\
    laid_out (rn_cw rn) width (do_protocol d ++ txt " " ++ fo_kind (do_frame d) ++ txt " frame" ++ [32; 0xB7; 32] ++
      do_decode_state d ++ txt " decode") title /\
    field_box (rn_cw rn) width (frame_summary d) summary /\
    records_shown (rn_number rn) (rn_cw rn) width (do_records d) records /\
    diagnostics_shown (rn_cw rn) width (do_diagnostics d) diagnostics /\
    Forall (fun l => (~ In 10 l /\ display (rn_cw rn) l <= width) \/ exists n, l = txt "Record " ++ dec n)
      (title ++ summary ++ records ++ diagnostics).
Proof. intros D S W A R F. apply (table_shown env rn data options P t); auto. split; auto. Qed.

Lemma other_rendered env rn data options :
  match annotate_frame (env_config env) data with
  | Ok _ => exists t, render_bytes env rn data FAnnotatedText options = Ok t
  | Err e => render_bytes env rn data FAnnotatedText options = Err (RAnnotation e)
  | Panic p => render_bytes env rn data FAnnotatedText options = Panic p
  end /\
  match render_from_bytes env (rn_powi rn) data (op_key options) with
  | Ok t => render_bytes env rn data FXml options = Ok t
  | Err e => render_bytes env rn data FXml options = Err (RXml e)
  | Panic p => render_bytes env rn data FXml options = Panic p
  end.
Proof.
  unfold render_bytes, annotate_and_render. split.
  - rewrite <- (frame_ranges _ (rn_display rn)). destruct (frame_told (env_config env) (rn_display rn) data); cbn [ranges bind map_err]; eauto.
  - destruct (render_from_bytes env (rn_powi rn) data (op_key options)); reflexivity.
Qed.

Lemma hex_rendered env rn input format options :
  (forall data, hex_input input data -> render_hex env rn input format options = render_bytes env rn data format options) /\
  ((forall data, ~ hex_input input data) -> exists e, render_hex env rn input format options = Err (RDecode (OInvalidHex e))).
Proof.
  unfold render_hex. split.
  - intros data H. apply decode_hex_exact in H. rewrite H. reflexivity.
  - intros H. destruct (decode_hex_bytes input) as [data|e|p] eqn:E; cbn [map_err bind].
    + apply decode_hex_exact in E. now apply H in E.
    + eauto.
    + destruct (decode_hex_no_panic input). exists p. exact E.
Qed.

Lemma csv_example : exists t d,
  render_bytes ex_env ex_renderers ex_wired_clear FCsv ex_options = Ok t /\
  decode_bytes ex_env ex_wired_clear None false = Ok d /\ List.length (do_records d) = 2%nat /\
  csv_column (rn_number ex_renderers) d (txt "record_0_value") (txt "12345.678").
Proof.
  eexists. eexists. split; [vm_compute; reflexivity|]. split; [vm_compute; reflexivity|]. split; [reflexivity|].
  right. exists 0%nat. eexists. exists (txt "value"). split; [reflexivity|]. split; [|reflexivity].
  apply RcValue. constructor. reflexivity.
Qed.
Lemma everywhere (t : list N) : Forall (fun c => c = 10 \/ True) t.
Proof. induction t; constructor; auto. Qed.
Lemma table_example : exists t d,
  (forall c, In c box_chars -> rn_cw ex_renderers c = 1) /\ (forall s, Forall (fun _ => True) s -> rn_sw ex_renderers s = display (rn_cw ex_renderers) s) /\
  (forall c : N, True -> rn_cw ex_renderers c <= 3) /\ (forall c, 32 <= c <= 126 -> rn_cw ex_renderers c = 1) /\
  render_bytes ex_env ex_renderers ex_wired_clear FTable ex_options = Ok t /\ Forall (fun c => c = 10 \/ True) t /\
  decode_bytes ex_env ex_wired_clear None false = Ok d /\ List.length (do_records d) = 2%nat.
Proof.
  eexists. eexists. split; [reflexivity|]. split; [reflexivity|]. split; [cbn; lia|]. split; [reflexivity|].
  split; [vm_compute; reflexivity|]. split; [apply everywhere|]. split; [vm_compute; reflexivity|reflexivity].
Qed.
Lemma diagram_example : exists t d,
  render_bytes ex_env ex_renderers ex_wired_clear FMermaid ex_options = Ok t /\
  decode_bytes ex_env ex_wired_clear None false = Ok d /\ List.length (do_records d) = 2%nat.
Proof. eexists. eexists. split; [vm_compute; reflexivity|]. split; [vm_compute; reflexivity|reflexivity]. Qed.
Lemma rendered_example : exists t e,
  hex_input (txt "68 06") [0x68; 0x06] /\
  render_hex ex_env ex_renderers (txt "68 06") FJson ex_options = Err e /\
  render_hex ex_env ex_renderers (hex_string ex_wired_clear) FYaml ex_options = Ok t /\
  render_bytes ex_env ex_renderers ex_wired_clear FTable {| op_key := None; op_include_enrichment := false; op_table_width := Some 31 |}
    = Err (RDecode (OInvalidOption (txt "table_width") (txt "must be at least 32 columns"))).
Proof.
  eexists. eexists. split; [apply decode_hex_exact; vm_compute; reflexivity|].
  split; [vm_compute; reflexivity|]. split; vm_compute; reflexivity.
Qed.
Lemma annotated_example : exists segs t, bytes_ok ex_wired_clear /\
  render_bytes ex_env ex_renderers ex_wired_clear FAnnotatedText ex_options = Ok t /\
  annotate_frame debug ex_wired_clear = Ok segs /\ List.length segs = 23%nat.
Proof. eexists. eexists. split; [lit|]. split; [vm_compute; reflexivity|]. split; [vm_compute; reflexivity|reflexivity]. Qed.
