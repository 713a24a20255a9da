(** Witnesses and examples for Props/Csv.v. *)
From Coq Require Import List NArith ZArith Lia Bool String.
Import ListNotations.
From Verif Require Import Model.Base Model.Text Model.Escape Model.Csv Model.Output Model.Format Model.Render Model.Legacy Model.Serialize
  Spec.EscapeSpec Spec.RenderSpec Spec.CsvSpec Proof.BaseFacts Proof.OutputProps Proof.MbusProps Proof.AnnotateProps Proof.FormatProps Proof.LegacyProps
  Proof.RenderFacts Proof.SerializeFacts Proof.LegacyFacts Proof.CsvFacts.
Open Scope N_scope.
Open Scope list_scope.

Lemma csv_two_lines env rn data options t : render_bytes env rn data FCsv options = Ok t ->
  exists headers row, reads_only t [headers; row] /\ List.length headers = List.length row.
Proof. intros H. destruct (csv_text _ _ _ _ _ H) as (d & h & r & _ & R & L & _). exists h, r. auto. Qed.

Lemma wide_two_lines env rn lr input key t : serialize_mbus_data env rn lr input (txt "csv-wide") key = Ok t ->
  exists headers row, reads_only t [headers; row] /\ List.length headers = List.length row.
Proof.
  intros H. destruct (parse_frame_output env (lr_display lr) input key) as [[o|]|e|p] eqn:E.
  - destruct (serialize_wide env rn lr input key o E) as (h & r & (t' & E' & R) & L & _). exists h, r.
    rewrite H in E'. apply Ok_inj in E'. subst t'. auto.
  - change (serialize_mbus_data env rn lr input (txt "csv-wide") key)
      with (rows <- parse_to_csv env (lr_display lr) input key ;; Ok (concat (map csv_line rows))) in H.
    unfold parse_to_csv in H. rewrite E in H. cbn [bind wide_csv_rows] in H. apply Ok_inj in H. subst t.
    eexists _, _. split; [apply written_only; repeat constructor; discriminate|reflexivity].
  - change (serialize_mbus_data env rn lr input (txt "csv-wide") key)
      with (rows <- parse_to_csv env (lr_display lr) input key ;; Ok (concat (map csv_line rows))) in H.
    unfold parse_to_csv in H. rewrite E in H. discriminate.
  - change (serialize_mbus_data env rn lr input (txt "csv-wide") key)
      with (rows <- parse_to_csv env (lr_display lr) input key ;; Ok (concat (map csv_line rows))) in H.
    unfold parse_to_csv in H. rewrite E in H. discriminate.
Qed.

Lemma highlighted_output env rn data options t : render_bytes env rn data FCsv options = Ok t ->
  exists headers row h, reads_only t [headers; row] /\ shown_file t [headers; row] h /\
    highlight_csv t = span_of (txt "syn-source syn-csv") (h ++ span_of (column_class 0) []).
Proof.
  intros H. destruct (csv_two_lines _ _ _ _ _ H) as (a & r & R & _). destruct (highlighted t [a; r] (proj1 R)) as (h & H1 & H2).
  exists a, r, h. auto.
Qed.

(** a record with a text of three characters: a quote, a comma and a line feed *)
Definition hostile_frame : list N := long_frame ([0x72; 0x78; 0x56; 0x34; 0x12; 0x42; 0x04; 1; 7; 9; 0; 0; 0] ++ [0x0D; 0x78; 3; 10; 44; 34]).
Lemma hostile_example : exists t headers row,
  render_bytes ex_env ex_renderers hostile_frame FCsv ex_options = Ok t /\ reads_only t [headers; row] /\
  column headers row (txt "record_0_value") [34; 44; 10].
Proof.
  destruct (decode_bytes ex_env hostile_frame (op_key ex_options) (op_include_enrichment ex_options)) as [d|e|p] eqn:E; [|exfalso; vm_compute in E; discriminate..].
  exists (csv_line (csv_headers d) ++ csv_line (csv_row ex_renderers d)), (csv_headers d), (csv_row ex_renderers d).
  split; [unfold render_bytes; rewrite E; apply render_csv_ok|]. split; [apply two_lines; discriminate|].
  vm_compute in E. apply Ok_inj in E. subst d.
  exists 24%nat. split; vm_compute; reflexivity.
Qed.
Lemma refused_wide : exists t, serialize_mbus_data ex_env ex_renderers ex_legacy (txt "zz") (txt "csv-wide") None = Ok t /\
  reads_only t [[txt "Error"]; [txt "Error parsing data as wired or wireless M-Bus"]].
Proof.
  exists (concat (map csv_line [[txt "Error"]; [txt "Error parsing data as wired or wireless M-Bus"]])).
  split; [vm_compute; reflexivity|]. apply written_only. repeat constructor; discriminate.
Qed.
Lemma highlighted_example : csv_file (txt "a,""<,""" ++ [10]) [[txt "a"; txt "<,"]] /\
  highlight_csv (txt "a,""<,""" ++ [10]) =
    span_of (txt "syn-source syn-csv")
      ((span_of (txt "syn-csv-column syn-csv-column-0") (txt "a") ++ comma ++
        span_of (txt "syn-csv-column syn-csv-column-1") (txt "&quot;&lt;,&quot;") ++ [10]) ++
       span_of (txt "syn-csv-column syn-csv-column-0") []).
Proof.
  split; [|vm_compute; reflexivity]. change (txt "a,""<,""" ++ [10]) with (concat (map csv_line [[txt "a"; txt "<,"]])).
  apply written_only. repeat constructor; discriminate.
Qed.
