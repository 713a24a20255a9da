(** Property theorems: the CSV outputs and their highlighted view. *)
From Coq Require Import List NArith ZArith Bool String.
Import ListNotations.
From Verif Require Import Model.Base Model.Text Model.Escape Model.Csv Model.Output Model.Format Model.Render Model.Legacy Model.Serialize
  Spec.EscapeSpec Spec.RenderSpec Spec.CsvSpec Proof.OutputProps Proof.MbusProps Proof.FormatProps Proof.LegacyProps Proof.CsvFacts Proof.CsvProps.
Open Scope N_scope.
Open Scope list_scope.

(** C125: a CSV output can be read in one way only, as a line of names and a line of as many cells,
    whatever characters the names and cells contain *)
Theorem C125_csv : forall env rn data options t, render_bytes env rn data FCsv options = Ok t ->
  exists headers row, reads_only t [headers; row] /\ List.length headers = List.length row.
Proof. exact csv_two_lines. Qed.
Print Assumptions C125_csv.
Theorem C125_wide : forall env rn lr input key t, serialize_mbus_data env rn lr input (txt "csv-wide") key = Ok t ->
  exists headers row, reads_only t [headers; row] /\ List.length headers = List.length row.
Proof. exact wide_two_lines. Qed.
Print Assumptions C125_wide.
(** any table is written so *)
Theorem C125_table : forall rows, Forall (fun row => row <> []) rows -> reads_only (concat (map csv_line rows)) rows.
Proof. exact written_only. Qed.
Print Assumptions C125_table.
(** the text a meter sends is one cell, though it has a quote, a comma and a line feed *)
Example C125_example : exists t headers row,
  render_bytes ex_env ex_renderers hostile_frame FCsv ex_options = Ok t /\ reads_only t [headers; row] /\
  column headers row (txt "record_0_value") [34; 44; 10].
Proof. exact hostile_example. Qed.
Example C125_wide_example : exists t, serialize_mbus_data ex_env ex_renderers ex_legacy (txt "zz") (txt "csv-wide") None = Ok t /\
  reads_only t [[txt "Error"]; [txt "Error parsing data as wired or wireless M-Bus"]].
Proof. exact refused_wide. Qed.

(** C126: the highlighted view of a CSV text colours each cell by its column, starting anew in each line, and each comma
    between cells, not those within a cell, as a comma *)
Theorem C126_highlighted : forall t rows, csv_file t rows -> exists h, shown_file t rows h /\
  highlight_csv t = span_of (txt "syn-source syn-csv") (h ++ span_of (column_class 0) []).
Proof. exact highlighted. Qed.
Print Assumptions C126_highlighted.
(** so are the CSV outputs *)
Theorem C126_rendered : forall env rn data options t, render_bytes env rn data FCsv options = Ok t ->
  exists headers row h, reads_only t [headers; row] /\ shown_file t [headers; row] h /\
    highlight_csv t = span_of (txt "syn-source syn-csv") (h ++ span_of (column_class 0) []).
Proof. exact highlighted_output. Qed.
Print Assumptions C126_rendered.
Example C126_example : csv_file (txt "a,""<,""" ++ [10]) [[txt "a"; txt "<,"]] /\
  highlight_csv (txt "a,""<,""" ++ [10]) =
    span_of (txt "syn-source syn-csv")
      ((span_of (txt "syn-csv-column syn-csv-column-0") (txt "a") ++ comma ++
        span_of (txt "syn-csv-column syn-csv-column-1") (txt "&quot;&lt;,&quot;") ++ [10]) ++
       span_of (txt "syn-csv-column syn-csv-column-0") []).
Proof. exact highlighted_example. Qed.
