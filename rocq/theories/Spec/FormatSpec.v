(** Names of the output formats, written without reference to the code. *)
From Coq Require Import List NArith String.
Import ListNotations.
From Verif Require Import Model.Text Model.Format.

Definition format_names : list (string * output_format) :=
  [ ("table", FTable); ("table_format", FTable); ("json", FJson); ("yaml", FYaml); ("yml", FYaml);
    ("csv", FCsv); ("mermaid", FMermaid); ("xml", FXml); ("annotated", FAnnotated);
    ("hexview", FAnnotated); ("annotated-text", FAnnotatedText) ]%string.
