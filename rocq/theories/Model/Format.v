(** Model of the output format names of src/output.rs. *)
From Coq Require Import String.
From Verif Require Import Model.Base Model.Text.

(** src/output.rs:27-38 *)
Inductive output_format :=
| FTable | FJson | FYaml | FCsv | FMermaid | FXml | FAnnotated | FAnnotatedText.

(** output.rs:40-54, [as_str] *)
Definition format_name (f : output_format) : text :=
  txt match f with
      | FTable => "table"
      | FJson => "json"
      | FYaml => "yaml"
      | FCsv => "csv"
      | FMermaid => "mermaid"
      | FXml => "xml"
      | FAnnotated => "annotated"
      | FAnnotatedText => "annotated-text"
      end.

(** output.rs:63-81, [from_str]; the error carries the text as given *)
Definition format_from_str (value : text) : outcome text output_format :=
  let v := to_ascii_lowercase (trim value) in
  let is s := text_eqb v (txt s) in
  if is "table"%string || is "table_format"%string then Ok FTable
  else if is "json"%string then Ok FJson
  else if is "yaml"%string || is "yml"%string then Ok FYaml
  else if is "csv"%string then Ok FCsv
  else if is "mermaid"%string then Ok FMermaid
  else if is "xml"%string then Ok FXml
  else if is "annotated"%string || is "hexview"%string then Ok FAnnotated
  else if is "annotated-text"%string then Ok FAnnotatedText
  else Err value.
