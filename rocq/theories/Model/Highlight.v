(** Model of the highlighting of wasm/src/highlight.rs for all languages, and of its binding in wasm/src/lib.rs.  The CSV
    view is in Model/Escape.v. *)
From Coq Require Import String.
From Verif Require Import Model.Base Model.Text Model.Escape.

(** the library syntect, a parameter: [ClassedHTMLGenerator] for a syntax, fed with lines and then finished
    (highlight.rs:32-36, 47-53), as the HTML or the text of its error.  The syntax is that of a file extension, or plain
    text ([None]); that the library falls back to plain text for an extension it does not know (highlight.rs:20-22) is
    part of the parameter. *)
Definition highlighter : Type := option text -> list text -> outcome text text.

(** highlight.rs:13-23, [syntax_for]: the extension looked up *)
Definition syntax_for (language : text) : option text :=
  let l := to_ascii_lowercase (trim language) in
  let is s := text_eqb l (txt s) in
  if is "json"%string then Some (txt "json")
  else if is "yaml"%string || is "yml"%string then Some (txt "yaml")
  else if is "xml"%string then Some (txt "xml")
  else None.

(** highlight.rs:47, syntect's [LinesWithEndings]: each line with its line feed; the last may have none *)
Fixpoint lines_with_endings (s : text) : list text :=
  match s with
  | [] => []
  | c :: rest =>
      if c =? 10 then [c] :: lines_with_endings rest
      else match lines_with_endings rest with
           | [] => [[c]]
           | l :: ls => (c :: l) :: ls
           end
  end.

(** highlight.rs:38, [source.ends_with('\n')] *)
Fixpoint ends_with_newline (s : text) : bool :=
  match s with
  | [] => false
  | [c] => c =? 10
  | _ :: rest => ends_with_newline rest
  end.

(** highlight.rs:55-58, [rfind] and [remove]: the text without its last line feed, if it has one *)
Fixpoint remove_last_newline (html : text) : option text :=
  match html with
  | [] => None
  | c :: rest =>
      match remove_last_newline rest with
      | Some rest' => Some (c :: rest')
      | None => if c =? 10 then Some rest else None
      end
  end.

(** highlight.rs:25-61, [highlight_source]; [eq_ignore_ascii_case] (line 26) as comparison of the lower case text *)
Definition highlight_source (hl : highlighter) (source language : text) : outcome text text :=
  if text_eqb (to_ascii_lowercase (trim language)) (txt "csv") then Ok (highlight_csv source)
  else
    let appended_newline := negb (ends_with_newline source) in
    let parse_source := if appended_newline then source ++ [10] else source in
    html <- hl (syntax_for language) (lines_with_endings parse_source) ;;
    if appended_newline then
      ok_or (remove_last_newline html) (txt "highlighter omitted the final line separator")
    else Ok html.

(** wasm/src/lib.rs:18-22, [m_bus_highlight]; the JavaScript error as its message *)
Definition m_bus_highlight (hl : highlighter) (source language : text) : outcome text text :=
  map_err (fun e => txt "syntax highlighting failed: " ++ e) (highlight_source hl source language).
