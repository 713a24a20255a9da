(** Model of the text escaping functions: src/rscada_xml.rs, src/output.rs, src/mbus_data.rs
    and wasm/src/highlight.rs. *)
From Coq Require Import String.
From Verif Require Import Model.Base Model.Text.

(** [char::is_ascii_control] *)
Definition is_ascii_control (c : N) : bool := (c <? 32) || (c =? 127).

(** rscada_xml.rs:1131-1147, [xml_encode]: the body of the loop *)
Definition xml_encode_char (c : N) : text :=
  if is_ascii_control c then [32]
  else if c =? 38 then txt "&amp;"
  else if c =? 60 then txt "&lt;"
  else if c =? 62 then txt "&gt;"
  else if c =? 34 then txt "&quot;"
  else [c].
(** rscada_xml.rs:1131-1147 *)
Definition xml_encode (s : text) : text := flat_map xml_encode_char s.

(** output.rs:2569-2576, [mermaid_escape] *)
Definition mermaid_escape (value : text) : text :=
  replace_char 10 [32]
    (replace_char 62 (txt "&gt;")
      (replace_char 60 (txt "&lt;")
        (replace_char 34 (txt "&quot;")
          (replace_char 38 (txt "&amp;") value)))).

(** mbus_data.rs:1442-1446, [mermaid_escape] of the older renderer *)
Definition legacy_mermaid_escape (s : text) : text :=
  replace_char 93 (txt "#93;") (replace_char 91 (txt "#91;") (replace_char 34 (txt "#quot;") s)).

(** highlight.rs:117-128, [push_escaped_html]: what it appends for one character *)
Definition escape_html_char (c : N) : text :=
  if c =? 38 then txt "&amp;"
  else if c =? 60 then txt "&lt;"
  else if c =? 62 then txt "&gt;"
  else if c =? 34 then txt "&quot;"
  else if c =? 39 then txt "&#39;"
  else [c].
(** highlight.rs:117-128 *)
Definition escape_html (source : text) : text := flat_map escape_html_char source.

(** a double quote in literals below *)
Definition quoted_class (name : text) : text := txt "<span class=" ++ 34 :: name ++ [34; 62].

(** highlight.rs:108-115, [push_csv_field]: what it appends; [column % 8] is one digit *)
Definition csv_field (field : text) (column : N) : text :=
  quoted_class (txt "syn-csv-column syn-csv-column-" ++ [48 + column mod 8])
  ++ escape_html field ++ txt "</span>".
(** highlight.rs:81 *)
Definition csv_delimiter : text :=
  quoted_class (txt "syn-punctuation syn-csv-delimiter") ++ txt ",</span>".

(** highlight.rs:70-104: the loop, with the rest of the characters, the current field, the
    column and the quote state; returns what is appended to [html] including line 104.  The
    characters taken inside a round ([characters.next()] after [peek]) are matched together
    with the first. *)
Fixpoint csv_loop (characters : text) (field : text) (column : N) (quoted : bool) {struct characters} : text :=
  match characters with
  | [] => csv_field field column
  | c :: rest =>
      if c =? 34 then
        match quoted, rest with
        | true, c2 :: rest2 =>
            if c2 =? 34 then csv_loop rest2 (field ++ [c; c2]) column quoted
            else csv_loop rest (field ++ [c]) column (negb quoted)
        | _, _ => csv_loop rest (field ++ [c]) column (negb quoted)
        end
      else if (c =? 44) && negb quoted then
        csv_field field column ++ csv_delimiter ++ csv_loop rest [] (column + 1) quoted
      else if (c =? 13) && negb quoted then
        match rest with
        | c2 :: rest2 =>
            if c2 =? 10 then csv_field field column ++ [13; 10] ++ csv_loop rest2 [] 0 quoted
            else csv_field field column ++ [13] ++ csv_loop rest [] 0 quoted
        | [] => csv_field field column ++ [13] ++ csv_loop rest [] 0 quoted
        end
      else if (c =? 10) && negb quoted then
        csv_field field column ++ [10] ++ csv_loop rest [] 0 quoted
      else csv_loop rest (field ++ [c]) column quoted
  end.

(** highlight.rs:63-106, [highlight_csv] *)
Definition highlight_csv (source : text) : text :=
  quoted_class (txt "syn-source syn-csv") ++ csv_loop source [] 0 false ++ txt "</span>".
