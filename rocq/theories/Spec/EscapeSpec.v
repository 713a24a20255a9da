(** Specification of escaped text: characters and named entities. *)
From Coq Require Import List NArith String Bool.
Import ListNotations.
From Verif Require Import Model.Text.
Open Scope N_scope.
Open Scope list_scope.

(** [entities]: spellings and the characters they stand for; [forbidden]: characters that
    may not stand for themselves.  [escaped entities forbidden enc s]: reading [enc] from
    left to right gives [s]. *)
Inductive escaped (entities : list (list N * N)) (forbidden : N -> Prop) : list N -> list N -> Prop :=
| esc_end : escaped entities forbidden [] []
| esc_char c enc s : ~ forbidden c -> escaped entities forbidden enc s ->
    escaped entities forbidden (c :: enc) (c :: s)
| esc_entity e c enc s : In (e, c) entities -> escaped entities forbidden enc s ->
    escaped entities forbidden (e ++ enc) (c :: s).

(** XML: four entities; no raw markup character, ampersand or control character *)
Definition xml_entities : list (list N * N) :=
  [(txt "&amp;", 38); (txt "&lt;", 60); (txt "&gt;", 62); (txt "&quot;", 34)].
Definition control (c : N) : Prop := c < 32 \/ c = 127.
Definition xml_forbidden (c : N) : Prop := control c \/ In c [38; 60; 62; 34].
(** control characters as spaces *)
Definition blanked (s : list N) : list N := map (fun c => if (c <? 32) || (c =? 127) then 32 else c) s.

(** Mermaid labels of the current output: the same entities, line feeds as spaces *)
Definition label_forbidden (c : N) : Prop := In c [38; 60; 62; 34; 10].
Definition one_line (s : list N) : list N := map (fun c => if c =? 10 then 32 else c) s.

(** Mermaid labels of the older output *)
Definition old_label_entities : list (list N * N) :=
  [(txt "#quot;", 34); (txt "#91;", 91); (txt "#93;", 93)].
Definition old_label_forbidden (c : N) : Prop := In c [34; 91; 93].

(** HTML made of text, character entities and [span] elements with the given classes;
    [html depth h s]: [depth] elements are open, [s] is the text content of [h] *)
Definition html_entities : list (list N * N) := (txt "&#39;", 39) :: xml_entities.
Definition html_forbidden (c : N) : Prop := In c [38; 60; 62; 34; 39].
Definition span_open (classes : list N) : list N := txt "<span class=" ++ [34] ++ classes ++ [34] ++ txt ">".
Inductive html (classes : list N -> Prop) : nat -> list N -> list N -> Prop :=
| html_end : html classes 0 [] []
| html_char d c h s : ~ html_forbidden c -> html classes d h s -> html classes d (c :: h) (c :: s)
| html_entity d e c h s : In (e, c) html_entities -> html classes d h s -> html classes d (e ++ h) (c :: s)
| html_open d cl h s : classes cl -> html classes (S d) h s -> html classes d (span_open cl ++ h) s
| html_close d h s : html classes d h s -> html classes (S d) (txt "</span>" ++ h) s.
(** classes of the CSV view *)
Definition csv_class (cl : list N) : Prop :=
  cl = txt "syn-source syn-csv" \/ cl = txt "syn-punctuation syn-csv-delimiter" \/
  exists d, d < 8 /\ cl = txt "syn-csv-column syn-csv-column-" ++ [48 + d].
