(** CSV as RFC 4180 has it, with a line feed after each line: the rows of cells a text stands for. *)
From Coq Require Import List NArith String.
Import ListNotations.
From Verif Require Import Model.Text Spec.EscapeSpec.
Open Scope N_scope.
Open Scope list_scope.

(** comma, double quote, carriage return and line feed cannot stand in a cell without quotes *)
Definition separates (c : N) : Prop := In c [44; 34; 13; 10].
(** [quoted_holds t s]: between quotes [t] stands for [s]; a quote is doubled *)
Inductive quoted_holds : text -> text -> Prop :=
| w_end : quoted_holds [] []
| w_char c t s : c <> 34 -> quoted_holds t s -> quoted_holds (c :: t) (c :: s)
| w_quote t s : quoted_holds t s -> quoted_holds (34 :: 34 :: t) (34 :: s).
(** [cell_holds t s]: [t] is a cell that holds [s] *)
Inductive cell_holds : text -> text -> Prop :=
| c_bare s : Forall (fun c => ~ separates c) s -> cell_holds s s
| c_quoted t s : quoted_holds t s -> cell_holds ([34] ++ t ++ [34]) s.
(** [line_holds t row], [csv_file t rows]: a line of at least one cell; a file of lines *)
Inductive line_holds : text -> list text -> Prop :=
| l_last t s : cell_holds t s -> line_holds (t ++ [10]) [s]
| l_next t s rest row : cell_holds t s -> line_holds rest row -> line_holds (t ++ [44] ++ rest) (s :: row).
Inductive csv_file : text -> list (list text) -> Prop :=
| f_end : csv_file [] []
| f_line t row rest rows : line_holds t row -> csv_file rest rows -> csv_file (t ++ rest) (row :: rows).
(** [t] stands for [rows] and nothing else *)
Definition reads_only (t : text) (rows : list (list text)) : Prop :=
  csv_file t rows /\ forall rows', csv_file t rows' -> rows' = rows.

(** ** The highlighted view *)
(** an element: the class and the content; the content of a cell is escaped *)
Definition span_of (classes content : text) : text := span_open classes ++ content ++ txt "</span>".
(** the class of the column of a cell, counted from 0: there are eight colours *)
Definition column_class (n : N) : text := txt "syn-csv-column syn-csv-column-" ++ [48 + n mod 8].
Definition comma : text := span_of (txt "syn-punctuation syn-csv-delimiter") [44].
(** [shown_line n t row h]: the line [t] that stands for [row], the first cell being in column [n], is shown as [h] *)
Inductive shown_line : N -> text -> list text -> text -> Prop :=
| s_last n t s enc : cell_holds t s -> escaped html_entities html_forbidden enc t ->
    shown_line n (t ++ [10]) [s] (span_of (column_class n) enc ++ [10])
| s_next n t s enc rest row h : cell_holds t s -> escaped html_entities html_forbidden enc t ->
    shown_line (n + 1) rest row h ->
    shown_line n (t ++ [44] ++ rest) (s :: row) (span_of (column_class n) enc ++ comma ++ h).
Inductive shown_file : text -> list (list text) -> text -> Prop :=
| s_end : shown_file [] [] []
| s_line t row h rest rows h' : shown_line 0 t row h -> shown_file rest rows h' ->
    shown_file (t ++ rest) (row :: rows) (h ++ h').
