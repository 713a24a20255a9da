(** C48, C49, C50, C51: text in tables, XML, diagrams and HTML. *)
From Coq Require Import List NArith Lia String.
Import ListNotations.
From Verif Require Import Model.Base Model.Text Model.Escape Model.Table Spec.EscapeSpec Spec.TableSpec
  Proof.EscapeFacts Proof.TableFacts.
Open Scope N_scope.

(** [laid_out] (TableSpec.v): line feeds separate, nothing is lost, every line fits, no line
    is broken early; for every assignment of widths to characters *)
Theorem C48_wrapping : forall cw value width,
  0 < width -> laid_out cw width value (wrap_display cw value width).
Proof. exact wrap_display_ok. Qed.
Print Assumptions C48_wrapping.

(** every line of a box is exactly as wide as its columns need, if the width of a text is
    the sum of the widths of its characters and no character is wider than a column *)
Theorem C48_box_lines : forall cw sw P headers rows widths,
  (forall c, In c box_chars -> cw c = 1) ->
  (forall s, Forall P s -> sw s = display cw s) ->
  widths <> [] -> Forall (fun w => 0 < w) widths -> (forall c w, P c -> In w widths -> cw c <= w) ->
  Forall (Forall (fun c => c = 10 \/ P c)) headers ->
  Forall (Forall (Forall (fun c => c = 10 \/ P c))) rows ->
  exists lines, box_table cw sw headers rows widths = unlines lines /\
    Forall (fun l => ~ In 10 l /\ display cw l = table_width widths) lines.
Proof.
  intros cw sw P headers rows widths Hd Hs Hne Hp Hc. exact (box_table_good cw sw P headers rows widths Hd (conj Hs (conj Hp Hc)) Hne).
Qed.
Print Assumptions C48_box_lines.

Theorem C48_box_as_wide_as_asked : forall width,
  32 <= width -> table_width (key_value_widths width) = width.
Proof. exact key_value_width. Qed.
Print Assumptions C48_box_as_wide_as_asked.

Definition one (c : N) : N := 1.
Example C48_example :
  wrap_display one (txt "abcde" ++ [10] ++ txt "xy") 3 = [txt "abc"; txt "de"; txt "xy"] /\
  wrap_display (fun c => if c =? 0x754C then 2 else 1) [97; 0x754C; 98] 2 = [[97]; [0x754C]; [98]] /\
  box_table one (display one) [txt "F"] [[txt "xyz"]] [2] = unlines
    [[0x250C; 0x2500; 0x2500; 0x2500; 0x2500; 0x2510]; [0x2502; 32; 70; 32; 32; 0x2502];
     [0x251C; 0x2500; 0x2500; 0x2500; 0x2500; 0x2524]; [0x2502; 32; 120; 121; 32; 0x2502];
     [0x2502; 32; 122; 32; 32; 0x2502]; [0x2514; 0x2500; 0x2500; 0x2500; 0x2500; 0x2518]].
Proof. vm_compute. auto. Qed.

(** [escaped] (EscapeSpec.v): reading the entities gives back the text *)
Theorem C49_xml_round_trip : forall s, escaped xml_entities xml_forbidden (xml_encode s) (blanked s).
Proof. exact xml_encode_ok. Qed.
Print Assumptions C49_xml_round_trip.

Theorem C49_xml_read_one_way : forall enc s1 s2,
  escaped xml_entities xml_forbidden enc s1 -> escaped xml_entities xml_forbidden enc s2 -> s1 = s2.
Proof. exact xml_read_once. Qed.
Print Assumptions C49_xml_read_one_way.

Theorem C49_xml_safe : forall s,
  Forall (fun c => ~ control c /\ c <> 60 /\ c <> 62 /\ c <> 34) (xml_encode s).
Proof. exact xml_chars. Qed.
Print Assumptions C49_xml_safe.

Example C49_example :
  xml_encode (txt "<a&b>" ++ [7; 0xE9]) = txt "&lt;a&amp;b&gt; " ++ [0xE9].
Proof. vm_compute. reflexivity. Qed.

Theorem C50_label_round_trip : forall s, escaped xml_entities label_forbidden (mermaid_escape s) (one_line s).
Proof. exact mermaid_ok. Qed.
Print Assumptions C50_label_round_trip.

Theorem C50_label_read_one_way : forall enc s1 s2,
  escaped xml_entities label_forbidden enc s1 -> escaped xml_entities label_forbidden enc s2 -> s1 = s2.
Proof. exact mermaid_read_once. Qed.
Print Assumptions C50_label_read_one_way.

Theorem C50_label_safe : forall s,
  Forall (fun c => c <> 34 /\ c <> 60 /\ c <> 62 /\ c <> 10) (mermaid_escape s).
Proof. exact mermaid_chars. Qed.
Print Assumptions C50_label_safe.

Theorem C50_old_label_safe : forall s,
  Forall (fun c => c <> 34 /\ c <> 91 /\ c <> 93) (legacy_mermaid_escape s).
Proof. exact legacy_chars. Qed.
Print Assumptions C50_old_label_safe.

(** the older labels cannot always be read back *)
Theorem C50_old_label_recoverable_refuted : exists s t,
  s <> t /\ legacy_mermaid_escape s = legacy_mermaid_escape t.
Proof. exists (txt "#91;"), (txt "["). split; [discriminate|reflexivity]. Qed.
Print Assumptions C50_old_label_recoverable_refuted.

(** ... only when they contain a number sign *)
Theorem C50_old_label_recoverable_partial : forall s t,
  ~ In 35 s -> ~ In 35 t -> legacy_mermaid_escape s = legacy_mermaid_escape t -> s = t.
Proof. exact legacy_injective. Qed.
Print Assumptions C50_old_label_recoverable_partial.

Example C50_example :
  mermaid_escape (txt "a<b" ++ [34; 10; 38]) = txt "a&lt;b&quot; &amp;" /\
  legacy_mermaid_escape (txt "m[3]") = txt "m#91;3#93;" /\ ~ In 35 (txt "m[3]").
Proof. vm_compute. intuition discriminate. Qed.

(** [html] (EscapeSpec.v): balanced span elements, entities and text; the text content is
    the source *)
Theorem C51_csv_view_keeps_text : forall source, html csv_class 0 (highlight_csv source) source.
Proof. exact highlight_csv_html. Qed.
Print Assumptions C51_csv_view_keeps_text.

Theorem C51_csv_view_read_one_way : forall h s1 s2,
  html csv_class 0 h s1 -> html csv_class 0 h s2 -> s1 = s2.
Proof. intros h s1 s2 H1. exact (html_fun 0 h s1 H1 s2). Qed.
Print Assumptions C51_csv_view_read_one_way.

Example C51_example :
  highlight_csv (txt "a,<") =
    span_open (txt "syn-source syn-csv") ++
    span_open (txt "syn-csv-column syn-csv-column-0") ++ txt "a</span>" ++
    span_open (txt "syn-punctuation syn-csv-delimiter") ++ txt ",</span>" ++
    span_open (txt "syn-csv-column syn-csv-column-1") ++ txt "&lt;</span></span>".
Proof. vm_compute. reflexivity. Qed.
