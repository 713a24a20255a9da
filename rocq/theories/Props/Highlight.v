(** C131: the highlighted view of an output, in every language.  The library that does it for languages other than CSV is a
    parameter; Spec/HighlightSpec.v says what is expected of it. *)
From Coq Require Import List NArith String.
Import ListNotations.
From Verif Require Import Model.Base Model.Text Model.Format Model.Escape Model.Highlight
  Spec.EscapeSpec Spec.BindingsSpec Spec.HighlightSpec Proof.HighlightProps.
Open Scope N_scope.
Open Scope list_scope.

(** the view consists of balanced elements, and its text is the source, with or without line feed at the end *)
Theorem C131_shows_source : forall hl source language h, faithful hl ->
  m_bus_highlight hl source language = Ok h -> html simple_class 0 h source.
Proof. exact js_shows_source. Qed.
Print Assumptions C131_shows_source.
Theorem C131_read_one_way : forall h s1 s2, html simple_class 0 h s1 -> html simple_class 0 h s2 -> s1 = s2.
Proof. intros h s1 s2 H. exact (read_one_way 0 h s1 H s2). Qed.
Print Assumptions C131_read_one_way.

(** it fails only if the library does, and with its error *)
Theorem C131_always_shown : forall hl source language, faithful hl -> accepts hl ->
  exists h, m_bus_highlight hl source language = Ok h.
Proof. exact js_always_shown. Qed.
Print Assumptions C131_always_shown.
Theorem C131_errors : forall hl source language e, m_bus_highlight hl source language = Err e -> faithful hl ->
  exists syntax lines e', Forall whole_line lines /\ (concat lines = source \/ concat lines = source ++ [10]) /\ hl syntax lines = Err e' /\
    e = txt "syntax highlighting failed: " ++ e'.
Proof. exact js_fails_alone. Qed.
Print Assumptions C131_errors.

(** the language is named as the output formats are; what is no format is plain text *)
Theorem C131_language : forall hl source language f, names_format language f ->
  (f = FCsv -> m_bus_highlight hl source language = Ok (highlight_csv source)) /\
  (f <> FCsv -> forall h, m_bus_highlight hl source language = Ok h ->
     exists lines h', (concat lines = source \/ concat lines = source ++ [10]) /\ hl (syntax_of f) lines = Ok h').
Proof. exact js_by_language. Qed.
Print Assumptions C131_language.
Theorem C131_no_language : forall hl source language h, (forall f, ~ names_format language f) ->
  m_bus_highlight hl source language = Ok h ->
  exists lines h', (concat lines = source \/ concat lines = source ++ [10]) /\ hl None lines = Ok h'.
Proof. exact js_by_no_language. Qed.
Print Assumptions C131_no_language.

Example C131_example : faithful ex_highlighter /\ accepts ex_highlighter /\ names_format (txt " JSON") FJson /\
  m_bus_highlight ex_highlighter (txt "[""</script>""]") (txt " JSON") =
    Ok (span_open (txt "syn-source syn-json") ++ txt "[&quot;&lt;/script&gt;&quot;]</span>").
Proof. exact highlight_example. Qed.
Example C131_error_example : exists hl : highlighter, faithful hl /\ m_bus_highlight hl (txt "a") (txt "xml") = Err (txt "syntax highlighting failed: no").
Proof. exact failing_example. Qed.
