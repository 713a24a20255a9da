(** What highlighting should do, and what is expected of the library that does it for languages other than CSV. *)
From Coq Require Import List NArith String.
Import ListNotations.
From Verif Require Import Model.Base Model.Text Model.Format Model.Highlight Spec.EscapeSpec Spec.BindingsSpec.
Open Scope N_scope.
Open Scope list_scope.

(** names of classes: no line feed and nothing that ends the attribute or the tag *)
Definition simple_class (cl : text) : Prop := forall c, In c cl -> c <> 10 /\ c <> 34 /\ c <> 60 /\ c <> 62.
(** a line with its line feed *)
Definition whole_line (l : text) : Prop := exists body, l = body ++ [10] /\ ~ In 10 body.
(** the library, given whole lines, gives balanced elements around these lines, or an error *)
Definition faithful (hl : highlighter) : Prop :=
  forall syntax lines h, Forall whole_line lines -> hl syntax lines = Ok h -> html simple_class 0 h (concat lines).
(** the library finds no fault with whole lines *)
Definition accepts (hl : highlighter) : Prop :=
  forall syntax lines, Forall whole_line lines -> exists h, hl syntax lines = Ok h.

(** the syntax of a format; the others are plain text *)
Definition syntax_of (f : output_format) : option text :=
  match f with
  | FJson => Some (txt "json") | FYaml => Some (txt "yaml") | FXml => Some (txt "xml")
  | _ => None
  end.
