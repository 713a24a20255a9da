(** Specification of numbers shown with six digits after the point. *)
From Coq Require Import ZArith QArith Reals String List.
From Flocq Require Import Core IEEE754.Bits.
From Verif Require Import Model.Base Model.Text Model.F64 Spec.TextSpec Spec.FloatSpec Spec.VifSpec Spec.XmlSpec.
Import ListNotations.
Open Scope N_scope.

(** [six_places r t]: the text is the number with six digits after the point which is nearest to
    [r]; of two equally near, the one that ends in an even digit *)
Definition six_places (r : R) (t : text) : Prop :=
  exists k, decimal_text t (inject_Z k / inject_Z 1000000)%Q /\
    (Rabs (r * 1000000 - IZR k) <= / 2)%R /\ ((Rabs (r * 1000000 - IZR k) = / 2)%R -> Z.even k = true).

(** [close_text exact t]: the text shows a number that differs from [exact] by at most its 2^51-th
    part, rounded to six digits after the point *)
Definition close_text (exact : R) (t : text) : Prop :=
  exists r, (Rabs (r - exact) <= Rabs exact * / 2251799813685248)%R /\ six_places r t.

(** the number [x] in the unit in which the row shows the values of its [n]-th code *)
Definition in_unit (r : vif_row) (n : N) (x : R) : R := (x * IZR (vr_seconds r) * powerRZ 10 (primary_scale r n))%R.

(** [close_number fields r n x]: the fields give the unit and the quantity of the [n]-th code of the
    row, and the value [x] in that unit *)
Definition close_number (fields : list (text * text)) (r : vif_row) (n : N) (x : R) : Prop :=
  lookup (txt "Unit") fields = Some (vr_xml_unit r) /\ lookup (txt "Quantity") fields = Some (vr_xml_quantity r) /\
  exists t, lookup (txt "Value") fields = Some t /\ close_text (in_unit r n x) t.

(** ... for a single precision number, which need not be finite *)
Definition close_single (fields : list (text * text)) (r : vif_row) (n : N) (b : binary32) : Prop :=
  match b with
  | Binary.B754_zero _ _ _ => close_number fields r n 0
  | Binary.B754_infinity _ _ s => lookup (txt "Value") fields = Some (if s then txt "-inf" else txt "inf")
  | Binary.B754_nan _ _ _ _ _ => lookup (txt "Value") fields = Some (txt "NaN")
  | Binary.B754_finite _ _ s m e _ => close_number fields r n (F2R (Float radix2 (cond_Zopp s (Zpos m)) e))
  end.
