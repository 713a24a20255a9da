(** C44, C45: exact decimal values. *)
From Coq Require Import List NArith ZArith QArith Lia String.
Import ListNotations.
From Verif Require Import Model.Base Model.Text Model.Decimal Spec.TextSpec Spec.FloatSpec
  Proof.DecimalFacts Proof.ScaledFacts.
Open Scope N_scope.

(** [integer_text] (TextSpec.v): the canonical decimal text of an integer;
    [twos_complement] (FloatSpec.v): the integer little endian bytes stand for *)
Theorem C44_integer_text_exact : forall data,
  bytes_ok data -> data <> [] ->
  exists s, signed_le_decimal data = Some s /\ integer_text s (FloatSpec.twos_complement data).
Proof. exact signed_le_decimal_ok. Qed.
Print Assumptions C44_integer_text_exact.

Theorem C44_empty : forall data, signed_le_decimal data = None <-> data = [].
Proof. exact signed_le_decimal_none. Qed.
Print Assumptions C44_empty.

Example C44_example :
  signed_le_decimal [0x00; 0x00; 0x00; 0x00; 0x00; 0x00; 0x00; 0x80] = Some (txt "-9223372036854775808") /\
  signed_le_decimal [0xFF; 0xFF; 0xFF; 0xFF; 0xFF; 0xFF; 0xFF; 0xFF; 0xFF; 0x00] = Some (txt "4722366482869645213695") /\
  signed_le_decimal [0xFF; 0xFF] = Some (txt "-1") /\ signed_le_decimal [0; 0] = Some (txt "0").
Proof. vm_compute. auto. Qed.

(** the text denotes exactly significand * 10^scale, plus 10^offset under an additive
    correction; the significand may also be the text "-0" *)
Theorem C45_value_exact : forall s z scale offset,
  integer_text s z \/ (s = txt "-0" /\ z = 0%Z) ->
  decimal_text (scaled_decimal s scale offset) (inject_Z z * ten_power scale + addend offset)%Q.
Proof. exact scaled_exact. Qed.
Print Assumptions C45_value_exact.

(** zero with a scale above the correction keeps leading zeros *)
Theorem C45_canonical_form_refuted : exists s scale offset,
  integer_text s 0 /\ scaled_decimal s scale offset = txt "001" /\
  ~ canonical_decimal (scaled_decimal s scale offset).
Proof.
  exists (txt "0"), 2%Z, (Some 0%Z). split; [|split; [reflexivity|apply leading_zeros_not_canonical; discriminate]].
  exists (txt "0"). split; [discriminate|]. split; [repeat constructor; unfold digit_char; cbn; lia|].
  split; [intros c rest E _; vm_compute in E; inversion E; reflexivity|]. left. auto.
Qed.
Print Assumptions C45_canonical_form_refuted.

(** in every other case the text is canonical *)
Theorem C45_canonical_form_partial : forall s z scale offset,
  integer_text s z ->
  (z <> 0%Z \/ offset = None \/ (scale <= 0)%Z \/ exists o, offset = Some o /\ (scale <= o)%Z) ->
  canonical_decimal (scaled_decimal s scale offset).
Proof. exact scaled_canonical. Qed.
Print Assumptions C45_canonical_form_partial.

Example C45_example :
  integer_text (txt "-1250") (-1250) /\
  scaled_decimal (txt "-1250") (-3)%Z None = txt "-1.25" /\
  scaled_decimal (txt "-1250") (-2)%Z (Some (-3)%Z) = txt "-12.499" /\
  scaled_decimal (txt "999") (-3)%Z (Some (-3)%Z) = txt "1" /\
  scaled_decimal (txt "-1") (-2)%Z (Some (-2)%Z) = txt "0".
Proof.
  split; [|vm_compute; auto]. exists (txt "1250"). split; [discriminate|].
  split; [repeat constructor; unfold digit_char; cbn; lia|].
  split; [intros c rest E Ec; vm_compute in E; inversion E; congruence|]. right. repeat split; discriminate.
Qed.
