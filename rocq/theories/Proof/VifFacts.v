(** The primary table in the library and in the libmbus XML. *)
From Coq Require Import Lia String.
From Verif Require Import Model.Base Model.Text Model.Core Model.F64 Model.DataInfo Model.ValueInfo Model.Record Model.Rscada
  Spec.TextSpec Spec.RecordSpec Spec.VifSpec Proof.BaseFacts Proof.CoreFacts.

Definition codes_of (r : vif_row) : list N := map N.of_nat (seq 0 (N.to_nat (vr_count r))).
Lemma in_codes r n : n < vr_count r -> In n (codes_of r).
Proof. intros H. unfold codes_of. apply in_map_iff. exists (N.to_nat n). split; [lia|]. apply in_seq. lia. Qed.
Lemma rows_all (P : vif_row -> N -> Prop) :
  Forall (fun r => Forall (P r) (codes_of r)) primary_rows -> forall vif r n, primary vif r n -> P r n.
Proof. intros H vif r n (Hr & Hn & _). rewrite Forall_forall in H. pose proof (H _ Hr) as K. rewrite Forall_forall in K. apply K, in_codes, Hn. Qed.

(** durations, of which the library does not give the unit *)
Lemma native_row vif r n : primary vif r n ->
  exists units, value_information_try_from {| vib_vif := vif; vib_vifes := None; vib_plaintext := None |} =
    Ok {| vi_decimal_offset_exponent := 0; vi_labels := [vr_label r]; vi_decimal_scale_exponent := primary_scale r n; vi_units := units |} /\
    (~ duration r -> units = vr_units r) /\ (duration r -> units = []).
Proof.
  intros H. assert (E : vif = vr_first r + n) by apply H. subst vif.
  revert H. generalize (vr_first r + n) at 1. intros vif H. revert vif r n H.
  refine (rows_all _ _). unfold duration.
  repeat constructor; (eexists; split; [vm_compute; reflexivity|]; cbn; split; [intros K|intros [K|K]]; solve [reflexivity|discriminate K|exfalso; apply K; auto]).
Qed.
Lemma xml_row vif r n : primary vif r n -> vif < 0x7C /\
  find (fun entry => let '(v, _, _, _) := entry in v =? N.land vif 0x7F) vif_table =
    Some (vif, (vr_seconds r, primary_scale r n), vr_xml_unit r, vr_xml_quantity r).
Proof.
  intros H. assert (E : vif = vr_first r + n) by apply H. subst vif.
  revert H. generalize (vr_first r + n) at 1. intros vif H. revert vif r n H.
  refine (rows_all _ _). repeat constructor; (split; vm_compute; reflexivity).
Qed.
Lemma xml_scaled powi vif r n custom x : primary vif r n ->
  vib_unit_normalize powi vif [] custom x =
    Some (vr_xml_unit r, f64_mul x (f64_literal (vr_seconds r) (primary_scale r n)), vr_xml_quantity r).
Proof.
  intros H. destruct (xml_row _ _ _ H) as [L F]. unfold vib_unit_normalize.
  destruct (N.eqb_spec vif 0xFD); [lia|]. destruct (N.eqb_spec vif 0xFB); [lia|]. destruct (N.eqb_spec vif 0x7C); [lia|].
  destruct (N.eqb_spec vif 0xFC); [lia|]. cbn [orb]. unfold vif_unit_normalize.
  assert (K1 : N.land (N.land vif 0x7F) 0xF7F = N.land vif 0x7F) by (rewrite <- N.land_assoc; reflexivity).
  rewrite K1, F. destruct (negb _ && _ && _); reflexivity.
Qed.

(** both tables agree on every code below 80 *)
Definition agrees (vif : N) : bool :=
  match value_information_try_from {| vib_vif := vif; vib_vifes := None; vib_plaintext := None |},
        find (fun entry => let '(v, _, _, _) := entry in v =? N.land vif 0x7F) vif_table with
  | Ok vi, Some (_, (s, e), _, _) =>
      Z.eqb e (vi_decimal_scale_exponent vi) && (Z.eqb s 1 || (existsb (Z.eqb s) [60; 3600; 86400] && Z.eqb e 0))%Z
  | _, _ => true
  end.
Lemma tables_agree vif : vif < 0x80 -> agrees vif = true.
Proof.
  assert (F : forallb agrees (map N.of_nat (seq 0 128)) = true) by (vm_compute; reflexivity).
  intros H. rewrite forallb_forall in F. apply F. rewrite in_map_iff. exists (N.to_nat vif). split; [lia|]. apply in_seq. lia.
Qed.
Lemma scales_agree powi vif vi custom x unit_text y quantity : vif < 0x80 -> vif <> 0x7C ->
  value_information_try_from {| vib_vif := vif; vib_vifes := None; vib_plaintext := None |} = Ok vi ->
  vib_unit_normalize powi vif [] custom x = Some (unit_text, y, quantity) ->
  exists seconds, In seconds [1; 60; 3600; 86400]%Z /\ (seconds <> 1 -> vi_decimal_scale_exponent vi = 0)%Z /\
    y = f64_mul x (f64_literal seconds (vi_decimal_scale_exponent vi)).
Proof.
  intros L N7C Hv Hx. pose proof (tables_agree vif L) as A. unfold agrees in A. rewrite Hv in A.
  unfold vib_unit_normalize in Hx.
  destruct (N.eqb_spec vif 0xFD); [lia|]. destruct (N.eqb_spec vif 0xFB); [lia|]. destruct (N.eqb_spec vif 0x7C); [lia|].
  destruct (N.eqb_spec vif 0xFC); [lia|]. cbn [orb] in Hx. unfold vif_unit_normalize in Hx.
  match type of Hx with match (match ?f with _ => _ end) with _ => _ end = _ => destruct f as [[[[v [s e]] u] q]|] eqn:F end; [|discriminate Hx].
  replace (N.land (N.land vif 0x7F) 0xF7F) with (N.land vif 0x7F) in F by (rewrite <- N.land_assoc; reflexivity).
  match type of A with context [find ?f ?t] => assert (E : find f t = Some (v, (s, e), u, q)) by exact F end.
  rewrite E in A. apply andb_true_iff in A. destruct A as [A1 A2]. apply Z.eqb_eq in A1. subst e.
  assert (Hy : y = f64_mul x (f64_literal s (vi_decimal_scale_exponent vi))).
  { destruct (negb _ && _ && _) in Hx; injection Hx as _ <- _; reflexivity. }
  exists s. split; [|split; [|exact Hy]].
  - apply orb_true_iff in A2. destruct A2 as [A2|A2]; [apply Z.eqb_eq in A2; subst; now left|].
    apply andb_true_iff in A2. destruct A2 as [A2 _]. apply existsb_exists in A2. destruct A2 as (k & K & Ek). apply Z.eqb_eq in Ek. subst k. now right.
  - intros N1. apply orb_true_iff in A2. destruct A2 as [A2|A2]; [apply Z.eqb_eq in A2; lia|].
    apply andb_true_iff in A2. destruct A2 as [_ A2]. now apply Z.eqb_eq in A2.
Qed.
