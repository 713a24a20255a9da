(** Facts about what is shown with a record besides its value. *)
From Coq Require Import String List NArith ZArith Lia Bool.
Import ListNotations.
From Verif Require Import Model.Base Model.Text Model.Core Model.F64 Model.DataInfo Model.ValueInfo Model.Record Model.UserData Model.Hex Model.Decimal Model.Show Model.Output
  Spec.CoreSpec Spec.TextSpec Spec.RecordSpec Spec.VifSpec Spec.OutputSpec Spec.DetailSpec
  Proof.BaseFacts Proof.TextFacts Proof.CoreFacts Proof.HeaderFacts Proof.HeaderProps Proof.RecordFacts Proof.AppFacts Proof.IterFacts Proof.VifFacts Proof.RscadaRecords
  Proof.OutputRecords.
From Verif Require Import Proof.RscadaValues.
Open Scope N_scope.

Lemma dif_chain_block dif difes rest b : bytes_ok ((dif :: difes) ++ rest) -> dif_chain dif (dif :: difes) ->
  dib_try_from ((dif :: difes) ++ rest) = Ok b -> dib_dif b = dif /\ match dib_difes b with Some l => l | None => [] end = difes.
Proof.
  intros B (_ & d & E & H) Hb. injection E as <-.
  assert (K : exists o, dib_try_from ((dif :: difes) ++ rest) = Ok {| dib_dif := dif; dib_difes := o |} /\ match o with Some l => l | None => [] end = difes).
  { destruct H as [[H ->]|(H & C & L)].
    - exists None. split; [|reflexivity]. apply dib_accepts; [exact B|]. left. exists dif, rest. auto.
    - exists (Some difes). split; [|reflexivity]. apply dib_accepts; [exact B|]. right. exists dif, difes, rest. auto. }
  destruct K as (o & K & Ko). rewrite K in Hb. apply Ok_inj in Hb. subst b. auto.
Qed.
Lemma function_name_of dif : dif < 256 -> nth_error functions (N.to_nat ((dif / 16) mod 4)) = Some (record_function_name (function_field_of dif)).
Proof.
  intros H. assert (K : match nth_error functions (N.to_nat ((dif / 16) mod 4)) with
                        | Some t => text_eqb t (record_function_name (function_field_of dif)) | None => false end = true).
  { exact (sweep256 (fun dif => match nth_error functions (N.to_nat ((dif / 16) mod 4)) with
                        | Some t => text_eqb t (record_function_name (function_field_of dif)) | None => false end)
             ltac:(vm_compute; reflexivity) dif H). }
  destruct (nth_error functions _); [|discriminate]. apply text_eqb_ok in K. now subst.
Qed.
Lemma coding_text dif vif : dif < 256 -> vif < 256 -> dif mod 16 <> 15 ->
  coding_shown dif vif (data_coding_name (selected vif (data_field_coding_of dif))) /\
  (forall f, selected vif (data_field_coding_of dif) <> CSpecialFunctions f).
Proof.
  intros Hd Hv N. unfold coding_shown, selected. rewrite land_127.
  assert (K : (dif mod 16 =? 15) || match nth_error codings (N.to_nat (dif mod 16)) with
              | Some t => text_eqb t (data_coding_name (data_field_coding_of dif)) | None => false end = true).
  { exact (sweep256 (fun dif => (dif mod 16 =? 15) || match nth_error codings (N.to_nat (dif mod 16)) with
              | Some t => text_eqb t (data_coding_name (data_field_coding_of dif)) | None => false end) ltac:(vm_compute; reflexivity) dif Hd). }
  rewrite (proj2 (N.eqb_neq _ _) N) in K. cbn [orb] in K.
  assert (K2 : (dif mod 16 =? 15) || match data_field_coding_of dif with CInteger48Bit => dif mod 16 =? 6 | CSpecialFunctions _ => false | _ => negb (dif mod 16 =? 6) end = true).
  { exact (sweep256 (fun dif => (dif mod 16 =? 15) || match data_field_coding_of dif with CInteger48Bit => dif mod 16 =? 6 | CSpecialFunctions _ => false | _ => negb (dif mod 16 =? 6) end) ltac:(vm_compute; reflexivity) dif Hd). }
  rewrite (proj2 (N.eqb_neq _ _) N) in K2. cbn [orb] in K2.
  destruct (vif mod 128 =? 0x6C); [split; [reflexivity|discriminate]|].
  destruct (vif mod 128 =? 0x6D).
  - destruct (dif mod 16 =? 6); destruct (data_field_coding_of dif); try discriminate K2; split; try reflexivity; discriminate.
  - destruct (nth_error codings _); [|discriminate]. apply text_eqb_ok in K. subst.
    split; [reflexivity|]. intros f E. rewrite E in K2. discriminate K2.
Qed.
Lemma record_labels cf dif difes rest hdr r i : bytes_ok ((dif :: difes) ++ rest) -> dif_chain dif (dif :: difes) ->
  data_record_parse cf ((dif :: difes) ++ rest) hdr = Ok r ->
  let o := record_output i r in
  ro_index o = i /\ nth_error functions (N.to_nat ((dif / 16) mod 4)) = Some (ro_function o) /\
  ro_tariff o = en_tariff difes /\ ro_subunit o = en_subunit difes /\
  (ro_storage_number o = en_storage dif difes <-> Forall (fun b => b mod 16 = 0) difes) /\
  exists vif rest', rest = vif :: rest' /\ coding_shown dif vif (ro_data_coding o).
Proof.
  intros B C H. cbv zeta. pose proof H as P. apply record_split in P as (p & rr & di0 & Ed & Lp & Hh & Hi & _ & _ & _).
  pose proof Hh as Hh'. apply header_dib in Hh' as (di' & _ & Hb & _).
  destruct (dif_chain_block _ _ _ _ B C Hb) as [E1 E2].
  destruct (record_dib _ _ _ _ B H) as [Bd (di & Hi' & S & T & D & F)].
  unfold difes_of in *. rewrite E1, E2 in *. rewrite Hi in Hi'. injection Hi' as ->.
  pose proof (header_coding _ _ _ _ B Hh Hi) as Hc. cbv zeta in Hc. rewrite E1 in Hc.
  assert (Hd : dif < 256) by (now bytes_split Bd). assert (Nd : dif mod 16 <> 15) by apply C.
  assert (V : exists v rest', rh_vib (drh_raw (dr_header r)) = Some v /\ rest = vib_vif v :: rest').
  { unfold header_try_from in Hh. apply bind_ok in Hh as (raw & Hr & Hh). apply bind_ok in Hh as (pr & _ & Hh). apply Ok_inj in Hh.
    rewrite <- Hh in *. cbn [drh_raw] in *. unfold raw_header_try_from, from_die in Hr. rewrite Hb in Hr. cbn [map_err bind] in Hr.
    assert (Sp : is_special_function (dib_dif (rh_dib raw)) = false).
    { rewrite E1. unfold is_special_function. rewrite land_15. now apply N.eqb_neq. }
    rewrite Sp in Hr. cbn [negb] in Hr. apply bind_ok in Hr as (rst & Hg & Hr). apply ok_or_ok in Hg.
    assert (Sz : dib_get_size (rh_dib raw) = len (dif :: difes)).
    { unfold dib_get_size. rewrite len_cons. rewrite <- E2. destruct (dib_difes (rh_dib raw)); cbn; lia. }
    rewrite Sz, get_from_app in Hg. injection Hg as <-. apply bind_ok in Hr as (v & Hv & Hr). apply map_err_ok in Hv.
    apply Ok_inj in Hr. rewrite <- Hr. cbn [rh_vib]. exists v. apply bytes_ok_app in B as [_ Br].
    destruct (vib_accepts _ _ _ Br Hv) as (rest' & E & _). eexists. split; [reflexivity|exact E]. }
  destruct V as (v & rest' & Hv & Er). rewrite Hv in Hc.
  assert (Hvb : vib_vif v < 256). { apply bytes_ok_app in B as [_ B]. rewrite Er in B. now bytes_split B. }
  destruct (coding_text dif (vib_vif v) Hd Hvb Nd) as [Ct Ns]. rewrite <- Hc in Ct, Ns.
  unfold record_output. rewrite Hi. cbn [ro_index ro_function ro_tariff ro_subunit ro_storage_number ro_data_coding].
  split; [reflexivity|]. split; [|split; [exact T|split; [exact D|split]]].
  - rewrite (function_name_of _ Hd), <- F. destruct (di_data_field_coding di) eqn:Q; try reflexivity. exfalso. eapply Ns. reflexivity.
  - rewrite S. unfold en_storage. rewrite <- digits_zero. split; intros; lia.
  - exists (vib_vif v), rest'. auto.
Qed.
Lemma special_labels cf dif rest hdr r i t v : bytes_ok (dif :: rest) -> special_shown dif t v -> data_record_parse cf (dif :: rest) hdr = Ok r ->
  let o := record_output i r in
  ro_index o = i /\ ro_function o = t /\ ro_data_coding o = t /\ ro_value o = v /\ ro_quantities o = [] /\ ro_unit o = None /\
  ro_tariff o = 0 /\ ro_subunit o = 0.
Proof.
  intros _ S H. cbv zeta.
  assert (Hd : dif < 128 /\ is_special_function dif = true /\ data_field_coding_of dif = CSpecialFunctions (special_function dif) /\
    special_function_name (special_function dif) = t) by (destruct S; repeat split).
  destruct Hd as (Hd & Sp & Hc & Ht).
  unfold data_record_parse, header_try_from, raw_header_try_from, from_die in H.
  rewrite dib_plain in H by (destruct S; reflexivity). cbn [map_err bind dib_dif] in H. rewrite Sp in H. cbn [negb bind] in H.
  unfold processed_header_try_from in H. cbn [rh_vib rh_dib dib_dif] in H. rewrite Sp in H.
  unfold data_information_try_from, from_die in H. cbn [dib_dif dib_difes map_err bind] in H.
  cbn [drh_processed ph_data_information di_data_field_coding] in H. rewrite Hc in H.
  destruct (len (dif :: rest) <? _); [discriminate H|]. apply bind_ok in H as (dd & H1 & H). apply bind_ok in H as (raw & _ & H).
  apply bind_ok in H1 as (rst & _ & H1). apply Ok_inj in H. subst r.
  unfold record_output, value_output.
  cbn [dr_header drh_processed ph_data_information ph_value_information dr_data di_data_field_coding di_tariff di_device
    ro_index ro_function ro_data_coding ro_value ro_quantities ro_unit ro_tariff ro_subunit data_coding_name].
  rewrite Ht. repeat split. clear - H1 S.
  destruct S; cbn in H1; apply Ok_inj in H1; subst dd; reflexivity.
Qed.

(** ** Quantity and unit *)
Ltac pick := first [left; reflexivity|right; pick].
Lemma row_texts vif row n : primary vif row n ->
  In (vr_label row, quantity_name (vr_label row)) quantity_texts /\
  (vr_units row <> [] -> In (vr_units row, unit_output (vr_units row)) unit_texts).
Proof.
  intros (H & _). revert row H. apply Forall_forall.
  repeat (apply Forall_cons;
    [split; [vm_compute; pick
            |first [intros K; destruct (K eq_refl); fail|intros _; vm_compute; pick]]|]).
  apply Forall_nil.
Qed.
