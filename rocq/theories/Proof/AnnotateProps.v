(** Witnesses and examples for Props/Annotate.v. *)
From Coq Require Import List NArith Lia.
Import ListNotations.
From Verif Require Import Model.Base Model.Core Model.Wired Model.Wireless Model.DataInfo Model.ValueInfo Model.Record
  Model.MbusData Model.Annotate Spec.CrcSpec Spec.WiredSpec Spec.WirelessSpec Spec.AnnotateSpec
  Proof.BaseFacts Proof.CrcFacts Proof.WiredFacts Proof.WirelessFacts Proof.FormatAFacts Proof.FormatAProps
  Proof.AnnotateFacts Proof.AnnotateFormatA Proof.AnnotateRecords Proof.AnnotateApp.
Open Scope N_scope.

Definition debug : config := {| overflow_checks := true; plaintext_before_extension := false |}.
Definition text_first : config := {| overflow_checks := true; plaintext_before_extension := true |}.

Lemma tiling_refuted cf : exists data segs i,
  bytes_ok data /\ annotate_frame cf data = Ok segs /\ i < len data /\ forall s, In s segs -> ~ covers s i.
Proof.
  exists [0xE5; 0], [seg 0 1 KStartByte None LFrame], 1. split; [apply bytes_lit; reflexivity|].
  split; [unfold annotate_frame, annotate_wired; rewrite wired_single; reflexivity|].
  split; [reflexivity|]. intros s [<-|[]]. unfold covers. cbn. lia.
Qed.

Lemma tiling_partial cf data segs : annotate_frame cf data = Ok segs ->
  (forall rest, data = 0xE5 :: rest -> rest = []) -> tiles 0 segs (len data).
Proof.
  intros H Hr. destruct (frame_tiles cf data segs H) as [[(rest & E) T]|T]; [|exact T].
  rewrite (Hr rest E) in E. subst data. exact T.
Qed.
Lemma one_label_partial cf data segs : annotate_frame cf data = Ok segs ->
  (forall rest, data = 0xE5 :: rest -> rest = []) ->
  forall i, i < len data -> exists! s, In s segs /\ covers s i.
Proof. intros H Hr i Hi. eapply tiles_unique; [eapply tiling_partial; eassumption|lia]. Qed.
Lemma replace_keeps_tiling cf segs display out n :
  tiles 0 segs n -> n <= len display -> replace_encrypted cf segs display = Ok out -> tiles 0 out n.
Proof. intros T L H. eapply replace_tiles; eassumption. Qed.

(** a long frame with two records, a volume and an error byte, and a filler *)
Definition ex_clear_block : list N := [0x0C; 0x13; 0x78; 0x56; 0x34; 0x12; 0x2F; 0x01; 0xFD; 0x17; 5].
Definition ex_clear_message : list N :=
  [0x72; 0x78; 0x56; 0x34; 0x12; 0x42; 0x04; 1; 7; 9; 0; 0; 0] ++ ex_clear_block.
Definition long_frame (p : list N) : list N := long_layout 0x68 0x08 1 p.
Definition ex_wired_clear : list N := long_frame ex_clear_message.

Lemma long_frame_carries p : carries (long_frame p) 6 p.
Proof.
  apply (CarryWired _ (RspUd false false) (Primary 1)). apply WLong; [cbn; auto 20|cbn; lia|discriminate].
Qed.

Lemma wired_clear_example : exists segs, annotate_frame debug ex_wired_clear = Ok segs /\
  length segs = 23%nat /\ tiles 0 segs 32.
Proof.
  assert (H : exists segs, annotate_frame debug ex_wired_clear = Ok segs) by (eexists; vm_compute; reflexivity).
  destruct H as [segs H]. exists segs. split; [exact H|].
  split; [vm_compute in H; apply Ok_inj in H; subst segs; reflexivity|].
  change 32 with (len ex_wired_clear). apply (tiling_partial debug); [exact H|]. intros rest E. discriminate E.
Qed.

Definition ex_encrypted_message : list N :=
  [0x72; 0x78; 0x56; 0x34; 0x12; 0x42; 0x04; 1; 7; 9; 0; 0; 5] ++ repeat 0x2F 16.
Definition ex_wired_encrypted : list N := long_frame ex_encrypted_message.
Lemma encrypted_example : bytes_ok ex_wired_encrypted /\ carries ex_wired_encrypted 6 ex_encrypted_message /\
  encrypted_message ex_encrypted_message (repeat 0x2F 16).
Proof.
  split; [apply bytes_lit; vm_compute; reflexivity|]. split; [apply long_frame_carries|].
  apply EncLong; [now left|discriminate].
Qed.

(** an encrypted wireless frame with short header *)
Definition ex_air : list N :=
  [30; 0x44; 0x42; 0x04; 0x78; 0x56; 0x34; 0x12; 1; 7] ++ [0x7A; 9; 0; 0; 5] ++ repeat 0x2F 16.
Definition with_crc (l : list N) : list N := l ++ [crc16_en13757 l / 256; crc16_en13757 l mod 256].
Definition ex_air_encoded : list N :=
  with_crc (firstn 10 ex_air) ++ with_crc (firstn 16 (skipn 10 ex_air)) ++ with_crc (skipn 26 ex_air).

Lemma not_wired_lit data e : wired_try_from debug data = Err e -> not_wired data.
Proof. intros H fr Hf. apply (wired_ok_iff debug) in Hf. congruence. Qed.
Lemma no_first_crc_lit data hi lo : bytes_ok data -> get data 10 = Some hi -> get data 11 = Some lo ->
  crc16_en13757 (firstn 10 data) <> 256 * hi + lo -> no_first_crc data.
Proof.
  intros Hb H0 H1 Hn head hi' lo' enc E L Hc.
  assert (Eh : firstn 10 data = head).
  { rewrite E. assert (length head = 10%nat) by (unfold len in L; lia).
    rewrite <- H, firstn_app, firstn_all, Nat.sub_diag. cbn [firstn]. apply app_nil_r. }
  rewrite E, get_app_r in H0, H1 by lia. rewrite L in H0, H1.
  change (10 - 10) with 0 in H0. change (11 - 10) with 1 in H1. cbn in H0, H1. injection H0 as <-. injection H1 as <-.
  apply crc_iff in Hc; [|subst data; now apply bytes_ok_app in Hb]. rewrite Eh in Hn. congruence.
Qed.
Lemma crc_lit l : bytes_ok l -> crc16_en13757 l < 65536 ->
  is_crc l (256 * (crc16_en13757 l / 256) + crc16_en13757 l mod 256).
Proof. intros Hb H. apply crc_iff; [exact Hb|]. symmetry. apply N.div_mod. discriminate. Qed.

Lemma ex_air_format_a : format_a ex_air ex_air_encoded.
Proof.
  change ex_air with (firstn 10 ex_air ++ firstn 16 (skipn 10 ex_air) ++ skipn 26 ex_air).
  unfold ex_air_encoded, with_crc. rewrite <- !app_assoc.
  apply FFrame; [reflexivity|apply crc_lit; [apply bytes_lit; reflexivity|vm_compute; reflexivity]|].
  apply FFull; [reflexivity|apply crc_lit; [apply bytes_lit; reflexivity|vm_compute; reflexivity]|].
  apply FLast; [split; repeat constructor|apply crc_lit; [apply bytes_lit; reflexivity|vm_compute; reflexivity]].
Qed.

Lemma air_example : exists fr,
  bytes_ok ex_air_encoded /\ bytes_ok ex_air /\ format_a ex_air ex_air_encoded /\ wireless_meaning ex_air fr /\
  not_wired ex_air /\ no_first_crc ex_air /\ not_wired ex_air_encoded /\
  encrypted_message (wf_data fr) (repeat 0x2F 16).
Proof.
  assert (B : bytes_ok ex_air) by (apply bytes_lit; vm_compute; reflexivity).
  assert (H : exists fr, wireless_try_from ex_air = Ok fr) by (eexists; vm_compute; reflexivity).
  destruct H as [fr H]. exists fr. split; [apply bytes_lit; vm_compute; reflexivity|]. split; [exact B|].
  split; [exact ex_air_format_a|]. split; [now apply wireless_ok_iff|].
  split; [eapply not_wired_lit; vm_compute; reflexivity|].
  split; [eapply no_first_crc_lit; [exact B|reflexivity|reflexivity|vm_compute; discriminate]|].
  split; [eapply not_wired_lit; vm_compute; reflexivity|].
  vm_compute in H. apply Ok_inj in H. subst fr. cbn [wf_data].
  apply (EncShort 0x7A 9 0 0 5 (repeat 0x2F 16)); [now left|discriminate].
Qed.
Lemma air_labels_example : exists segs plain, annotate_frame debug ex_air = Ok plain /\
  annotate_frame debug ex_air_encoded = Ok segs /\ label_at segs 10 = Some (KCrc, None, LFrame) /\
  label_at segs 12 = label_at plain 10 /\ label_at plain 10 = Some (KCiField, None, LAppHeader).
Proof.
  eexists. eexists. split; [vm_compute; reflexivity|]. split; [vm_compute; reflexivity|].
  split; [reflexivity|]. split; reflexivity.
Qed.

Lemma groups_refuted cf : exists data p block segs items r,
  bytes_ok data /\ carries data 6 p /\ clear_message p block /\ annotate_frame cf data = Ok segs /\
  records_all cf block None = Some items /\ nth_error items 0 = Some (Ok r) /\ group segs 0 = [].
Proof.
  exists (long_frame [0x78; 0x7F]), [0x78; 0x7F], [0x7F]. eexists. eexists. eexists.
  split; [apply bytes_lit; vm_compute; reflexivity|]. split; [apply long_frame_carries|].
  split; [constructor|]. destruct cf as [[] []].
  all: split; [vm_compute; reflexivity|]; split; [vm_compute; reflexivity|]; split; [reflexivity|reflexivity].
Qed.
Definition ex_text_block : list N := [0x01; 0xFC; 1; 0x41; 0x74; 5].
Lemma groups_text_first_refuted : exists data p block segs items r,
  bytes_ok data /\ carries data 6 p /\ clear_message p block /\
  annotate_frame text_first data = Ok segs /\ records_all text_first block None = Some items /\
  nth_error items 0 = Some (Ok r) /\ fields data (group segs 0) <> record_parts r.
Proof.
  exists (long_frame (0x78 :: ex_text_block)), (0x78 :: ex_text_block), ex_text_block. eexists. eexists. eexists.
  split; [apply bytes_lit; vm_compute; reflexivity|]. split; [apply long_frame_carries|].
  split; [constructor|].
  split; [vm_compute; reflexivity|]. split; [vm_compute; reflexivity|]. split; [reflexivity|].
  vm_compute. discriminate.
Qed.

Lemma groups_example : exists segs items r0 r1,
  bytes_ok ex_wired_clear /\ carries ex_wired_clear 6 ex_clear_message /\ clear_message ex_clear_message ex_clear_block /\
  annotate_frame debug ex_wired_clear = Ok segs /\ records_all debug ex_clear_block None = Some items /\
  Forall (item_ok debug) items /\ items = [Ok r0; Ok r1] /\
  record_parts r1 = [(KDif, [0x01]); (KVif, [0xFD]); (KVife, [0x17]); (KDataPayload, [5])].
Proof.
  eexists. eexists. eexists. eexists.
  split; [apply bytes_lit; vm_compute; reflexivity|]. split; [apply long_frame_carries|].
  split; [apply ClrLong; [now left|reflexivity]|].
  split; [vm_compute; reflexivity|]. split; [vm_compute; reflexivity|].
  split; [repeat (apply Forall_cons || apply Forall_nil); intros r E; apply Ok_inj in E; subst r; (split; [discriminate|now left])|].
  split; [reflexivity|]. vm_compute. reflexivity.
Qed.

Lemma header_example : exists segs, annotate_frame debug ex_wired_clear = Ok segs /\
  labels_from segs 6 long_header_labels LAppHeader.
Proof.
  assert (H : exists segs, annotate_frame debug ex_wired_clear = Ok segs) by (eexists; vm_compute; reflexivity).
  destruct H as [segs H]. exists segs. split; [exact H|].
  eapply long_header_labelled; [| |apply long_frame_carries|exact H]; [apply bytes_lit; vm_compute; reflexivity|now left].
Qed.
