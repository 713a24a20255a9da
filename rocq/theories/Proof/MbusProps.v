(** Witnesses and examples for Props/MbusData.v. *)
From Coq Require Import List NArith Lia.
Import ListNotations.
From Verif Require Import Model.Base Model.Core Model.Wired Model.Wireless Model.DataInfo Model.Record Model.Decrypt Model.UserData
  Model.MbusData Spec.CoreSpec Spec.CrcSpec Spec.WiredSpec Spec.WirelessSpec Spec.DecryptSpec Spec.AppSpec Spec.AnnotateSpec Spec.MbusSpec
  Proof.BaseFacts Proof.CrcFacts Proof.WiredFacts Proof.WirelessFacts Proof.FormatAProps Proof.AppFacts Proof.AnnotateProps Proof.MbusFacts.
Open Scope N_scope.

(** a frame whose application layer cannot be read: unknown control information *)
Definition ex_bad_app : list N := long_frame [0x0F; 1; 2].
Lemma layers_example : exists m u m', mbus_wired_try_from debug ex_wired_clear = Ok m /\ md_user_data m = Some u /\
  mbus_wired_try_from debug ex_bad_app = Ok m' /\ md_application_error m' = Some (InvalidControlInformation 0x0F) /\
  md_frame m' = LongFrame (RspUd false false) (Primary 1) [0x0F; 1; 2].
Proof. eexists. eexists. eexists. repeat (split; [vm_compute; reflexivity|]). vm_compute. reflexivity. Qed.
Lemma layers_wireless_example : exists m u, mbus_wireless_try_from ex_air = Ok m /\ md_user_data m = Some u.
Proof. eexists. eexists. split; vm_compute; reflexivity. Qed.

Lemma records_example : exists m u b m' u' b',
  mbus_wired_try_from debug ex_wired_clear = Ok m /\ md_user_data m = Some u /\ variable_block u = Some b /\ b <> [] /\
  mbus_wireless_try_from ex_air = Ok m' /\ md_user_data m' = Some u' /\ variable_block u' = Some b' /\ b' <> [].
Proof. do 6 eexists. do 3 (split; [vm_compute; reflexivity|]). split; [discriminate|]. do 3 (split; [vm_compute; reflexivity|]). discriminate. Qed.

(** a reading in the reversed byte order announced by control information 0x76 *)
Definition ex_reversed : list N :=
  long_frame ([0x76; 0x12; 0x34; 0x56; 0x78; 0x42; 0x04; 1; 7; 9; 0; 0; 0] ++ [0x0A; 0x13; 0x12; 0x34]).
Lemma records_differ cf : exists data m u r r',
  bytes_ok data /\ mbus_wired_try_from cf data = Ok m /\ md_user_data m = Some u /\
  user_data_is_encrypted u = Some false /\ user_data_records u = Some r /\ md_data_records m = Some r' /\
  records_all cf (rs_data r') (rs_header r') <> records_all cf (rs_data r) (rs_header r).
Proof.
  exists ex_reversed. eexists. eexists. eexists. eexists. split; [apply bytes_lit; vm_compute; reflexivity|].
  destruct cf as [[] []].
  all: split; [vm_compute; reflexivity|]; split; [reflexivity|]; split; [reflexivity|]; split; [reflexivity|];
    split; [reflexivity|]; vm_compute; discriminate.
Qed.
Lemma same_records_example : exists m u r,
  mbus_wired_try_from debug ex_wired_clear = Ok m /\ md_user_data m = Some u /\ user_data_records u = Some r /\ ~ reversed u.
Proof.
  eexists. eexists. eexists. split; [vm_compute; reflexivity|]. split; [reflexivity|]. split; [reflexivity|].
  intros (ell & h & b & E & L). injection E as _ <- _. discriminate L.
Qed.

Lemma encrypted_has_records : exists data m u r items x,
  bytes_ok data /\ mbus_wired_try_from debug data = Ok m /\ md_user_data m = Some u /\
  user_data_is_encrypted u = Some true /\ md_data_records m = Some r /\
  records_all debug (rs_data r) (rs_header r) = Some (Ok x :: items).
Proof.
  exists (long_frame ([0x72; 0x78; 0x56; 0x34; 0x12; 0x42; 0x04; 1; 7; 9; 0; 0; 5] ++ repeat 0x02 16)).
  eexists. eexists. eexists. eexists. eexists. split; [apply bytes_lit; vm_compute; reflexivity|].
  split; [vm_compute; reflexivity|]. split; [reflexivity|]. split; [reflexivity|]. split; [reflexivity|].
  vm_compute. reflexivity.
Qed.

(** a toy cipher: exclusive or with the key *)
Definition toy (key b : list N) : list N := map (fun p => N.lxor (fst p) (snd p)) (combine b key).
Definition ex_key : list N := repeat 0x5A 16.
Lemma toy_inverse : inverse_cipher toy toy ex_key.
Proof.
  intros b Hb. do 16 (destruct b as [|? b]; [discriminate|]). destruct b; [|discriminate].
  split; [reflexivity|]. unfold toy, ex_key. cbn [repeat combine map fst snd].
  rewrite !N.lxor_assoc, N.lxor_nilpotent, !N.lxor_0_r. reflexivity.
Qed.
Lemma toy_keeps : keeps_blocks toy ex_key.
Proof. intros b Hb. unfold toy. rewrite map_length, combine_length, Hb. reflexivity. Qed.

Definition ex_blocks : list (list N) := [[0x2F; 0x2F; 0x0C; 0x13; 0x78; 0x56; 0x34; 0x12] ++ repeat 0x2F 8; repeat 0x2F 16].
Definition ex_link : list N := [0x24; 0x40; 0x78; 0x56; 0x34; 0x12; 1; 7].
Definition ex_iv : list N := ex_link ++ repeat 0x55 8.
Definition ex_long_head : list N := [0x72; 0x78; 0x56; 0x34; 0x12; 0x24; 0x40; 1; 7; 0x55; 0; 0; 5].
Definition ex_short_head : list N := [0x7A; 0x55; 0; 0; 5].
Definition ex_sealed (head : list N) : list N := head ++ cbc_encrypt (toy ex_key) ex_iv ex_blocks ++ [1; 2].
Definition ex_plain (head : list N) : list N := head ++ concat ex_blocks ++ [1; 2].
Lemma ex_sealed_long link : sealed (toy ex_key) link (ex_plain ex_long_head) (ex_sealed ex_long_head).
Proof.
  apply (SealedLong _ _ 0x78 0x56 0x34 0x12 0x24 0x40 1 7 0x55 0 0 5 80 65 68 12345678);
    try (unfold capital; lia); try reflexivity; try discriminate.
  - exists [8; 7; 6; 5; 4; 3; 2; 1]. cbn. repeat split; lia.
  - left. split; reflexivity.
  - repeat constructor.
  - cbn. lia.
Qed.
Definition ex_meter : manufacturer_id :=
  {| mi_manufacturer_code := {| mc1 := 80; mc2 := 65; mc3 := 68 |}; mi_identification_number := 12345678;
     mi_device_type := DevWaterMeter; mi_version := 1; mi_is_unique_globally := false |}.
Lemma ex_sealed_short : sealed (toy ex_key) ex_link (ex_plain ex_short_head) (ex_sealed ex_short_head).
Proof.
  apply (SealedShort _ _ 0x24 0x40 0x78 0x56 0x34 0x12 1 7 ex_meter 0x55 0 0 5); try reflexivity; try discriminate.
  - unfold identity, capital; cbn. repeat split; try lia. exists [8; 7; 6; 5; 4; 3; 2; 1]. cbn. repeat split; lia.
  - left. split; reflexivity.
  - repeat constructor.
  - cbn. lia.
Qed.
Lemma wired_view_example :
  sealed (toy ex_key) [] (ex_plain ex_long_head) (ex_sealed ex_long_head) /\
  bytes_ok (long_layout 0x68 0x08 1 (ex_sealed ex_long_head)) /\
  wired_meaning (long_layout 0x68 0x08 1 (ex_sealed ex_long_head))
    (LongFrame (RspUd false false) (Primary 1) (ex_sealed ex_long_head)) /\
  inverse_cipher toy toy ex_key /\ keeps_blocks toy ex_key /\
  decrypted_wired_hexview debug toy (long_layout 0x68 0x08 1 (ex_sealed ex_long_head)) ex_key =
    Ok (Some (long_layout 0x68 0x08 1 (ex_plain ex_long_head))).
Proof.
  split; [apply ex_sealed_long|]. split; [apply bytes_lit; vm_compute; reflexivity|].
  split; [apply WLong; [cbn; auto 20|cbn; lia|discriminate]|].
  split; [exact toy_inverse|]. split; [exact toy_keeps|]. vm_compute. reflexivity.
Qed.

Definition ex_sealed_air : list N := [48; 0x44] ++ ex_link ++ ex_sealed ex_short_head.
Lemma air_view_example : exists fr,
  bytes_ok ex_sealed_air /\ received ex_sealed_air ex_sealed_air /\ wireless_meaning ex_sealed_air fr /\
  wf_data fr = ex_sealed ex_short_head /\
  decrypted_wireless_hexview toy ex_sealed_air ex_key = Ok (Some ([48; 0x44] ++ ex_link ++ ex_plain ex_short_head)).
Proof.
  assert (B : bytes_ok ex_sealed_air) by (apply bytes_lit; vm_compute; reflexivity).
  assert (H : exists fr, wireless_try_from ex_sealed_air = Ok fr) by (eexists; vm_compute; reflexivity).
  destruct H as [fr H]. exists fr. split; [exact B|].
  split; [left; split; [reflexivity|eapply no_first_crc_lit; [exact B|reflexivity|reflexivity|vm_compute; discriminate]]|].
  split; [now apply wireless_ok_iff|]. split; [vm_compute in H; apply Ok_inj in H; subst fr; reflexivity|].
  vm_compute. reflexivity.
Qed.

(** the same frame with a CRC over the whole frame at its end *)
Definition ex_crc_air : list N := with_crc ([50; 0x44] ++ ex_link ++ ex_sealed ex_short_head).
Lemma view_misplaced : exists l c link plain cipher crc fr data key display,
  data = [l; c] ++ link ++ cipher ++ crc /\ bytes_ok data /\ length link = 8%nat /\ received data data /\
  wireless_meaning data fr /\ wf_data fr = cipher /\
  sealed (toy key) link plain cipher /\ inverse_cipher toy toy key /\ length key = 16%nat /\
  decrypted_wireless_hexview toy data key = Ok (Some display) /\
  forall tail, display <> [l; c] ++ link ++ plain ++ tail.
Proof.
  assert (B : bytes_ok ex_crc_air) by (apply bytes_lit; vm_compute; reflexivity).
  assert (H : exists fr, wireless_try_from ex_crc_air = Ok fr) by (eexists; vm_compute; reflexivity).
  destruct H as [fr H].
  eexists 50, 0x44, ex_link, (ex_plain ex_short_head), (ex_sealed ex_short_head), _, fr, ex_crc_air, ex_key. eexists.
  split; [unfold ex_crc_air, with_crc; rewrite <- !app_assoc; reflexivity|]. split; [exact B|]. split; [reflexivity|].
  split; [left; split; [reflexivity|eapply no_first_crc_lit; [exact B|reflexivity|reflexivity|vm_compute; discriminate]]|].
  split; [now apply wireless_ok_iff|]. split; [vm_compute in H; apply Ok_inj in H; subst fr; reflexivity|].
  split; [apply ex_sealed_short|]. split; [exact toy_inverse|]. split; [reflexivity|].
  split; [vm_compute; reflexivity|]. intros tail E. apply (f_equal (firstn 16)) in E. vm_compute in E. discriminate E.
Qed.
