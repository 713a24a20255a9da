(** Witnesses and examples for Props/Output.v. *)
From Coq Require Import List NArith ZArith QArith Lia Bool String.
Import ListNotations.
From Verif Require Import Model.Base Model.Text Model.Core Model.Wired Model.Wireless Model.F64 Model.DataInfo Model.ValueInfo Model.Record Model.Decrypt
  Model.UserData Model.Hex Model.Decimal Model.MbusData Model.Show Model.Output
  Spec.CoreSpec Spec.TextSpec Spec.FloatSpec Spec.CrcSpec Spec.WiredSpec Spec.WirelessSpec Spec.DecryptSpec Spec.RecordSpec Spec.AppSpec
  Spec.AnnotateSpec Spec.MbusSpec Spec.OutputSpec
  Proof.BaseFacts Proof.WiredFacts Proof.WirelessFacts Proof.FormatAProps Proof.AppFacts Proof.HexFacts Proof.AnnotateProps Proof.MbusFacts Proof.MbusProps
  Proof.ScaledFacts Proof.ShowFacts Proof.OutputFacts Proof.OutputRecords Proof.OutputFrames Proof.OpenedFacts Proof.OutputMore Proof.OutputValues.
Open Scope N_scope.

Definition ex_env : environment :=
  {| env_config := debug; env_aes := toy; env_application_message := fun _ => txt "application error";
     env_record_message := fun _ => txt "record error"; env_registry := fun _ => None |}.

Lemma app_lit payload u : bytes_ok payload -> user_data_try_from payload = Ok u -> app_meaning payload u.
Proof. intros B H. now apply dispatch_exact. Qed.
Ltac lit := apply bytes_lit; vm_compute; reflexivity.
Lemma long_message p : message (long_frame p) p None.
Proof. apply (MsgWired _ (RspUd false false) (Primary 1)). apply WLong; [cbn; auto 20|cbn; lia|discriminate]. Qed.
Lemma long_addressed p : addressed (long_frame p) [] p.
Proof. apply (AddrWired _ (RspUd false false) (Primary 1)). apply WLong; [cbn; auto 20|cbn; lia|discriminate]. Qed.

Lemma no_ciphertext_example : exists u,
  bytes_ok ex_wired_encrypted /\ message ex_wired_encrypted ex_encrypted_message None /\ protected ex_encrypted_message /\
  app_meaning ex_encrypted_message u.
Proof.
  eexists. split; [lit|]. split; [apply long_message|].
  split. { eapply ProtTransport. apply (proj2 (proj2 encrypted_example)). }
  apply app_lit; [lit|vm_compute; reflexivity].
Qed.

(** an extended link layer for encrypted sessions inside another extended link layer *)
Definition ex_nested : list N := [0x8C; 0; 1] ++ [0x8D; 0; 1; 0; 0; 0; 0x20; 0; 0] ++ [0x01; 0x13; 5].
Lemma nested_refuted env : exists data payload id u d,
  bytes_ok data /\ message data ([0x8C; 0; 1] ++ payload) id /\ protected payload /\ app_meaning ([0x8C; 0; 1] ++ payload) u /\
  decode_bytes env data None false = Ok d /\ do_records d <> [] /\ do_decode_state d = txt "complete" /\
  so_payload_protection (do_security d) = txt "cleartext".
Proof.
  exists (long_frame ex_nested), (skipn 3 ex_nested), None. eexists. eexists. split; [lit|].
  split; [apply (long_message ex_nested)|].
  split; [apply (ProtEllII 0 1 0 0 0 0x20 0 0)|].
  split; [apply app_lit; [lit|vm_compute; reflexivity]|].
  destruct env as [[[] []] ? ? ? ?]; (split; [vm_compute; reflexivity|]); (split; [discriminate|]); split; reflexivity.
Qed.

Lemma nested_example : exists data payload u,
  bytes_ok data /\ message data ([0x8C; 0; 1] ++ payload) None /\ protected ([0x8C; 0; 1] ++ payload) /\
  app_meaning ([0x8C; 0; 1] ++ payload) u.
Proof.
  exists (long_frame ([0x8C; 0; 1] ++ [0x7A; 9; 0; 0; 5] ++ repeat 0x33 16)), ([0x7A; 9; 0; 0; 5] ++ repeat 0x33 16). eexists.
  split; [lit|]. split; [apply long_message|].
  split; [eapply ProtTransport, EncEll, (EncShort 0x7A); [now left|discriminate]|].
  apply app_lit; [lit|vm_compute; reflexivity].
Qed.

(** the failing record starts at byte 5: a record of four bytes, a filler, and a record without data *)
Definition ex_failing : list N := [0x02; 0x13; 1; 0; 0x2F; 0x04; 0x13; 1].
Lemma failing_first cf : exists r, data_record_parse cf ex_failing None = Ok r /\ dr_raw_bytes r = [0x02; 0x13; 1; 0].
Proof. destruct cf as [[] []]; eexists; (split; [vm_compute; reflexivity|reflexivity]). Qed.
Lemma offset_refuted env : exists data pos skips m,
  bytes_ok data /\ fails_at (fun b => data_record_parse (env_config env) b None) data pos skips /\
  decode_data_records env data = Err (ORecordsInvalid (pos - skips) m) /\ pos - skips <> pos.
Proof.
  exists ex_failing, 5, 1, (env_record_message env RInsufficientData). split; [lit|]. split.
  - set (parse := fun b => data_record_parse (env_config env) b None).
    assert (F2 : fails_at parse [0x04; 0x13; 1] 0 0).
    { apply FailsHere with (e := RInsufficientData); [intros (K & _); discriminate K|]. unfold parse. destruct (env_config env) as [[] []]; vm_compute; reflexivity. }
    assert (F1 : fails_at parse [0x2F; 0x04; 0x13; 1] 1 1).
    { apply (FailsSkip parse 0x2F [0x04; 0x13; 1] 0 0); [repeat split; discriminate|exact F2]. }
    pose proof (failing_first (env_config env)) as P.
    destruct P as (r & P & Er). pose proof (FailsLater parse 0x02 [0x13; 1; 0; 0x2F; 0x04; 0x13; 1] r [0x2F; 0x04; 0x13; 1] 1 1) as K.
    rewrite Er in K. apply K; [intros (X & _); discriminate X|exact P|reflexivity|exact F1].
  - split; [|discriminate]. destruct env as [[[] []] ? ? ? ?]; vm_compute; reflexivity.
Qed.

Lemma clear_example : exists u d,
  bytes_ok ex_wired_clear /\ message ex_wired_clear ex_clear_message None /\ in_clear ex_clear_message ex_clear_block /\
  app_meaning ex_clear_message u /\ decode_bytes ex_env ex_wired_clear None false = Ok d /\ length (do_records d) = 2%nat /\
  do_decode_state d = txt "complete".
Proof.
  eexists. eexists. split; [lit|]. split; [apply long_message|].
  split; [apply (InClrLong 0x72 0x78 0x56 0x34 0x12 0x42 0x04 1 7 9 0 0 0 ex_clear_block); [left; reflexivity|reflexivity]|].
  split; [apply app_lit; [lit|vm_compute; reflexivity]|]. split; [vm_compute; reflexivity|]. split; reflexivity.
Qed.
Lemma sealed_example : exists d,
  bytes_ok ex_sealed_air /\ bytes_ok (ex_plain ex_short_head) /\ addressed ex_sealed_air ex_link (ex_sealed ex_short_head) /\
  sealed (toy ex_key) ex_link (ex_plain ex_short_head) (ex_sealed ex_short_head) /\
  inverse_cipher toy (env_aes ex_env) ex_key /\ length ex_key = 16%nat /\
  decode_bytes ex_env ex_sealed_air (Some ex_key) false = Ok d /\ length (do_records d) = 1%nat.
Proof.
  assert (B : bytes_ok ex_sealed_air) by lit.
  assert (H : exists fr, wireless_try_from ex_sealed_air = Ok fr) by (eexists; vm_compute; reflexivity).
  destruct H as [fr H]. assert (Wd : wf_data fr = ex_sealed ex_short_head) by (vm_compute in H; apply Ok_inj in H; subst fr; reflexivity).
  eexists. split; [exact B|]. split; [lit|].
  split.
  { rewrite <- Wd. apply (AddrWireless _ 48 0x44 ex_link (ex_sealed ex_short_head) fr); [reflexivity| | |].
    - eapply not_wired_lit. vm_compute. reflexivity.
    - left; split; [reflexivity|eapply no_first_crc_lit; [exact B|reflexivity|reflexivity|vm_compute; discriminate]].
    - now apply wireless_ok_iff. }
  split; [apply ex_sealed_short|]. split; [exact toy_inverse|]. split; [reflexivity|].
  split; [vm_compute; reflexivity|]. reflexivity.
Qed.
Lemma wired_sealed_example : exists d,
  bytes_ok (long_frame (ex_sealed ex_long_head)) /\ addressed (long_frame (ex_sealed ex_long_head)) [] (ex_sealed ex_long_head) /\
  sealed (toy ex_key) [] (ex_plain ex_long_head) (ex_sealed ex_long_head) /\
  decode_bytes ex_env (long_frame (ex_sealed ex_long_head)) (Some ex_key) false = Ok d /\ length (do_records d) = 1%nat.
Proof.
  eexists. split; [lit|]. split; [apply long_addressed|]. split; [apply ex_sealed_long|].
  split; [vm_compute; reflexivity|]. reflexivity.
Qed.
Lemma state_example : exists d d', decode_bytes ex_env ex_wired_clear None false = Ok d /\ do_decode_state d = txt "complete" /\
  decode_bytes ex_env ex_wired_encrypted None false = Ok d' /\ do_decode_state d' = txt "partial".
Proof. do 2 eexists. split; [vm_compute; reflexivity|]. split; [reflexivity|]. split; [vm_compute; reflexivity|]. reflexivity. Qed.
Lemma frames_example : exists e fr,
  readable ex_wired_clear /\ readable [0xE5] /\ wireless_meaning ex_air fr /\ readable ex_air_encoded /\
  ~ readable [1; 2; 3] /\ decode_bytes ex_env [1; 2; 3] None false = Err e.
Proof.
  destruct air_example as (fr & B1 & B2 & F & Wm & N1 & C & N2 & _).
  eexists. exists fr. split; [apply (ReadWired _ (LongFrame (RspUd false false) (Primary 1) ex_clear_message)); apply WLong; [cbn; auto 20|cbn; lia|discriminate]|].
  split; [econstructor; constructor|]. split; [exact Wm|].
  split; [apply (ReadWireless _ ex_air fr); [exact N2|right; exact F|exact Wm]|].
  split; [|vm_compute; reflexivity].
  intros R. assert (B : bytes_ok [1; 2; 3]) by lit. eapply (frame_is_decoded ex_env [1; 2; 3] false _ B R).
  vm_compute. reflexivity.
Qed.

(** a record with the VIF 7D *)
Definition ex_panic : list N := long_frame [0x78; 0x01; 0x7D; 0].
Lemma panic_refuted env : exists data, bytes_ok data /\ readable data /\ is_panic (decode_bytes env data None false).
Proof.
  exists ex_panic. split; [lit|].
  split; [apply (ReadWired _ (LongFrame (RspUd false false) (Primary 1) [0x78; 0x01; 0x7D; 0])); apply WLong; [cbn; auto 20|cbn; lia|discriminate]|].
  destruct env as [[[] []] ? ? ? ?]; eexists; vm_compute; reflexivity.
Qed.

(** a record that panics, once decrypted *)
Definition ex_hidden : list N := ex_long_head ++ cbc_encrypt (toy ex_key) ex_iv [[0x01; 0x7D] ++ repeat 0 14].
Lemma toy_cipher : cipher_of_bytes toy ex_key.
Proof.
  intros b L B. split; [now apply toy_keeps|]. do 16 (destruct b as [|? b]; [discriminate L|]). destruct b; [|discriminate L].
  unfold toy, ex_key, bytes_ok in *. cbn [repeat combine map fst snd]. rewrite Forall_forall in B. apply Forall_forall. intros x Hx.
  cbn [In] in Hx. repeat (destruct Hx as [Hx|Hx]; [subst x; apply lxor_byte; [apply B; cbn [In]; tauto|reflexivity]|]). destruct Hx.
Qed.
Lemma hidden_panic : bytes_ok (long_frame ex_hidden) /\ cipher_of_bytes (env_aes ex_env) ex_key /\
  is_panic (decode_bytes ex_env (long_frame ex_hidden) (Some ex_key) false) /\
  taken (env_aes ex_env) (long_frame ex_hidden) (Some ex_key) ([] ++ ([0x01] ++ 0x7D :: repeat 0 14)) /\
  panic_cause (env_config ex_env) ([0x01] ++ 0x7D :: repeat 0 14).
Proof.
  split; [lit|]. split; [exact toy_cipher|]. split; [eexists; vm_compute; reflexivity|]. split.
  - eapply (TakenOpened _ _ ex_key (long_frame ex_hidden) (firstn 6 (long_frame ex_hidden)) ex_hidden (skipn (6 + 29) (long_frame ex_hidden)) _ ex_iv);
      [apply NormKeep|vm_compute; reflexivity|apply (EncLong 0x72 0x78 0x56 0x34 0x12 0x24 0x40 1 7 0x55 0 0 5); [now left|discriminate]|reflexivity|].
    replace ([] ++ [0x01] ++ 0x7D :: repeat 0 14) with (xor_bytes (toy ex_key (cbc_encrypt (toy ex_key) ex_iv [[0x01; 0x7D] ++ repeat 0 14])) ex_iv ++ [])
      by (vm_compute; reflexivity).
    change (env_aes ex_env) with toy. rewrite <- (app_nil_r (cbc_encrypt _ _ _)) at 1. apply OpenedBlock; [reflexivity|]. apply OpenedRest. cbn. lia.
  - apply pc_vif with (dif := 1). split; [discriminate|]. exists []. split; [reflexivity|]. left. split; [reflexivity|reflexivity].
Qed.

Lemma identity_long_example : exists u d,
  app_meaning (ex_plain ex_long_head) u /\ addressed (long_frame (ex_plain ex_long_head)) [] (ex_plain ex_long_head) /\
  decode_bytes ex_env (long_frame (ex_plain ex_long_head)) None false = Ok d /\
  option_map id_id (do_identity d) = Some (Some (txt "12345678")) /\
  option_map id_manufacturer_code (do_identity d) = Some (Some (txt "PAD")).
Proof.
  do 2 eexists. split; [apply app_lit; [lit|vm_compute; reflexivity]|]. split; [apply long_addressed|].
  split; [vm_compute; reflexivity|]. split; reflexivity.
Qed.
Lemma identity_link_example : exists t d,
  addressed ex_sealed_air ex_link (0x7A :: t) /\ decode_bytes ex_env ex_sealed_air None false = Ok d /\
  option_map id_id (do_identity d) = Some (Some (txt "12345678")).
Proof.
  destruct sealed_example as (d & _ & _ & A & _). eexists. eexists. split; [exact A|].
  split; [vm_compute; reflexivity|]. reflexivity.
Qed.
Lemma bytes_example : exists outs, decode_data_records ex_env ex_clear_block = Ok outs /\ length outs = 2%nat /\
  option_map ro_header_hex (nth_error outs 0) = Some (txt "0C 13").
Proof. eexists. split; [vm_compute; reflexivity|]. split; reflexivity. Qed.

(** eighteen nines are shown as ten to the power of eighteen *)
Definition ex_nines : list N := 0xC9 :: repeat 0x99 9.
Lemma decimals_refuted cf : exists h r t,
  header_of cf [0x0D; 0x06] ex_nines h 0x0D 0x06 /\ data_record_parse cf ([0x0D; 0x06] ++ ex_nines) None = Ok r /\
  dr_raw_bytes r = [0x0D; 0x06] ++ ex_nines /\
  FloatSpec.decimal (nibbles (repeat 0x99 9)) = 999999999999999999 /\
  ro_value (record_output 0 r) = {| vo_kind := txt "decimal"; vo_value := Some (JString t) |} /\
  t = txt "1000000000000000000000".
Proof.
  destruct cf as [[] []]; do 3 eexists;
  (split; [split; [lit|]; split; [vm_compute; reflexivity|]; split; [reflexivity|]; split; [reflexivity|]; eexists; split; reflexivity|]);
  (split; [vm_compute; reflexivity|]); (split; [reflexivity|]); (split; [reflexivity|]); (split; [vm_compute; reflexivity|]); reflexivity.
Qed.

Ltac head := split; [lit|]; split; [vm_compute; reflexivity|]; split; [reflexivity|]; split; [reflexivity|]; eexists; split; reflexivity.
Lemma integer_example : exists h r,
  header_of debug [0x04; 0x13] [0xFE; 0xFF; 0xFF; 0xFF] h 0x04 0x13 /\ ~ date_vif 0x13 /\ integer_width (0x04 mod 16) = Some 4 /\
  data_record_parse debug ([0x04; 0x13] ++ [0xFE; 0xFF; 0xFF; 0xFF]) None = Ok r /\
  vo_value (ro_value (record_output 0 r)) = Some (JString (txt "-0.002")).
Proof.
  do 2 eexists. split; [head|]. split; [intros [K|K]; discriminate K|]. split; [reflexivity|].
  split; [vm_compute; reflexivity|]. vm_compute. reflexivity.
Qed.
Lemma decimal_example : exists h r,
  header_of debug [0x0C; 0x13] [0x45; 0x23; 0x01; 0] h 0x0C 0x13 /\ bcd_width (0x0C mod 16) = Some 4 /\
  data_record_parse debug ([0x0C; 0x13] ++ [0x45; 0x23; 0x01; 0]) None = Ok r /\
  vo_value (ro_value (record_output 0 r)) = Some (JString (txt "12.345")).
Proof. do 2 eexists. split; [head|]. split; [reflexivity|]. split; [vm_compute; reflexivity|]. vm_compute. reflexivity. Qed.
Lemma variable_integer_example : exists h r,
  header_of debug [0x0D; 0x06] [0xE2; 0x01; 0x02] h 0x0D 0x06 /\ lvar_width 0xE2 = Some 2 /\
  data_record_parse debug ([0x0D; 0x06] ++ [0xE2; 0x01; 0x02]) None = Ok r /\
  vo_value (ro_value (record_output 0 r)) = Some (JString (txt "513000")).
Proof. do 2 eexists. split; [head|]. split; [reflexivity|]. split; [vm_compute; reflexivity|]. vm_compute. reflexivity. Qed.
Lemma variable_decimal_example : exists h r,
  header_of debug [0x0D; 0x06] [0xD2; 0x34; 0x12] h 0x0D 0x06 /\
  data_record_parse debug ([0x0D; 0x06] ++ [0xD2; 0x34; 0x12]) None = Ok r /\
  vo_value (ro_value (record_output 0 r)) = Some (JString (txt "-1234000")).
Proof. do 2 eexists. split; [head|]. split; [vm_compute; reflexivity|]. vm_compute. reflexivity. Qed.
Lemma hex_example : exists d, decode_bytes ex_env [0x10; 0x40; 0x01; 0x41; 0x16] None false = Ok d /\
  rw_original_frame_hex (do_raw d) = txt "1040014116" /\
  hex_input (txt " 10 40 01 41 16") [0x10; 0x40; 0x01; 0x41; 0x16].
Proof.
  eexists. split; [vm_compute; reflexivity|]. split; [reflexivity|].
  apply decode_hex_exact. vm_compute. reflexivity.
Qed.
