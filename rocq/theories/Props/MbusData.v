(** C38, C39, C52, C53, C66: frames with their application layer, and their decrypted views. *)
From Coq Require Import List NArith Lia.
Import ListNotations.
From Verif Require Import Model.Base Model.Core Model.Wired Model.Wireless Model.DataInfo Model.Record Model.Decrypt Model.UserData
  Model.MbusData Spec.CoreSpec Spec.CrcSpec Spec.WiredSpec Spec.WirelessSpec Spec.DecryptSpec Spec.AppSpec Spec.AnnotateSpec Spec.MbusSpec
  Proof.AnnotateProps Proof.MbusFacts Proof.MbusProps.
Open Scope N_scope.

(** the combined parse succeeds for every readable frame, keeps the frame, and reports
    either the message or why it cannot be read; its only errors are frame errors *)
Theorem C38_wired : forall cf data, bytes_ok data ->
  (forall m, mbus_wired_try_from cf data = Ok m ->
     wired_meaning data (md_frame m) /\ layers (wired_payload (md_frame m)) m) /\
  (forall fr, wired_meaning data fr -> exists m, mbus_wired_try_from cf data = Ok m /\ md_frame m = fr) /\
  (forall e, mbus_wired_try_from cf data = Err e ->
     exists e', e = MFrameError e' /\ wired_try_from cf data = Err e').
Proof. exact wired_data. Qed.
Print Assumptions C38_wired.
Theorem C38_wireless : forall data, bytes_ok data ->
  (forall m, mbus_wireless_try_from data = Ok m ->
     wireless_meaning data (md_frame m) /\ layers (Some (wf_data (md_frame m))) m) /\
  (forall fr, wireless_meaning data fr -> exists m, mbus_wireless_try_from data = Ok m /\ md_frame m = fr) /\
  (forall e, mbus_wireless_try_from data = Err e ->
     exists e', e = MWirelessFrameError e' /\ wireless_try_from data = Err e') /\
  ~ is_panic (mbus_wireless_try_from data).
Proof. exact wireless_data. Qed.
Print Assumptions C38_wireless.

Example C38_example : exists m u m', mbus_wired_try_from debug ex_wired_clear = Ok m /\ md_user_data m = Some u /\
  mbus_wired_try_from debug ex_bad_app = Ok m' /\ md_application_error m' = Some (InvalidControlInformation 0x0F) /\
  md_frame m' = LongFrame (RspUd false false) (Primary 1) [0x0F; 1; 2].
Proof. exact layers_example. Qed.
Example C38_wireless_example : exists m u, mbus_wireless_try_from ex_air = Ok m /\ md_user_data m = Some u.
Proof. exact layers_wireless_example. Qed.

(** C39 as stated fails for messages in reversed byte order (control information 0x76) *)
Theorem C39_same_records_refuted : forall cf, exists data m u r r',
  bytes_ok data /\ mbus_wired_try_from cf data = Ok m /\ md_user_data m = Some u /\
  user_data_is_encrypted u = Some false /\ user_data_records u = Some r /\ md_data_records m = Some r' /\
  records_all cf (rs_data r') (rs_header r') <> records_all cf (rs_data r) (rs_header r).
Proof. exact records_differ. Qed.
Print Assumptions C39_same_records_refuted.
(** ... and holds for all others *)
Theorem C39_same_records_wired_partial : forall cf data m u r,
  mbus_wired_try_from cf data = Ok m -> md_user_data m = Some u -> user_data_records u = Some r -> ~ reversed u ->
  exists r', md_data_records m = Some r' /\
    records_all cf (rs_data r') (rs_header r') = records_all cf (rs_data r) (rs_header r).
Proof. exact wired_same_records. Qed.
Print Assumptions C39_same_records_wired_partial.
Theorem C39_same_records_wireless_partial : forall cf data m u r,
  mbus_wireless_try_from data = Ok m -> md_user_data m = Some u -> user_data_records u = Some r -> ~ reversed u ->
  exists r', md_data_records m = Some r' /\
    records_all cf (rs_data r') (rs_header r') = records_all cf (rs_data r) (rs_header r).
Proof. exact wireless_same_records. Qed.
Print Assumptions C39_same_records_wireless_partial.

Example C39_example : exists m u r,
  mbus_wired_try_from debug ex_wired_clear = Ok m /\ md_user_data m = Some u /\ user_data_records u = Some r /\ ~ reversed u.
Proof. exact same_records_example. Qed.

(** whenever the code shows a decrypted form of a wired frame, it is a valid frame of the
    same kind, for the same function and address, that differs in the encrypted block and the
    checksum only *)
Theorem C52_view_is_a_frame : forall cf dec data key display, bytes_ok data -> keeps_blocks dec key ->
  decrypted_wired_hexview cf dec data key = Ok (Some display) ->
  exists x c a f ad head block plain,
    data = long_layout x c a (head ++ block) /\ wired_meaning data (LongFrame f ad (head ++ block)) /\
    encrypted_message (head ++ block) block /\ len plain = len block /\
    display = long_layout x c a (head ++ plain) /\ wired_meaning display (LongFrame f ad (head ++ plain)).
Proof. exact wired_view_frame. Qed.
Print Assumptions C52_view_is_a_frame.
(** with the right key it is the frame of the plain message *)
Theorem C52_view_shows_plaintext : forall cf enc dec x c a f ad plain cipher key,
  sealed (enc key) [] plain cipher -> bytes_ok (long_layout x c a cipher) ->
  wired_meaning (long_layout x c a cipher) (LongFrame f ad cipher) ->
  inverse_cipher enc dec key -> length key = 16%nat ->
  decrypted_wired_hexview cf dec (long_layout x c a cipher) key = Ok (Some (long_layout x c a plain)).
Proof. exact wired_view_plain. Qed.
Print Assumptions C52_view_shows_plaintext.

Example C52_example :
  sealed (toy ex_key) [] (ex_plain ex_long_head) (ex_sealed ex_long_head) /\
  bytes_ok (long_layout 0x68 0x08 1 (ex_sealed ex_long_head)) /\
  wired_meaning (long_layout 0x68 0x08 1 (ex_sealed ex_long_head))
    (LongFrame (RspUd false false) (Primary 1) (ex_sealed ex_long_head)) /\
  inverse_cipher toy toy ex_key /\ keeps_blocks toy ex_key /\
  decrypted_wired_hexview debug toy (long_layout 0x68 0x08 1 (ex_sealed ex_long_head)) ex_key =
    Ok (Some (long_layout 0x68 0x08 1 (ex_plain ex_long_head))).
Proof. exact wired_view_example. Qed.

(** C53 as stated fails for frames that end with a CRC over the whole frame: the plaintext
    is put two bytes too late *)
Theorem C53_view_refuted : exists l c link plain cipher crc fr data key display,
  data = [l; c] ++ link ++ cipher ++ crc /\ bytes_ok data /\ length link = 8%nat /\ received data data /\
  wireless_meaning data fr /\ wf_data fr = cipher /\
  sealed (toy key) link plain cipher /\ inverse_cipher toy toy key /\ length key = 16%nat /\
  decrypted_wireless_hexview toy data key = Ok (Some display) /\
  forall tail, display <> [l; c] ++ link ++ plain ++ tail.
Proof. exact view_misplaced. Qed.
Print Assumptions C53_view_refuted.
(** ... and holds for frames without one, received as they are or in Format A *)
Theorem C53_view_replaces_payload_partial : forall dec data w fr key display,
  bytes_ok data -> bytes_ok w -> keeps_blocks dec key ->
  received data w -> wireless_meaning w fr -> w = firstn 10 w ++ wf_data fr ->
  decrypted_wireless_hexview dec data key = Ok (Some display) ->
  exists head block plain, wf_data fr = head ++ block /\ encrypted_message (head ++ block) block /\
    len plain = len block /\ display = firstn 10 w ++ head ++ plain.
Proof. exact wireless_view_frame. Qed.
Print Assumptions C53_view_replaces_payload_partial.
Theorem C53_view_shows_plaintext_partial : forall enc dec data l c link cipher fr key plain,
  let w := [l; c] ++ link ++ cipher in
  bytes_ok data -> bytes_ok w -> length link = 8%nat -> received data w -> wireless_meaning w fr -> wf_data fr = cipher ->
  sealed (enc key) link plain cipher -> inverse_cipher enc dec key -> length key = 16%nat ->
  decrypted_wireless_hexview dec data key = Ok (Some ([l; c] ++ link ++ plain)).
Proof. exact wireless_view_plain. Qed.
Print Assumptions C53_view_shows_plaintext_partial.

Example C53_example : exists fr,
  bytes_ok ex_sealed_air /\ received ex_sealed_air ex_sealed_air /\ wireless_meaning ex_sealed_air fr /\
  wf_data fr = ex_sealed ex_short_head /\
  decrypted_wireless_hexview toy ex_sealed_air ex_key = Ok (Some ([48; 0x44] ++ ex_link ++ ex_plain ex_short_head)).
Proof. exact air_view_example. Qed.

(** C66 as stated fails: the combined parse offers records of an encrypted message, and they
    are its ciphertext *)
Theorem C66_no_ciphertext_records_refuted : exists data m u r items x,
  bytes_ok data /\ mbus_wired_try_from debug data = Ok m /\ md_user_data m = Some u /\
  user_data_is_encrypted u = Some true /\ md_data_records m = Some r /\
  records_all debug (rs_data r) (rs_header r) = Some (Ok x :: items).
Proof. exact encrypted_has_records. Qed.
Print Assumptions C66_no_ciphertext_records_refuted.
(** what it does offer: the variable data, encrypted or not, without header *)
Theorem C66_wired_records_partial : forall cf data m u,
  mbus_wired_try_from cf data = Ok m -> md_user_data m = Some u ->
  md_data_records m = option_map (fun b => records_new b None) (variable_block u).
Proof. exact wired_records_block. Qed.
Print Assumptions C66_wired_records_partial.
Theorem C66_wireless_records_partial : forall data m u,
  mbus_wireless_try_from data = Ok m -> md_user_data m = Some u ->
  md_data_records m = option_map (fun b => records_new b None) (variable_block u).
Proof. exact wireless_records_block. Qed.
Print Assumptions C66_wireless_records_partial.
Example C66_records_example : exists m u b m' u' b',
  mbus_wired_try_from debug ex_wired_clear = Ok m /\ md_user_data m = Some u /\ variable_block u = Some b /\ b <> [] /\
  mbus_wireless_try_from ex_air = Ok m' /\ md_user_data m' = Some u' /\ variable_block u' = Some b' /\ b' <> [].
Proof. exact records_example. Qed.
