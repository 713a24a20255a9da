(** C14-C16: initialisation vector, key store, decryption. *)
From Coq Require Import List NArith Lia.
Import ListNotations.
From Verif Require Import Model.Base Model.Core Model.Wireless Model.Decrypt Spec.CoreSpec
  Spec.WirelessSpec Spec.DecryptSpec Proof.DecryptFacts.
Open Scope N_scope.

(** [identity] (WirelessSpec.v) says which header bytes name the meter *)
Theorem C14_iv_is_the_header_bytes : forall m0 m1 i0 i1 i2 i3 v d ci id c,
  identity m0 m1 i0 i1 i2 i3 v d ci id ->
  m0 < 256 -> m1 < 256 -> d < 256 -> ~ (0xA0 <= ci <= 0xAF) ->
  kc_manufacturer c = mi_manufacturer_code id ->
  kc_identification_number c = mi_identification_number id ->
  kc_version c = mi_version id -> kc_device_type c = mi_device_type id ->
  derive_iv c = [m0; m1; i0; i1; i2; i3; v; d] ++ repeat (kc_access_number c) 8.
Proof. exact iv_bytes. Qed.
Print Assumptions C14_iv_is_the_header_bytes.

(** ... in particular for the identity parsed from a received frame *)
Theorem C14_iv_of_a_frame : forall data fr c, bytes_ok data -> wireless_try_from data = Ok fr ->
  (forall ci, nth_error data 10 = Some ci -> ~ (0xA0 <= ci <= 0xAF)) ->
  kc_manufacturer c = mi_manufacturer_code (wf_manufacturer_id fr) ->
  kc_identification_number c = mi_identification_number (wf_manufacturer_id fr) ->
  kc_version c = mi_version (wf_manufacturer_id fr) -> kc_device_type c = mi_device_type (wf_manufacturer_id fr) ->
  derive_iv c = firstn 8 (skipn 2 data) ++ repeat (kc_access_number c) 8.
Proof. exact iv_of_frame. Qed.
Print Assumptions C14_iv_of_a_frame.

Definition ex_id : manufacturer_id :=
  {| mi_manufacturer_code := {| mc1 := 65; mc2 := 66; mc3 := 66 |};
     mi_identification_number := 12345678; mi_device_type := DevWaterMeter;
     mi_version := 1; mi_is_unique_globally := false |}.
Example C14_example : identity 0x42 0x04 0x78 0x56 0x34 0x12 1 7 0x7A ex_id /\ ~ (0xA0 <= 0x7A <= 0xAF).
Proof.
  split; [|lia]. unfold identity, capital; cbn.
  repeat split; try lia. exists [8; 7; 6; 5; 4; 3; 2; 1]. cbn. repeat split; lia.
Qed.

Example C14_frame_example : exists fr,
  wireless_try_from [0x0C; 0x44; 0x42; 0x04; 0x78; 0x56; 0x34; 0x12; 1; 7; 0x7A; 9; 0] = Ok fr /\ wf_manufacturer_id fr = ex_id.
Proof. eexists. split; [vm_compute; reflexivity|]. reflexivity. Qed.

(** [add_all adds (kp_new n)]: a provider of capacity [n] after that history of add_key
    calls; [add_results]: what those calls returned *)
Theorem C15_key_provider_is_first_wins_map : forall n adds c,
  Forall (fun e => ke_identification e < 2 ^ 32) adds -> kc_identification_number c < 2 ^ 32 ->
  kp_get_key (add_all adds (kp_new n)) c =
    match first_key (firstn n adds) (mc_to_id (kc_manufacturer c)) (kc_identification_number c) with
    | Some k => Ok k
    | None => Err KeyNotFound
    end
  /\ add_results adds (kp_new n) =
       repeat (Ok tt) (Nat.min n (length adds)) ++ repeat (Err InvalidDataLength) (length adds - n).
Proof. exact key_provider_history. Qed.
Print Assumptions C15_key_provider_is_first_wins_map.

Definition ex_context : key_context :=
  {| kc_manufacturer := {| mc1 := 65; mc2 := 66; mc3 := 66 |}; kc_identification_number := 12345678;
     kc_version := 1; kc_device_type := DevWaterMeter; kc_security_mode := AesCbc128IvNonZero;
     kc_access_number := 9 |}.
Definition ex_adds : list key_entry :=
  [ {| ke_manufacturer := 0x0442; ke_identification := 1; ke_key := repeat 1 16 |};
    {| ke_manufacturer := 0x0442; ke_identification := 12345678; ke_key := repeat 2 16 |};
    {| ke_manufacturer := 0x0442; ke_identification := 12345678; ke_key := repeat 3 16 |} ].
Example C15_example :
  kp_get_key (add_all ex_adds (kp_new 2)) ex_context = Ok (repeat 2 16) /\
  kp_get_key (add_all ex_adds (kp_new 1)) ex_context = Err KeyNotFound /\
  add_results ex_adds (kp_new 2) = [Ok tt; Ok tt; Err InvalidDataLength].
Proof. vm_compute. repeat split. Qed.

(** [inverse_cipher enc dec key]: [dec] undoes [enc] on blocks of 16 bytes *)
Theorem C16_decrypt_inverts_cbc : forall enc dec get_key c key blocks tail output iv,
  inverse_cipher enc dec key -> length key = 16%nat ->
  Forall (fun b => length b = 16%nat) blocks -> (length tail < 16)%nat ->
  get_key c = Ok key ->
  (kc_security_mode c = AesCbc128IvNonZero /\ iv = derive_iv c) \/
  (kc_security_mode c = AesCbc128IvZero /\ iv = repeat 0 16) ->
  let data := cbc_encrypt (enc key) iv blocks ++ tail in
  data <> [] -> len data <= len output ->
  decrypt_into dec get_key data c output =
    (Ok (len data), concat blocks ++ tail ++ skipn (length data) output).
Proof. exact decrypt_into_inverse. Qed.
Print Assumptions C16_decrypt_inverts_cbc.

(** for every cipher and input: which error, and what is left untouched *)
Theorem C16_cbc_errors_and_frame : forall dec key iv data output,
  (forall b, length b = 16%nat -> length (dec key b) = 16%nat) ->
  (decrypt_aes_cbc_into dec data key iv output = (Err InvalidKeyLength, output) /\ len key <> 16) \/
  (decrypt_aes_cbc_into dec data key iv output = (Err InvalidDataLength, output) /\ len key = 16 /\
     (len iv <> 16 \/ data = [] \/ len output < len data)) \/
  (exists clear, decrypt_aes_cbc_into dec data key iv output =
      (Ok (len data), clear ++ skipn (N.to_nat (len data - len data mod 16)) data ++ skipn (length data) output) /\
     len clear = len data - len data mod 16 /\
     len key = 16 /\ len iv = 16 /\ data <> [] /\ len data <= len output).
Proof. exact (cbc_into_safe (fun _ b => b)). Qed.
Print Assumptions C16_cbc_errors_and_frame.

(** no key or an unsupported mode: no output is produced and the buffer is untouched *)
Theorem C16_refuses_without_key_or_mode : forall dec get_key c data output,
  (forall key, get_key c <> Ok key) \/
  (kc_security_mode c <> NoEncryption /\ kc_security_mode c <> AesCbc128IvZero /\
   kc_security_mode c <> AesCbc128IvNonZero) ->
  snd (decrypt_into dec get_key data c output) = output /\
  ~ is_ok (fst (decrypt_into dec get_key data c output)).
Proof. exact decrypt_into_refuses. Qed.
Print Assumptions C16_refuses_without_key_or_mode.
Definition with_mode (m : security_mode) : key_context :=
  {| kc_manufacturer := kc_manufacturer ex_context; kc_identification_number := 12345678; kc_version := 1;
     kc_device_type := DevWaterMeter; kc_security_mode := m; kc_access_number := 9 |}.
Example C16_refused_example :
  (forall key, kp_get_key (kp_new 2) ex_context <> Ok key) /\ kc_security_mode (with_mode AesCtr128Cmac) <> NoEncryption /\ kc_security_mode (with_mode AesCtr128Cmac) <> AesCbc128IvZero /\
  kc_security_mode (with_mode AesCtr128Cmac) <> AesCbc128IvNonZero.
Proof. repeat split; discriminate. Qed.

Theorem C16_mode_0_copies : forall dec get_key c key data output,
  get_key c = Ok key -> kc_security_mode c = NoEncryption ->
  decrypt_into dec get_key data c output =
    if len output <? len data then (Err InvalidDataLength, output)
    else (Ok (len data), data ++ skipn (length data) output).
Proof. exact decrypt_into_plain. Qed.
Print Assumptions C16_mode_0_copies.
Example C16_mode_0_example :
  kp_get_key (add_all ex_adds (kp_new 2)) (with_mode NoEncryption) = Ok (repeat 2 16) /\ kc_security_mode (with_mode NoEncryption) = NoEncryption.
Proof. split; vm_compute; reflexivity. Qed.

(** a toy cipher: exclusive or with the key *)
Definition toy (key b : list N) : list N := map (fun p => N.lxor (fst p) (snd p)) (combine b key).
Example C16_example :
  inverse_cipher toy toy (repeat 0x5A 16) /\
  decrypt_into toy (fun _ => Ok (repeat 0x5A 16))
    (cbc_encrypt (toy (repeat 0x5A 16)) (derive_iv ex_context) [repeat 0x2F 16] ++ [1; 2]) ex_context (repeat 0 20)
  = (Ok 18, repeat 0x2F 16 ++ [1; 2; 0; 0]).
Proof.
  split; [|vm_compute; reflexivity].
  intros b Hb. do 16 (destruct b as [|? b]; [discriminate|]). destruct b; [|discriminate].
  split; [reflexivity|]. unfold toy. cbn [repeat combine map fst snd].
  rewrite !N.lxor_assoc, N.lxor_nilpotent, !N.lxor_0_r. reflexivity.
Qed.
