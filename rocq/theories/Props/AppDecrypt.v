(** C58, C59: decryption of whole application messages. *)
From Coq Require Import List NArith Lia.
Import ListNotations.
From Verif Require Import Model.Base Model.Core Model.Wireless Model.DataInfo Model.Decrypt Model.Record Model.UserData
  Spec.CoreSpec Spec.DecryptSpec Spec.WirelessSpec Spec.AppSpec Proof.AppDecrypt.
Open Scope N_scope.

(** security mode 5 (the vector is made of the header bytes) or 7 (zero vector) *)
Theorem C58_long_header_message_decrypts : forall enc dec get_key i0 i1 i2 i3 m0 m1 v d acc st c0 c1 a b c n key blocks tail output u iv,
  bytes_ok ([0x72; i0; i1; i2; i3; m0; m1; v; d; acc; st; c0; c1]) ->
  capital a -> capital b -> capital c -> m0 + 256 * m1 = flag_id a b c ->
  bcd_number [i0; i1; i2; i3] n ->
  inverse_cipher enc dec key -> length key = 16%nat ->
  Forall (fun p => length p = 16%nat) blocks -> (length tail < 16)%nat ->
  (c1 mod 32 = 5 /\ iv = [m0; m1; i0; i1; i2; i3; v; d] ++ repeat acc 8 \/ c1 mod 32 = 7 /\ iv = repeat 0 16) ->
  (forall ctx, kc_manufacturer ctx = {| mc1 := a; mc2 := b; mc3 := c |} -> kc_identification_number ctx = n ->
               kc_version ctx = v -> kc_device_type ctx = device_code d -> get_key ctx = Ok key) ->
  let block := cbc_encrypt (enc key) iv blocks ++ tail in
  bytes_ok block -> block <> [] -> len block <= len output ->
  user_data_try_from ([0x72; i0; i1; i2; i3; m0; m1; v; d; acc; st; c0; c1] ++ block) = Ok u ->
  decrypt_variable_data dec get_key u output =
    (Ok (len block), concat blocks ++ tail ++ skipn (length block) output).
Proof. exact long_decrypts. Qed.
Print Assumptions C58_long_header_message_decrypts.

Theorem C58_clear_message_refused : forall dec get_key u output,
  (exists ell h block, u = VariableLong ell h block /\ (sh_configuration_field (lh_short_tpl_header h) / 256) mod 32 = 0) \/
  (exists ell h block, u = VariableShort ell h block /\ (sh_configuration_field h / 256) mod 32 = 0) ->
  decrypt_variable_data dec get_key u output = (Err NotEncrypted, output).
Proof. exact decrypt_refuses_clear. Qed.
Print Assumptions C58_clear_message_refused.
Example C58_clear_example : exists ell h block,
  user_data_try_from ([0x7A; 9; 0; 0x10; 0xE0] ++ [1; 0x13; 5]) = Ok (VariableShort ell h block) /\
  (sh_configuration_field h / 256) mod 32 = 0.
Proof. do 3 eexists. split; vm_compute; reflexivity. Qed.

(** a toy cipher: exclusive or with the key *)
Definition toy (key b : list N) : list N := map (fun p => N.lxor (fst p) (snd p)) (combine b key).
Definition ex_header : list N := [0x72; 0x78; 0x56; 0x34; 0x12; 0x24; 0x40; 1; 7; 0x55; 0; 0; 5].
Definition ex_iv : list N := [0x24; 0x40; 0x78; 0x56; 0x34; 0x12; 1; 7] ++ repeat 0x55 8.
Definition ex_cipher (iv : list N) : list N :=
  cbc_encrypt (toy (repeat 0x5A 16)) iv [repeat 0x2F 16; repeat 0x2E 16] ++ [1; 2].
Example C58_example :
  bytes_ok ex_header /\ 0x24 + 256 * 0x40 = flag_id 80 65 68 /\ bcd_number [0x78; 0x56; 0x34; 0x12] 12345678 /\
  inverse_cipher toy toy (repeat 0x5A 16) /\
  match user_data_try_from (ex_header ++ ex_cipher ex_iv) with
  | Ok u => decrypt_variable_data toy (fun _ => Ok (repeat 0x5A 16)) u (repeat 0 35) =
              (Ok 34, repeat 0x2F 16 ++ repeat 0x2E 16 ++ [1; 2; 0])
  | _ => False
  end.
Proof.
  split; [repeat constructor|]. split; [reflexivity|]. split; [|split; [|vm_compute; reflexivity]].
  - exists [8; 7; 6; 5; 4; 3; 2; 1]. cbn. repeat split; lia.
  - intros b Hb. do 16 (destruct b as [|? b]; [discriminate|]). destruct b; [|discriminate].
    split; [reflexivity|]. unfold toy. cbn [repeat combine map fst snd].
    rewrite !N.lxor_assoc, N.lxor_nilpotent, !N.lxor_0_r. reflexivity.
Qed.

(** [id] is the identity of the wireless link header *)
Theorem C59_short_header_message_decrypts : forall enc dec get_key m0 m1 i0 i1 i2 i3 v d id acc st c0 c1 key blocks tail output u iv,
  identity m0 m1 i0 i1 i2 i3 v d 0x7A id ->
  bytes_ok [m0; m1; d; 0x7A; acc; st; c0; c1] ->
  inverse_cipher enc dec key -> length key = 16%nat ->
  Forall (fun p => length p = 16%nat) blocks -> (length tail < 16)%nat ->
  (c1 mod 32 = 5 /\ iv = [m0; m1; i0; i1; i2; i3; v; d] ++ repeat acc 8 \/ c1 mod 32 = 7 /\ iv = repeat 0 16) ->
  (forall ctx, kc_manufacturer ctx = mi_manufacturer_code id ->
               kc_identification_number ctx = mi_identification_number id ->
               kc_version ctx = v -> kc_device_type ctx = mi_device_type id -> get_key ctx = Ok key) ->
  let block := cbc_encrypt (enc key) iv blocks ++ tail in
  bytes_ok block -> block <> [] -> len block <= len output ->
  user_data_try_from ([0x7A; acc; st; c0; c1] ++ block) = Ok u ->
  decrypt_variable_data_with_context dec get_key u (mi_manufacturer_code id) (mi_identification_number id)
    (mi_version id) (mi_device_type id) output =
    (Ok (len block), concat blocks ++ tail ++ skipn (length block) output).
Proof. exact short_decrypts. Qed.
Print Assumptions C59_short_header_message_decrypts.

Theorem C59_identity_is_needed : forall dec get_key ell h block output,
  (sh_configuration_field h / 256) mod 32 <> 0 ->
  decrypt_variable_data dec get_key (VariableShort ell h block) output = (Err UnknownEncryptionState, output).
Proof. exact decrypt_short_needs_context. Qed.
Print Assumptions C59_identity_is_needed.
Example C59_identity_example : exists ell h block,
  user_data_try_from ([0x7A; 0x55; 0; 0; 5] ++ repeat 0x2F 16) = Ok (VariableShort ell h block) /\
  (sh_configuration_field h / 256) mod 32 = 5.
Proof. do 3 eexists. split; vm_compute; reflexivity. Qed.

Definition ex_meter : manufacturer_id :=
  {| mi_manufacturer_code := {| mc1 := 80; mc2 := 65; mc3 := 68 |}; mi_identification_number := 12345678;
     mi_device_type := DevWaterMeter; mi_version := 1; mi_is_unique_globally := false |}.
Example C59_example :
  identity 0x24 0x40 0x78 0x56 0x34 0x12 1 7 0x7A ex_meter /\
  match user_data_try_from ([0x7A; 0x55; 0; 0; 5] ++ ex_cipher ex_iv) with
  | Ok u => decrypt_variable_data_with_context toy (fun _ => Ok (repeat 0x5A 16)) u
              {| mc1 := 80; mc2 := 65; mc3 := 68 |} 12345678 1 DevWaterMeter (repeat 0 35) =
              (Ok 34, repeat 0x2F 16 ++ repeat 0x2E 16 ++ [1; 2; 0])
  | _ => False
  end.
Proof.
  split; [|vm_compute; reflexivity].
  unfold identity, capital; cbn. repeat split; try lia. exists [8; 7; 6; 5; 4; 3; 2; 1]. cbn. repeat split; lia.
Qed.
