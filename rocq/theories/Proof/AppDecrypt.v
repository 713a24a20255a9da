(** Decryption of whole application messages. *)
From Verif Require Import Model.Base Model.Core Model.DataInfo Model.Wireless Model.Decrypt Model.Record Model.UserData
  Spec.CoreSpec Spec.DecryptSpec Spec.WiredSpec Spec.WirelessSpec Spec.AppSpec
  Proof.BaseFacts Proof.CoreFacts Proof.RecordFacts Proof.DecryptFacts Proof.WirelessFacts Proof.AppFacts.

Lemma mode_of raw : configuration_security_mode raw =
  match nth_error security_codes (N.to_nat ((raw / 256) mod 32)) with Some s => s | None => ReservedHigher ((raw / 256) mod 32) end.
Proof.
  unfold configuration_security_mode. cbv zeta. rewrite shiftr_8.
  rewrite land_31. rewrite security_table.
  - rewrite N.mod_mod by discriminate. reflexivity.
  - pose proof (N.mod_lt (raw / 256) 32 ltac:(discriminate)). lia.
Qed.

Lemma config_mode_of c0 c1 : c0 < 256 ->
  configuration_security_mode (c0 + 256 * c1) =
  match nth_error security_codes (N.to_nat (c1 mod 32)) with Some s => s | None => ReservedHigher (c1 mod 32) end.
Proof. intros H. rewrite mode_of, config_mode by assumption. reflexivity. Qed.

Lemma long_decrypts enc dec get_key i0 i1 i2 i3 m0 m1 v d acc st c0 c1 a b c n key blocks tail output u iv :
  bytes_ok ([0x72; i0; i1; i2; i3; m0; m1; v; d; acc; st; c0; c1]) ->
  capital a -> capital b -> capital c -> m0 + 256 * m1 = flag_id a b c ->
  bcd_number [i0; i1; i2; i3] n ->
  inverse_cipher enc dec key -> length key = 16%nat ->
  Forall (fun p => length p = 16%nat) blocks -> (length tail < 16)%nat ->
  (c1 mod 32 = 5 /\ iv = [m0; m1; i0; i1; i2; i3; v; d] ++ repeat acc 8 \/ c1 mod 32 = 7 /\ iv = repeat 0 16) ->
  (forall ctx, kc_manufacturer ctx = {| mc1 := a; mc2 := b; mc3 := c |} -> kc_identification_number ctx = n ->
               kc_version ctx = v -> kc_device_type ctx = device_code d -> get_key ctx = Ok key) ->
  let block := cbc_encrypt (enc key) iv blocks ++ tail in
  bytes_ok block -> block <> [] -> len block <= len output ->
  user_data_try_from ([0x72; i0; i1; i2; i3; m0; m1; v; d; acc; st; c0; c1] ++ block) = Ok u ->
  decrypt_variable_data dec get_key u output =
    (Ok (len block), concat blocks ++ tail ++ skipn (length block) output).
Proof.
  intros Hb Ca Cb Cc Hm Hn Hinv Hk Hbl Ht Hiv Hkey block Hbb Hne Hlen H.
  pose proof Hb as Hb'. bytes_split Hb'.
  assert (Hall : bytes_ok ([0x72; i0; i1; i2; i3; m0; m1; v; d; acc; st; c0; c1] ++ block))
    by (apply bytes_ok_app; split; assumption).
  apply dispatch_exact in H; [|assumption].
  inversion H; subst; try (exfalso; lia).
  match goal with K : long_header _ _ _ _ _ _ _ _ _ _ _ |- _ => destruct K as (Hid & Hman & Hv & Hd & Hs & _) end.
  change (0x72 =? 0x76) with false in Hid. cbv iota in Hid.
  assert (En : lh_identification_number h = n).
  { apply bcd_number_ok in Hid, Hn. rewrite Hid in Hn. apply Ok_inj in Hn. exact Hn. }
  assert (Em : lh_manufacturer h = Ok {| mc1 := a; mc2 := b; mc3 := c |}).
  { apply manufacturer_read_det in Hman; [|lia]. rewrite <- Hman.
    apply manufacturer_read_det; [lia|]. left. exists a, b, c. auto. }
  assert (Hmode : configuration_security_mode (sh_configuration_field (lh_short_tpl_header h)) =
     match nth_error security_codes (N.to_nat (c1 mod 32)) with Some s => s | None => ReservedHigher (c1 mod 32) end).
  { rewrite Hs. unfold short_header; cbn [sh_configuration_field]. apply config_mode_of; assumption. }
  cbn [decrypt_variable_data]. unfold long_is_encrypted, short_is_encrypted.
  rewrite Em, En, Hv, Hd, Hmode, Hs. unfold short_header; cbn [sh_access_number].
  destruct Hiv as [[Hc Hi]|[Hc Hi]]; rewrite Hc.
  - change (nth_error security_codes (N.to_nat 5)) with (Some AesCbc128IvNonZero). cbv iota. cbn [negb].
    apply decrypt_into_inverse with (enc := enc) (key := key) (iv := iv); auto.
    left. split; [reflexivity|]. rewrite Hi. symmetry.
    rewrite (iv_bytes m0 m1 i0 i1 i2 i3 v d 0x72
      {| mi_manufacturer_code := {| mc1 := a; mc2 := b; mc3 := c |}; mi_identification_number := n;
         mi_device_type := device_type_from_u8 d; mi_version := v; mi_is_unique_globally := false |});
      cbn [kc_manufacturer kc_identification_number kc_version kc_device_type kc_access_number
           mi_manufacturer_code mi_identification_number mi_version mi_device_type]; try reflexivity; try assumption; try lia.
    + unfold identity; cbn [mi_manufacturer_code mi_identification_number mi_version mi_device_type mi_is_unique_globally mc1 mc2 mc3].
      repeat split; try assumption; try apply Ca; try apply Cb; try apply Cc.
    + symmetry. apply device_table. assumption.
  - change (nth_error security_codes (N.to_nat 7)) with (Some AesCbc128IvZero). cbv iota. cbn [negb].
    apply decrypt_into_inverse with (enc := enc) (key := key) (iv := iv); auto.
Qed.

Lemma short_decrypts enc dec get_key m0 m1 i0 i1 i2 i3 v d id acc st c0 c1 key blocks tail output u iv :
  identity m0 m1 i0 i1 i2 i3 v d 0x7A id ->
  bytes_ok [m0; m1; d; 0x7A; acc; st; c0; c1] ->
  inverse_cipher enc dec key -> length key = 16%nat ->
  Forall (fun p => length p = 16%nat) blocks -> (length tail < 16)%nat ->
  (c1 mod 32 = 5 /\ iv = [m0; m1; i0; i1; i2; i3; v; d] ++ repeat acc 8 \/ c1 mod 32 = 7 /\ iv = repeat 0 16) ->
  (forall ctx, kc_manufacturer ctx = mi_manufacturer_code id ->
               kc_identification_number ctx = mi_identification_number id ->
               kc_version ctx = v -> kc_device_type ctx = mi_device_type id -> get_key ctx = Ok key) ->
  let block := cbc_encrypt (enc key) iv blocks ++ tail in
  bytes_ok block -> block <> [] -> len block <= len output ->
  user_data_try_from ([0x7A; acc; st; c0; c1] ++ block) = Ok u ->
  decrypt_variable_data_with_context dec get_key u (mi_manufacturer_code id) (mi_identification_number id)
    (mi_version id) (mi_device_type id) output =
    (Ok (len block), concat blocks ++ tail ++ skipn (length block) output).
Proof.
  intros Hid Hb Hinv Hk Hbl Ht Hiv Hkey block Hbb Hne Hlen H.
  pose proof Hb as Hb'. bytes_split Hb'.
  assert (Hall : bytes_ok ([0x7A; acc; st; c0; c1] ++ block)).
  { apply bytes_ok_app; split; [|assumption]. repeat (apply bytes_ok_cons; split; [assumption|]). constructor. }
  apply dispatch_exact in H; [|assumption].
  inversion H; subst; try (exfalso; lia).
  cbn [decrypt_variable_data_with_context]. unfold short_is_encrypted, short_header; cbn [sh_configuration_field sh_access_number].
  rewrite config_mode_of by assumption.
  assert (Hver : mi_version id = v) by (destruct Hid as (_ & _ & _ & _ & _ & E & _); exact E).
  destruct Hiv as [[Hc Hi]|[Hc Hi]]; rewrite Hc.
  - change (nth_error security_codes (N.to_nat 5)) with (Some AesCbc128IvNonZero). cbv iota. cbn [negb].
    apply decrypt_into_inverse with (enc := enc) (key := key) (iv := iv); auto.
    left. split; [reflexivity|]. rewrite Hi. symmetry.
    apply (iv_bytes m0 m1 i0 i1 i2 i3 v d 0x7A id); try reflexivity; try assumption. lia.
  - change (nth_error security_codes (N.to_nat 7)) with (Some AesCbc128IvZero). cbv iota. cbn [negb].
    apply decrypt_into_inverse with (enc := enc) (key := key) (iv := iv); auto.
Qed.

(** no key and no plaintext: what is refused *)
Lemma decrypt_refuses_clear dec get_key u output :
  (exists ell h block, u = VariableLong ell h block /\ (sh_configuration_field (lh_short_tpl_header h) / 256) mod 32 = 0) \/
  (exists ell h block, u = VariableShort ell h block /\ (sh_configuration_field h / 256) mod 32 = 0) ->
  decrypt_variable_data dec get_key u output = (Err NotEncrypted, output).
Proof.
  intros [(ell & h & block & -> & E)|(ell & h & block & -> & E)]; cbn [decrypt_variable_data];
    unfold long_is_encrypted, short_is_encrypted; apply no_encryption_mode in E; rewrite E; reflexivity.
Qed.

Lemma decrypt_short_needs_context dec get_key ell h block output :
  (sh_configuration_field h / 256) mod 32 <> 0 ->
  decrypt_variable_data dec get_key (VariableShort ell h block) output = (Err UnknownEncryptionState, output).
Proof.
  intros E. cbn [decrypt_variable_data]. apply short_encrypted_iff in E. rewrite E. reflexivity.
Qed.
