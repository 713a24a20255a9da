(** C07-C09: codings of meter identities, device types and security settings. *)
From Coq Require Import List NArith.
Import ListNotations.
From Verif Require Import Model.Base Model.Core Model.Decrypt Spec.CoreSpec Proof.CoreFacts.
Open Scope N_scope.

(** from_id accepts exactly the ids of three capital letters (so bit 15 must be
    clear) and returns those letters *)
Theorem C07_manufacturer_acceptance : forall id c, id < 65536 ->
  mc_from_id id = Ok c <->
  (capital (mc1 c) /\ capital (mc2 c) /\ capital (mc3 c)) /\ id = flag_id (mc1 c) (mc2 c) (mc3 c).
Proof. exact mc_from_id_ok. Qed.
Print Assumptions C07_manufacturer_acceptance.

Theorem C07_manufacturer_rejection : forall id,
  is_ok (mc_from_id id) \/ mc_from_id id = Err (InvalidManufacturerCode id).
Proof. exact mc_from_id_total. Qed.
Print Assumptions C07_manufacturer_rejection.

Theorem C07_from_id_to_id : forall id c, id < 65536 -> mc_from_id id = Ok c -> mc_to_id c = id.
Proof. exact mc_from_to. Qed.
Print Assumptions C07_from_id_to_id.

Theorem C07_to_id_from_id : forall c,
  capital (mc1 c) /\ capital (mc2 c) /\ capital (mc3 c) -> mc_from_id (mc_to_id c) = Ok c.
Proof. exact mc_to_from. Qed.
Print Assumptions C07_to_id_from_id.

(** "ABB" is 0x0442; setting bit 15 makes it invalid *)
Example C07_example :
  mc_from_id 0x0442 = Ok {| mc1 := 65; mc2 := 66; mc3 := 66 |} /\
  mc_from_id 0x8442 = Err (InvalidManufacturerCode 0x8442).
Proof. split; reflexivity. Qed.

(** for any number of bytes (the code uses four) *)
Theorem C08_identification_value : forall bytes n,
  bcd_hex_digits_to_u32 bytes = Ok n <->
  exists digits, spells digits bytes /\ n = decimal digits.
Proof. exact bcd_spells. Qed.
Print Assumptions C08_identification_value.

Theorem C08_identification_rejection : forall bytes,
  is_ok (bcd_hex_digits_to_u32 bytes) \/
  exists m, bcd_hex_digits_to_u32 bytes = Err (IdentificationNumberError bytes m).
Proof. exact bcd_total. Qed.
Print Assumptions C08_identification_rejection.

Theorem C08_decode_encode : forall b0 b1 b2 b3 n,
  bcd_hex_digits_to_u32 [b0; b1; b2; b3] = Ok n -> decimal_to_bcd n = [b0; b1; b2; b3].
Proof. exact bcd_round_trip. Qed.
Print Assumptions C08_decode_encode.

Theorem C08_encode_decode : forall n, n < 100000000 -> bcd_hex_digits_to_u32 (decimal_to_bcd n) = Ok n.
Proof. exact bcd_encode_decode. Qed.
Print Assumptions C08_encode_decode.

Example C08_example :
  bcd_hex_digits_to_u32 [0x78; 0x56; 0x34; 0x12] = Ok 12345678 /\
  spells [8; 7; 6; 5; 4; 3; 2; 1] [0x78; 0x56; 0x34; 0x12] /\
  ~ is_ok (bcd_hex_digits_to_u32 [0x78; 0x5A; 0x34; 0x12]).
Proof.
  split; [reflexivity|]. split; [cbn; repeat split; discriminate|].
  intros [n H]; discriminate.
Qed.

Theorem C09_device_type_lossless : forall b, b < 256 ->
  device_type_to_u8 (device_type_from_u8 b) = b.
Proof. exact device_type_lossless. Qed.
Print Assumptions C09_device_type_lossless.

Theorem C09_security_mode_lossless : forall b,
  security_mode_to_bits (security_mode_from_bits b) = b mod 32.
Proof. exact security_mode_lossless. Qed.
Print Assumptions C09_security_mode_lossless.

Theorem C09_mode_depends_on_bits_8_to_12 : forall r1 r2,
  configuration_security_mode r1 = configuration_security_mode r2 <->
  (r1 / 256) mod 32 = (r2 / 256) mod 32.
Proof. exact configuration_only_mode_bits. Qed.
Print Assumptions C09_mode_depends_on_bits_8_to_12.

Theorem C09_configuration_fields : forall lsb msb, lsb < 256 -> msb < 256 ->
  let raw := configuration_field_from_bytes lsb msb in
  mode_specific_lower raw = lsb /\
  security_mode_to_bits (configuration_security_mode raw) = msb mod 32 /\
  mode_specific_upper raw = msb / 32 /\
  raw = mode_specific_lower raw + 256 * security_mode_to_bits (configuration_security_mode raw)
        + 8192 * mode_specific_upper raw.
Proof. exact configuration_fields. Qed.
Print Assumptions C09_configuration_fields.

Example C09_example :
  configuration_security_mode (configuration_field_from_bytes 0x20 0x05) = AesCbc128IvNonZero /\
  device_type_from_u8 0x1D = DevReservedSensor 0x1D.
Proof. split; reflexivity. Qed.
