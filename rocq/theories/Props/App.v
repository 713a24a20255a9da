(** C34-C37, C55: the application layer. *)
From Coq Require Import List NArith Lia.
Import ListNotations.
From Verif Require Import Model.Base Model.Core Model.DataInfo Model.Record Model.UserData
  Spec.CoreSpec Spec.WiredSpec Spec.AppSpec Proof.AppFacts.
Open Scope N_scope.

(** [app_meaning] (AppSpec.v) lists the message formats *)
Theorem C34_dispatch_exact : forall data u,
  bytes_ok data -> user_data_try_from data = Ok u <-> app_meaning data u.
Proof. exact dispatch_exact. Qed.
Print Assumptions C34_dispatch_exact.

Theorem C34_never_panics : forall data, bytes_ok data -> ~ is_panic (user_data_try_from data).
Proof. exact dispatch_no_panic. Qed.
Print Assumptions C34_never_panics.

Theorem C34_errors_exact : forall data e,
  bytes_ok data -> user_data_try_from data = Err e -> app_error data e.
Proof. exact dispatch_errors. Qed.
Print Assumptions C34_errors_exact.

Definition ex_long : list N :=
  [0x72; 0x78; 0x56; 0x34; 0x12; 0x24; 0x40; 1; 7; 0x55; 0; 0; 0; 0x01; 0x13; 0x2A].
Definition ex_short : list N := [0x7A; 0x2A; 0; 0x10; 0x05; 1; 2; 3].
Example C34_example :
  bytes_ok ex_long /\
  user_data_try_from ex_long =
    Ok (VariableLong None
         {| lh_identification_number := 12345678; lh_manufacturer := Ok {| mc1 := 80; mc2 := 65; mc3 := 68 |};
            lh_version := 1; lh_device_type := DevWaterMeter; lh_short_tpl_header := short_header 0x55 0 0 0;
            lh_lsb_order := false |} [0x01; 0x13; 0x2A]) /\
  user_data_try_from [0x72; 1] = Err InsufficientData /\
  user_data_try_from [0x99] = Err (InvalidControlInformation 0x99).
Proof. split; [repeat constructor|vm_compute; auto]. Qed.

(** the encryption mode is the low five bits of the second configuration byte *)
Theorem C35_long_encrypted_no_records : forall ci i0 i1 i2 i3 m0 m1 v d acc st c0 c1 block u,
  bytes_ok ([ci; i0; i1; i2; i3; m0; m1; v; d; acc; st; c0; c1] ++ block) ->
  ci = 0x72 \/ ci = 0x76 ->
  user_data_try_from ([ci; i0; i1; i2; i3; m0; m1; v; d; acc; st; c0; c1] ++ block) = Ok u ->
  (c1 mod 32 <> 0 -> user_data_records u = None) /\
  (c1 mod 32 = 0 -> exists h, long_header ci [i0; i1; i2; i3] m0 m1 v d acc st c0 c1 h /\
                              user_data_records u = Some (records_new block (Some h))).
Proof. exact long_records. Qed.
Print Assumptions C35_long_encrypted_no_records.

Theorem C35_short_encrypted_no_records : forall ci pre acc st c0 c1 block u,
  bytes_ok (ci :: pre ++ [acc; st; c0; c1] ++ block) ->
  (ci = 0x7A \/ 0xA1 <= ci <= 0xAF) /\ pre = [] \/ ci = 0xA0 /\ (length pre = 1)%nat ->
  user_data_try_from (ci :: pre ++ [acc; st; c0; c1] ++ block) = Ok u ->
  user_data_records u = if c1 mod 32 =? 0 then Some (records_new block None) else None.
Proof. exact short_records. Qed.
Print Assumptions C35_short_encrypted_no_records.

(** an extended link layer in front does not change that *)
Theorem C35_behind_ell : forall cc acc rest u,
  user_data_try_from ([0x8C; cc; acc] ++ rest) = Ok u ->
  exists u', user_data_try_from rest = Ok u' /\ user_data_records u = user_data_records u'.
Proof. exact ell_records. Qed.
Print Assumptions C35_behind_ell.

Example C35_example :
  (exists u, user_data_try_from ex_long = Ok u /\ user_data_records u <> None) /\
  (exists u, user_data_try_from ex_short = Ok u /\ user_data_records u = None) /\
  (exists u, user_data_try_from ([0x8C; 0; 1] ++ ex_short) = Ok u /\ user_data_records u = None).
Proof.
  split; [|split]; eexists; (split; [vm_compute; reflexivity|]); cbn; [discriminate|reflexivity|reflexivity].
Qed.

(** an encrypted short-header message for which is_encrypted has no answer *)
Theorem C36_is_encrypted_both_headers_refuted : exists u,
  bytes_ok ex_short /\ user_data_try_from ex_short = Ok u /\
  nth 4 ex_short 0 mod 32 = 5 /\ user_data_is_encrypted u <> Some true.
Proof.
  eexists; split; [repeat constructor|]. split; [vm_compute; reflexivity|]. split; [reflexivity|cbn; discriminate].
Qed.
Print Assumptions C36_is_encrypted_both_headers_refuted.

Theorem C36_is_encrypted_long_partial : forall ci i0 i1 i2 i3 m0 m1 v d acc st c0 c1 block u,
  bytes_ok ([ci; i0; i1; i2; i3; m0; m1; v; d; acc; st; c0; c1] ++ block) ->
  ci = 0x72 \/ ci = 0x76 ->
  user_data_try_from ([ci; i0; i1; i2; i3; m0; m1; v; d; acc; st; c0; c1] ++ block) = Ok u ->
  user_data_is_encrypted u = Some (negb (c1 mod 32 =? 0)).
Proof. exact long_encryption. Qed.
Print Assumptions C36_is_encrypted_long_partial.

Theorem C36_answers_for_long_headers_only : forall data u b,
  bytes_ok data -> user_data_try_from data = Ok u -> user_data_is_encrypted u = Some b ->
  exists rest, data = 0x72 :: rest \/ data = 0x76 :: rest.
Proof. exact only_long_reports. Qed.
Print Assumptions C36_answers_for_long_headers_only.

Example C36_example : exists u, user_data_try_from ex_long = Ok u /\ user_data_is_encrypted u = Some false.
Proof. eexists; split; vm_compute; reflexivity. Qed.

Theorem C37_ell_i_before_short_header : forall cc acc rest h block ell,
  user_data_try_from rest = Ok (VariableShort ell h block) ->
  user_data_try_from ([0x8C; cc; acc] ++ rest) = Ok (VariableShort (Some (ell_i cc acc)) h block).
Proof. exact ell_i_transparent. Qed.
Print Assumptions C37_ell_i_before_short_header.

Theorem C37_ell_i_before_no_header : forall cc acc rest block ell,
  user_data_try_from rest = Ok (VariableNone ell block) ->
  user_data_try_from ([0x8C; cc; acc] ++ rest) = Ok (VariableNone (Some (ell_i cc acc)) block).
Proof. exact ell_i_transparent_none. Qed.
Print Assumptions C37_ell_i_before_no_header.

(** any other payload is refused, with an error that hides the payload's own *)
Theorem C37_ell_i_before_others : forall cc acc rest,
  (forall ell h block, user_data_try_from rest <> Ok (VariableShort ell h block)) ->
  (forall ell block, user_data_try_from rest <> Ok (VariableNone ell block)) ->
  bytes_ok rest ->
  user_data_try_from ([0x8C; cc; acc] ++ rest) = Err MissingControlInformation.
Proof. exact ell_i_others. Qed.
Print Assumptions C37_ell_i_before_others.

Theorem C37_ell_ii : forall cc acc s0 s1 s2 s3 p0 p1 block,
  user_data_try_from ([0x8D; cc; acc; s0; s1; s2; s3; p0; p1] ++ block) =
    Ok (VariableShort (Some (ell_ii cc acc [s0; s1; s2; s3] p0 p1)) (short_header acc cc 0 0) block).
Proof. exact parse_ell_ii_layout. Qed.
Print Assumptions C37_ell_ii.

Theorem C37_ell_iii : forall cc acc m0 m1 a0 a1 a2 a3 a4 a5 s0 s1 s2 s3 p0 p1 block,
  user_data_try_from ([0x8E; cc; acc; m0; m1; a0; a1; a2; a3; a4; a5; s0; s1; s2; s3; p0; p1] ++ block) =
    Ok (VariableShort (Some (ell_iii cc acc m0 m1 [a0; a1; a2; a3; a4; a5] [s0; s1; s2; s3] p0 p1))
         (short_header acc cc 0 0) block).
Proof. exact parse_ell_iii_layout. Qed.
Print Assumptions C37_ell_iii.

Example C37_example :
  (exists h block, user_data_try_from ex_short = Ok (VariableShort None h block)) /\
  user_data_try_from ([0x8C; 0x20; 0x07] ++ [0x78; 1; 2]) = Ok (VariableNone (Some (ell_i 0x20 7)) [1; 2]) /\
  user_data_try_from ([0x8C; 0x20; 0x07] ++ ex_long) = Err MissingControlInformation.
Proof. split; [do 2 eexists; vm_compute; reflexivity|vm_compute; auto]. Qed.

(** the tables [control_codes], [reset_codes], [device_codes], [security_codes] are in
    AppSpec.v, [function_codes] in WiredSpec.v *)
Theorem C55_control_information : forall b, b < 256 ->
  (forall c, control_information_from b = Ok c <-> In (b, c) control_codes) /\
  ((forall c, ~ In (b, c) control_codes) -> control_information_from b = Err (InvalidControlInformation b)).
Proof. exact control_table. Qed.
Print Assumptions C55_control_information.

Theorem C55_function : forall b, b < 256 ->
  (forall f, function_try_from b = Ok f <-> In (b, f) function_codes) /\
  ((forall f, ~ In (b, f) function_codes) -> function_try_from b = Err (InvalidFunction b)).
Proof. exact function_table. Qed.
Print Assumptions C55_function.

Theorem C55_function_injective : forall b1 b2 f,
  function_try_from b1 = Ok f -> function_try_from b2 = Ok f -> b1 = b2.
Proof. exact function_injective. Qed.
Print Assumptions C55_function_injective.

Theorem C55_reset_subcode : forall b, b < 256 ->
  nth_error (map (fun f => f b) reset_codes) (N.to_nat (b mod 16)) = Some (reset_subcode_from b).
Proof. exact reset_table. Qed.
Print Assumptions C55_reset_subcode.

Theorem C55_device_type : forall b, b < 256 -> device_type_from_u8 b = device_code b.
Proof. exact device_table. Qed.
Print Assumptions C55_device_type.

Theorem C55_security_mode : forall b, b < 256 -> security_mode_from_bits b =
  match nth_error security_codes (N.to_nat (b mod 32)) with Some s => s | None => ReservedHigher (b mod 32) end.
Proof. exact security_table. Qed.
Print Assumptions C55_security_mode.

Example C55_example :
  control_information_from 0x72 = Ok (CIResponseWithVariableDataStructure false) /\
  control_information_from 0x53 = Err (InvalidControlInformation 0x53) /\
  (exists f, function_try_from 0x5B = Ok f) /\ function_try_from 0x54 = Err (InvalidFunction 0x54) /\
  reset_subcode_from 0x13 = ResetEnhancedBilling 0x13.
Proof. repeat split; try (vm_compute; reflexivity). eexists; vm_compute; reflexivity. Qed.
