(** Model of crates/m-bus-core/src/decryption.rs. *)
From Verif Require Import Model.Base Model.Core.

(** crates/m-bus-core/src/decryption.rs:12-19 *)
Record key_context := {
  kc_manufacturer : manufacturer_code;
  kc_identification_number : N;
  kc_version : N;
  kc_device_type : device_type;
  kc_security_mode : security_mode;
  kc_access_number : N
}.

(** crates/m-bus-core/src/decryption.rs:22-30 *)
Inductive decryption_error :=
| UnsupportedMode (m : security_mode)
| KeyNotFound
| DecryptionFailed
| InvalidKeyLength
| InvalidDataLength
| NotEncrypted
| UnknownEncryptionState.

(** crates/m-bus-core/src/decryption.rs:117-123, one round of the loop *)
Definition bcd_byte (value : N) : N * N :=
  let low := value mod 10 in
  let value := value / 10 in
  let high := value mod 10 in
  let value := value / 10 in
  (N.lor (N.shiftl high 4) low, value).

(** crates/m-bus-core/src/decryption.rs:115-125, [decimal_to_bcd]; four rounds *)
Definition decimal_to_bcd (value : N) : list N :=
  let '(b0, value) := bcd_byte value in
  let '(b1, value) := bcd_byte value in
  let '(b2, value) := bcd_byte value in
  let '(b3, value) := bcd_byte value in
  [b0; b1; b2; b3].

(** [u16::to_le_bytes], used in crates/m-bus-core/src/decryption.rs:98 *)
Definition u16_to_le (v : N) : list N := [v mod 256; v / 256].

(** crates/m-bus-core/src/decryption.rs:94-109, [_derive_iv] *)
Definition derive_iv (c : key_context) : list N :=
  u16_to_le (mc_to_id (kc_manufacturer c))
  ++ decimal_to_bcd (kc_identification_number c)
  ++ [kc_version c; device_type_to_u8 (kc_device_type c)]
  ++ repeat (kc_access_number c) 8.

(** crates/m-bus-core/src/decryption.rs:127-130; [kp_entries] has the length of the
    const generic N *)
Record key_provider := {
  kp_entries : list (N * list N);
  kp_count : N
}.

(** crates/m-bus-core/src/decryption.rs:132-144, [default] / [new] *)
Definition kp_new (n : nat) : key_provider :=
  {| kp_entries := repeat (0, repeat 0 16) n; kp_count := 0 |}.

(** crates/m-bus-core/src/decryption.rs:162-164, [compute_key_id] *)
Definition compute_key_id (manufacturer_id identification_number : N) : N :=
  N.lor (N.shiftl manufacturer_id 32) identification_number.

(** [*entry = x] through [get_mut(i)], line 153-157 *)
Fixpoint set_nth {A} (l : list A) (i : nat) (x : A) : list A :=
  match l, i with
  | [], _ => []
  | _ :: l', O => x :: l'
  | a :: l', S i' => a :: set_nth l' i' x
  end.

(** crates/m-bus-core/src/decryption.rs:146-160, [add_key]; returns the result and the
    provider afterwards *)
Definition kp_add_key (kp : key_provider) (manufacturer_id identification_number : N)
  (key : list N) : outcome decryption_error unit * key_provider :=
  let key_id := compute_key_id manufacturer_id identification_number in
  match get (kp_entries kp) (kp_count kp) with
  | None => (Err InvalidDataLength, kp)
  | Some _ =>
      (Ok tt, {| kp_entries := set_nth (kp_entries kp) (N.to_nat (kp_count kp)) (key_id, key);
                 kp_count := kp_count kp + 1 |})
  end.

(** crates/m-bus-core/src/decryption.rs:167-179, [get_key] of [StaticKeyProvider] *)
Definition kp_get_key (kp : key_provider) (c : key_context)
  : outcome decryption_error (list N) :=
  let key_id := compute_key_id (mc_to_id (kc_manufacturer c)) (kc_identification_number c) in
  live <- index_range (kp_entries kp) 0 (kp_count kp) ;;
  match find (fun e => fst e =? key_id) live with
  | Some (_, key) => Ok key
  | None => Err KeyNotFound
  end.

Section Cipher.
(** AES-128 decryption of one 16-byte block under a 16-byte key; external crate
    [aes] (line 4), not modelled. *)
Variable aes_decrypt_block : list N -> list N -> list N.

(** [xor] of two blocks, part of the external crate [cbc] (line 6-9) *)
Definition xor_block (a b : list N) : list N :=
  map (fun p => N.lxor (fst p) (snd p)) (combine a b).

(** External crate [cbc]: CBC decryption of [n] whole blocks with chaining value
    [iv] (crates/m-bus-core/src/decryption.rs:229-237, NoPadding). *)
Fixpoint cbc_decrypt (key iv : list N) (n : nat) (data : list N) : list N :=
  match n with
  | O => []
  | S n' =>
      let block := firstn 16 data in
      xor_block (aes_decrypt_block key block) iv
        ++ cbc_decrypt key block n' (skipn 16 data)
  end.

(** [dest = output.get_mut(..len)?; dest.copy_from_slice(src)] with [len = src.len()],
    lines 76-79, 206-209, 214-217 *)
Definition write_prefix (output src : list N) : list N :=
  src ++ skipn (length src) output.

(** crates/m-bus-core/src/decryption.rs:182-241, [decrypt_aes_cbc_into].  Returns the
    result and the output buffer afterwards. The conversions to arrays at 222-227
    cannot fail after the length checks; [decrypt_padded] with [NoPadding] on a
    whole number of blocks cannot fail. *)
Definition decrypt_aes_cbc_into (data key iv output : list N)
  : outcome decryption_error N * list N :=
  if negb (len key =? 16) then (Err InvalidKeyLength, output) else
  if negb (len iv =? 16) then (Err InvalidDataLength, output) else
  if len data =? 0 then (Err InvalidDataLength, output) else
  let encrypted_len := len data - len data mod 16 in
  if encrypted_len =? 0 then
    if len output <? len data then (Err InvalidDataLength, output)
    else (Ok (len data), write_prefix output data)
  else
    if len output <? len data then (Err InvalidDataLength, output)
    else
      let output1 := write_prefix output data in
      let clear := cbc_decrypt key iv (N.to_nat (encrypted_len / 16))
                     (firstn (N.to_nat encrypted_len) output1) in
      (Ok (len data), write_prefix output1 clear).

(** crates/m-bus-core/src/decryption.rs:66-91, [EncryptedPayload::decrypt_into] with
    the provider's answer for the context already computed ([get_key] is the first
    thing done, line 71). *)
Definition decrypt_into (get_key : key_context -> outcome decryption_error (list N))
  (data : list N) (c : key_context) (output : list N)
  : outcome decryption_error N * list N :=
  match get_key c with
  | Err e => (Err e, output)
  | Panic p => (Panic p, output)
  | Ok key =>
      match kc_security_mode c with
      | NoEncryption =>
          if len output <? len data then (Err InvalidDataLength, output)
          else (Ok (len data), write_prefix output data)
      | AesCbc128IvZero => decrypt_aes_cbc_into data key (repeat 0 16) output
      | AesCbc128IvNonZero => decrypt_aes_cbc_into data key (derive_iv c) output
      | mode => (Err (UnsupportedMode mode), output)
      end
  end.
End Cipher.
