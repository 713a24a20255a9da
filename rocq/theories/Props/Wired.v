(** C01-C06: the wired link layer. *)
From Coq Require Import List NArith.
Import ListNotations.
From Verif Require Import Model.Base Model.Core Model.Wired Spec.WiredSpec Proof.WiredProps Proof.WiredFacts.
Open Scope N_scope.

(** the acknowledged SND_UD control frame and an RSP_UD long frame used below *)
Definition ex_long : list N := [0x68; 5; 5; 0x68; 0x08; 1; 0x72; 7; 9; 139; 0x16].
Definition debug : config := {| overflow_checks := true; plaintext_before_extension := false |}.
Definition release : config := {| overflow_checks := false; plaintext_before_extension := false |}.

Theorem C01_wired_acceptance_exact : forall cf data fr,
  wired_try_from cf data = Ok fr <-> wired_meaning data fr.
Proof. exact wired_ok_iff. Qed.
Print Assumptions C01_wired_acceptance_exact.

Example C01_example :
  wired_meaning ex_long (LongFrame (RspUd false false) (Primary 1) [0x72; 7; 9]).
Proof.
  change ex_long with (long_layout 0x68 0x08 1 [0x72; 7; 9]).
  apply WLong; cbn; intuition discriminate.
Qed.

Theorem C02_wired_round_trip : forall cf c f a ad payload,
  In (c, f) function_codes -> address_code a ad ->
  wired_try_from cf (standard_long c a payload) =
    Ok (if c =? 0x53 then ControlFrame f ad payload else LongFrame f ad payload)
  /\ wired_try_from cf (short_layout c a) = Ok (ShortFrame f ad).
Proof. exact wired_round_trip. Qed.
Print Assumptions C02_wired_round_trip.

(** the encoding is made of bytes when the payload has at most 253 of them *)
Theorem C02_encoding_is_bytes : forall c a payload,
  c < 256 -> a < 256 -> bytes_ok payload -> len payload <= 253 ->
  bytes_ok (standard_long c a payload).
Proof. exact standard_long_bytes. Qed.
Print Assumptions C02_encoding_is_bytes.

(** every control byte of the table is a byte, every byte is the code of an address *)
Theorem C02_every_address : forall b, exists ad, address_code b ad.
Proof. exact (fun b => ex_intro _ _ (address_code_from b)). Qed.
Print Assumptions C02_every_address.

Example C02_example :
  In (0x53, SndUd false) function_codes /\ address_code 254 (Broadcast true) /\
  wired_try_from debug (standard_long 0x53 254 [0x51; 1]) =
    Ok (ControlFrame (SndUd false) (Broadcast true) [0x51; 1]).
Proof. cbn; intuition. Qed.

(** C03 as stated fails: the fourth byte of a long frame is not looked at, and any
    frame whose first byte becomes 0xE5 is accepted as an acknowledgement *)
Theorem C03_single_byte_corruption_refuted :
  exists data fr i b fr',
    bytes_ok data /\ wired_try_from debug data = Ok fr /\ is_data_frame fr /\
    (i < length data)%nat /\ b < 256 /\ nth_error data i <> Some b /\
    wired_try_from debug (replace_byte data i b) = Ok fr'.
Proof. exact wired_single_byte_refuted. Qed.
Print Assumptions C03_single_byte_corruption_refuted.

(** ... and these two are the only undetected single-byte changes *)
Theorem C03_single_byte_corruption_partial : forall cf data fr i b fr',
  bytes_ok data -> wired_try_from cf data = Ok fr -> is_data_frame fr ->
  (i < length data)%nat -> b < 256 -> nth_error data i <> Some b ->
  wired_try_from cf (replace_byte data i b) = Ok fr' ->
  (i = 0%nat /\ b = 0xE5 /\ fr' = SingleCharacter 0xE5) \/
  (i = 3%nat /\ get data 0 = Some 0x68 /\ fr' = fr).
Proof. exact wired_single_byte. Qed.
Print Assumptions C03_single_byte_corruption_partial.

Example C03_example :
  wired_try_from debug ex_long = Ok (LongFrame (RspUd false false) (Primary 1) [0x72; 7; 9]) /\
  wired_try_from debug (replace_byte ex_long 7 8) = Err (WrongChecksum 139 140).
Proof. split; reflexivity. Qed.

(** C04 as stated fails: a frame of four bytes starting with 0x68 panics *)
Theorem C04_wired_no_panic_refuted :
  exists data, bytes_ok data /\ is_panic (wired_try_from debug data).
Proof. exact wired_panic_refuted. Qed.
Print Assumptions C04_wired_no_panic_refuted.

(** ... but only in debug builds and only at lengths 4 and 5 *)
Theorem C04_wired_no_panic_partial : forall cf data,
  is_panic (wired_try_from cf data) <->
  overflow_checks cf = true /\ get data 0 = Some 0x68 /\ 4 <= len data <= 5.
Proof. exact wired_panic_iff. Qed.
Print Assumptions C04_wired_no_panic_partial.

Example C04_example :
  wired_try_from release [0x68; 3; 3; 0x68] = Err LengthShort /\
  wired_try_from debug [0x68; 3; 3; 0x68] = Panic POverflow.
Proof. split; reflexivity. Qed.

(** C05 fails *)
Theorem C05_second_start_byte_refuted : exists data f a d,
  bytes_ok data /\ wired_try_from debug data = Ok (LongFrame f a d) /\ get data 3 <> Some 0x68.
Proof. exact wired_second_start_refuted. Qed.
Print Assumptions C05_second_start_byte_refuted.

(** ... in general: the second start byte never matters *)
Theorem C05_second_start_byte_ignored : forall cf x c f a ad payload,
  In (c, f) function_codes -> address_code a ad ->
  wired_try_from cf (long_layout x c a payload) =
    Ok (if c =? 0x53 then ControlFrame f ad payload else LongFrame f ad payload).
Proof. exact wired_any_second_start. Qed.
Print Assumptions C05_second_start_byte_ignored.

(** what does hold: the first byte is checked *)
Theorem C05_first_start_byte_partial : forall cf data fr,
  wired_try_from cf data = Ok fr ->
  match fr with
  | LongFrame _ _ _ | ControlFrame _ _ _ => get data 0 = Some 0x68
  | ShortFrame _ _ => get data 0 = Some 0x10
  | SingleCharacter _ => get data 0 = Some 0xE5
  end.
Proof. exact wired_start_byte. Qed.
Print Assumptions C05_first_start_byte_partial.

Example C05_example :
  wired_try_from release (replace_byte ex_long 3 0) = wired_try_from release ex_long.
Proof. reflexivity. Qed.

Theorem C06_wired_self_delimiting : forall cf data ext fr fr',
  wired_try_from cf data = Ok fr -> is_data_frame fr ->
  wired_try_from cf (data ++ ext) = Ok fr' -> is_data_frame fr' ->
  ext = [] /\ fr' = fr.
Proof. exact wired_self_delimiting. Qed.
Print Assumptions C06_wired_self_delimiting.

Example C06_example : exists fr,
  wired_try_from debug ex_long = Ok fr /\ is_data_frame fr /\
  forall b, ~ is_ok (wired_try_from debug (ex_long ++ [b])).
Proof.
  eexists; split; [reflexivity|split; [exact I|]].
  intros b [fr' H]. destruct fr' as [| | |]; 
  try (destruct (wired_self_delimiting _ _ _ _ _ (eq_refl : wired_try_from debug ex_long = _) I H I); discriminate).
  apply (wired_start_byte debug) in H; discriminate.
Qed.
