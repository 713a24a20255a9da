(** C42, C43, C54, C60, C61: text input. *)
From Coq Require Import List NArith Lia String.
Import ListNotations.
From Verif Require Import Model.Base Model.Text Model.Hex Model.Format Spec.TextSpec Spec.FormatSpec
  Proof.HexFacts Proof.FormatFacts.
Open Scope N_scope.

(** [hex_input] (TextSpec.v): compact digits, or byte tokens between separators, with
    white space around *)
Theorem C42_hex_input_read : forall input bytes,
  hex_input input bytes -> decode_hex_bytes input = Ok bytes.
Proof. intros input bytes. apply decode_hex_exact. Qed.
Print Assumptions C42_hex_input_read.

Theorem C42_round_trip : forall data,
  bytes_ok data -> data <> [] -> decode_hex_bytes (hex_string data) = Ok data.
Proof. exact hex_round_trip. Qed.
Print Assumptions C42_round_trip.

Example C42_example :
  hex_input (txt " 0x68:3d-16 ") [0x68; 0x3D; 0x16] /\
  decode_hex_bytes (txt " 0x68:3d-16 ") = Ok [0x68; 0x3D; 0x16] /\
  decode_hex_bytes (txt "683D") = Ok [0x68; 0x3D] /\ hex_string [0x68; 0x3D] = txt "683D".
Proof.
  split; [|vm_compute; auto]. apply decode_hex_exact. vm_compute. reflexivity.
Qed.

(** nothing else is accepted: every character of an accepted text is a digit of some byte, a
    0x mark, a separator or white space around *)
Theorem C43_only_hex_input_accepted : forall input bytes,
  decode_hex_bytes input = Ok bytes -> hex_input input bytes.
Proof. intros input bytes. apply decode_hex_exact. Qed.
Print Assumptions C43_only_hex_input_accepted.

(** the index counts from the first character that is not white space, so it does not point
    into the input at the offending place *)
Theorem C43_error_index_points_into_input_refuted : exists input,
  decode_hex_bytes input = Err (InvalidHex 0) /\
  nth 0 input 0 = 32 /\ input = [32; 32] ++ txt "6G".
Proof. exists ([32; 32] ++ txt "6G"). vm_compute. auto. Qed.
Print Assumptions C43_error_index_points_into_input_refuted.

(** in the text without white space around ([core]): the index is that of the last digit of
    an odd number of digits, or of the first character of a run that is not a byte *)
Theorem C43_error_index_partial : forall input e core,
  stripped input core -> decode_hex_bytes input = Err e ->
  (e = EmptyInput /\ Forall (fun c => white c \/ separator c) input) \/
  (exists j, e = InvalidHex j /\
    ((Forall (fun c => exists v, hex_digit c v) core /\ len core mod 2 = 1 /\ j + 1 = len core) \/
     (exists tok, run_at core j tok /\ forall b, ~ byte_token tok b))).
Proof. intros input e core. exact (decode_hex_error input e core). Qed.
Print Assumptions C43_error_index_partial.

Theorem C43_never_panics : forall input, ~ is_panic (decode_hex_bytes input).
Proof. exact decode_hex_no_panic. Qed.
Print Assumptions C43_never_panics.

Example C43_example :
  decode_hex_bytes (txt "68 3G") = Err (InvalidHex 3) /\ decode_hex_bytes (txt "123") = Err (InvalidHex 2) /\
  decode_hex_bytes (txt " : ") = Err EmptyInput /\ decode_hex_bytes (txt "0x683D") = Err (InvalidHex 0).
Proof. vm_compute. auto. Qed.

Theorem C54_names_exact : forall value f core,
  stripped value core ->
  format_from_str value = Ok f <-> exists n, In (n, f) format_names /\ spells_word core (txt n).
Proof. exact format_exact. Qed.
Print Assumptions C54_names_exact.

Theorem C54_round_trip : forall f, format_from_str (format_name f) = Ok f.
Proof. exact format_round_trip. Qed.
Print Assumptions C54_round_trip.

Theorem C54_error_carries_text : forall value e, format_from_str value = Err e -> e = value.
Proof. exact format_error. Qed.
Print Assumptions C54_error_carries_text.

Example C54_example :
  format_from_str (txt " HexView ") = Ok FAnnotated /\ format_from_str (txt "tables") = Err (txt "tables").
Proof. vm_compute. auto. Qed.

Theorem C60_cli_key_exact : forall value key,
  cli_parse_key value = Some key <-> compact value key /\ length key = 16%nat.
Proof. exact cli_key_exact. Qed.
Print Assumptions C60_cli_key_exact.

Theorem C60_wasm_key_exact : forall value key,
  wasm_parse_key (Some value) = Ok (Some key) <-> hex_input value key /\ length key = 16%nat.
Proof. exact wasm_key_exact. Qed.
Print Assumptions C60_wasm_key_exact.

Example C60_example :
  cli_parse_key (txt "00112233445566778899AABBCCDDEEFF") =
    Some [0x00; 0x11; 0x22; 0x33; 0x44; 0x55; 0x66; 0x77; 0x88; 0x99; 0xAA; 0xBB; 0xCC; 0xDD; 0xEE; 0xFF] /\
  cli_parse_key (txt "00") = None /\ wasm_parse_key (Some (txt "00")) = Err (InvalidOption 1).
Proof. vm_compute. auto. Qed.

(** a letter that is no digit silently becomes a zero byte *)
Theorem C61_older_reader_guesses_refuted : exists input,
  clean_and_convert input = [0x68; 0x00] /\ input = txt "68 6G" /\ (forall bytes, ~ loose input bytes).
Proof.
  exists (txt "68 6G"). split; [vm_compute; reflexivity|]. split; [reflexivity|].
  intros bytes H. pose proof (cleaned_loose _ _ H) as C. apply compact_ok in C. destruct C as (C & _). discriminate C.
Qed.
Print Assumptions C61_older_reader_guesses_refuted.

Theorem C61_older_reader_well_formed_partial : forall l core r bytes,
  Forall white l -> Forall white r -> loose core bytes -> clean_and_convert (l ++ core ++ r) = bytes.
Proof. exact clean_loose. Qed.
Print Assumptions C61_older_reader_well_formed_partial.

Example C61_example : loose (txt "0x68, 3D") [0x68; 0x3D] /\ clean_and_convert (txt "0x68, 3D") = [0x68; 0x3D].
Proof.
  split; [|vm_compute; reflexivity].
  assert (T : two_digits (txt "68") 0x68 /\ two_digits (txt "3D") 0x3D) by (split; apply two_digits_ok; vm_compute; auto).
  change (txt "0x68, 3D") with ([48; 120] ++ txt "68" ++ 44 :: 32 :: [] ++ txt "3D" ++ []).
  constructor; [auto|apply T|]. constructor; [auto|]. constructor; [auto|]. constructor; [auto|apply T|constructor].
Qed.
