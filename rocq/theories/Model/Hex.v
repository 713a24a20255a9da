(** Model of the hexadecimal input and output of src/output.rs, and of the key parsers of
    cli/src/main.rs and wasm/src/lib.rs. *)
From Coq Require Import String.
From Verif Require Import Model.Base Model.Text.

(** src/output.rs:110-144, the part of [OutputError] that concerns input; the message of
    [InvalidHex] is not modelled *)
Inductive input_error :=
| EmptyInput
| InvalidHex (index : N)
| InvalidOption (length : N).

(** output.rs:571-580, byte by byte over the ASCII text: [u8::from_str_radix(.., 16)] of
    two hexadecimal digits *)
Fixpoint hex_pairs (s : text) : bytes :=
  match s with
  | a :: b :: s' => (16 * hex_value a + hex_value b) :: hex_pairs s'
  | _ => []
  end.

(** output.rs:608-629, [push_hex_token]; [digits.len()] is the UTF-8 length *)
Definition push_hex_token (output : bytes) (token : text) (index : N) : outcome input_error bytes :=
  let digits := match strip_prefix (txt "0x") token with
                | Some d => d
                | None => match strip_prefix (txt "0X") token with Some d => d | None => token end
                end in
  if negb (text_len digits =? 2) || negb (forallb is_ascii_hexdigit digits)
  then Err (InvalidHex index)
  else Ok (output ++ hex_pairs digits).

(** output.rs:584 *)
Definition is_hex_separator (c : N) : bool := is_ascii_whitespace c || (c =? 58) || (c =? 45).

(** output.rs:579-600, the loop over [char_indices] and the token left at its end *)
Fixpoint hex_tokens (s : text) (index : N) (bytes : bytes) (token : text) (token_start : N)
  (saw_separator : bool) : outcome input_error (list N) :=
  match s with
  | [] => match token with [] => Ok bytes | _ => push_hex_token bytes token token_start end
  | c :: s' =>
      let index' := index + utf8_len c in
      if is_hex_separator c then
        match token with
        | [] => hex_tokens s' index' bytes [] token_start true
        | _ => bytes' <- push_hex_token bytes token token_start ;;
               hex_tokens s' index' bytes' [] token_start true
        end
      else
        hex_tokens s' index' bytes (token ++ [c])
          (if saw_separator then index else token_start) false
  end.

(** output.rs:550-606, [decode_hex_bytes] *)
Definition decode_hex_bytes (input : text) : outcome input_error bytes :=
  let trimmed := trim input in
  match trimmed with
  | [] => Err EmptyInput
  | _ =>
      if forallb is_ascii_hexdigit trimmed then
        if negb (text_len trimmed mod 2 =? 0) then Err (InvalidHex (text_len trimmed - 1))
        else Ok (hex_pairs trimmed)
      else
        bytes <- hex_tokens trimmed 0 [] [] 0 true ;;
        match bytes with [] => Err EmptyInput | _ => Ok bytes end
  end.

(** output.rs:2578-2580, [hex_string]: [{byte:02X}] *)
Definition hex_digit_upper (d : N) : N := if d <? 10 then 48 + d else 55 + d.
Definition hex_string (data : bytes) : text :=
  flat_map (fun b => [hex_digit_upper (b / 16); hex_digit_upper (b mod 16)]) data.

(** cli/src/main.rs:113-121, [parse_key]; [hex::decode] on 32 hexadecimal digits *)
Definition cli_parse_key (value : text) : option bytes :=
  if negb (text_len value =? 32) || negb (forallb is_ascii_hexdigit value) then None
  else Some (hex_pairs value).

(** wasm/src/lib.rs:48-61, [parse_key] *)
Definition wasm_parse_key (key_hex : option text) : outcome input_error (option bytes) :=
  match key_hex with
  | None => Ok None
  | Some value =>
      match trim value with
      | [] => Ok None
      | _ => bytes <- decode_hex_bytes value ;;
             if len bytes =? 16 then Ok (Some bytes) else Err (InvalidOption (len bytes))
      end
  end.

(** src/mbus_data.rs:124-137, [clean_and_convert], reading used by the older entry points:
    text after trim, without "0x", then without spaces, commas and x *)
Fixpoint remove_0x (s : text) : text :=
  match s with
  | 48 :: ((120 :: s') as t) => remove_0x s'
  | c :: s' => c :: remove_0x s'
  | [] => []
  end.
(** the UTF-8 bytes of a character *)
Definition utf8_bytes (c : N) : bytes :=
  if c <? 0x80 then [c]
  else if c <? 0x800 then [0xC0 + c / 64; 0x80 + c mod 64]
  else if c <? 0x10000 then [0xE0 + c / 4096; 0x80 + (c / 64) mod 64; 0x80 + c mod 64]
  else [0xF0 + c / 262144; 0x80 + (c / 4096) mod 64; 0x80 + (c / 64) mod 64; 0x80 + c mod 64].
(** [str::from_utf8(chunk).unwrap_or_default()] then [u8::from_str_radix(.., 16)
    .unwrap_or_default()] of one or two bytes: a sign before one digit is accepted; bytes
    that are not UTF-8 or not hexadecimal give 0.  A "-" is refused for an unsigned type. *)
Definition chunk_value (chunk : bytes) : N :=
  match chunk with
  | [a] => if is_ascii_hexdigit a then hex_value a else 0
  | [a; b] =>
      if is_ascii_hexdigit b then
        if is_ascii_hexdigit a then 16 * hex_value a + hex_value b
        else if a =? 43 then hex_value b else 0
      else 0
  | _ => 0
  end.
Fixpoint chunks2 (s : bytes) : list bytes :=
  match s with
  | a :: b :: s' => [a; b] :: chunks2 s'
  | [a] => [[a]]
  | [] => []
  end.
Definition clean_and_convert (input : text) : bytes :=
  let cleaned := filter (fun c => negb ((c =? 32) || (c =? 44) || (c =? 120))) (remove_0x (trim input)) in
  map chunk_value (chunks2 (flat_map utf8_bytes cleaned)).
