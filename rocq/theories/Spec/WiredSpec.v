(** What EN 13757-2 wired frames look like, written without reference to the parser. *)
From Coq Require Import List NArith.
Import ListNotations.
From Verif Require Import Model.Core Model.Wired.
Open Scope N_scope.

(** arithmetic sum of the bytes modulo 256 *)
Definition sum8 (l : list N) : N := fold_right N.add 0 l mod 256.

(** control bytes and the link function they name *)
Definition function_codes : list (N * function) :=
  [ (0x40, SndNk false); (0x44, SndNr);
    (0x53, SndUd false); (0x73, SndUd true);
    (0x5B, ReqUd2 false); (0x7B, ReqUd2 true);
    (0x5A, ReqUd1 false); (0x7A, ReqUd1 true);
    (0x08, RspUd false false); (0x18, RspUd false true);
    (0x28, RspUd true false); (0x38, RspUd true true) ].

(** address bytes: 0 unconfigured, 253 secondary addressing, 254/255 broadcast with
    and without reply, the rest a primary address *)
Definition address_code (b : N) (a : address) : Prop :=
  match a with
  | Uninitalized => b = 0
  | Secondary => b = 253
  | Broadcast true => b = 254
  | Broadcast false => b = 255
  | Primary p => b = p /\ p <> 0 /\ p <> 253 /\ p <> 254 /\ p <> 255
  end.

(** [long_layout x c a payload]: a long frame whose fourth byte is [x], control byte
    [c], address byte [a] *)
Definition long_layout (x c a : N) (payload : list N) : list N :=
  let l := N.of_nat (length payload) + 2 in
  0x68 :: l :: l :: x :: c :: a :: payload ++ [sum8 (c :: a :: payload); 0x16].

(** a short frame *)
Definition short_layout (c a : N) : list N := [0x10; c; a; sum8 [c; a]; 0x16].

(** [wired_meaning data frame]: the bytes [data] are a frame with this content, the
    fourth byte of a long frame and bytes after 0xE5 being unconstrained *)
Inductive wired_meaning : list N -> wired_frame -> Prop :=
| WSingle rest : wired_meaning (0xE5 :: rest) (SingleCharacter 0xE5)
| WShort c a f ad :
    In (c, f) function_codes -> address_code a ad ->
    wired_meaning (short_layout c a) (ShortFrame f ad)
| WLong x c a f ad payload :
    In (c, f) function_codes -> address_code a ad -> c <> 0x53 ->
    wired_meaning (long_layout x c a payload) (LongFrame f ad payload)
| WControl x a f ad payload :
    In (0x53, f) function_codes -> address_code a ad ->
    wired_meaning (long_layout x 0x53 a payload) (ControlFrame f ad payload).

(** the frame is a long, control or short frame (not the single character) *)
Definition is_data_frame (f : wired_frame) : Prop :=
  match f with SingleCharacter _ => False | _ => True end.

(** [replace_byte l i b]: [l] with the byte at position [i] replaced *)
Definition replace_byte (l : list N) (i : nat) (b : N) : list N :=
  firstn i l ++ b :: skipn (S i) l.

(** a long frame as the standard requires it: both start bytes 0x68 *)
Definition standard_long (c a : N) (payload : list N) : list N := long_layout 0x68 c a payload.
