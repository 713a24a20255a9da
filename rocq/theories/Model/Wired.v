(** Model of crates/wired-mbus-link-layer/src/lib.rs. *)
From Verif Require Import Model.Base Model.Core.

(** crates/wired-mbus-link-layer/src/lib.rs:34-39 *)
Inductive address :=
| Uninitalized
| Primary (b : N)
| Secondary
| Broadcast (reply_required : bool).

(** crates/wired-mbus-link-layer/src/lib.rs:56-68, [Address::from] *)
Definition address_from (b : N) : address :=
  if b =? 0 then Uninitalized
  else if b =? 253 then Secondary
  else if b =? 254 then Broadcast true
  else if b =? 255 then Broadcast false
  else Primary b.

(** crates/wired-mbus-link-layer/src/lib.rs:8-28 *)
Inductive wired_frame :=
| SingleCharacter (character : N)
| ShortFrame (f : function) (a : address)
| LongFrame (f : function) (a : address) (data : list N)
| ControlFrame (f : function) (a : address) (data : list N).

(** crates/wired-mbus-link-layer/src/lib.rs:139, the wrapping fold *)
Definition checksum (l : list N) : N :=
  fold_left (fun acc x => (acc + x) mod 256) l 0.

(** crates/wired-mbus-link-layer/src/lib.rs:128-149, [validate_checksum].
    [data.len() - 2] is a usize subtraction: it panics with overflow checks and
    wraps to a huge index (so [get] fails) without. *)
Definition validate_checksum (cf : config) (data : list N) : outcome frame_error unit :=
  checksum_byte_index <- sub_usize cf (len data) 2 ;;
  checksum_byte <- ok_or (get data checksum_byte_index) LengthShort ;;
  summed <- ok_or (get_to data checksum_byte_index) LengthShort ;;
  let calculated := checksum summed in
  if checksum_byte =? calculated then Ok tt
  else Err (WrongChecksum checksum_byte calculated).

(** crates/wired-mbus-link-layer/src/lib.rs:71-126, [TryFrom<&[u8]> for WiredFrame] *)
Definition wired_try_from (cf : config) (data : list N) : outcome frame_error wired_frame :=
  first_byte <- ok_or (get data 0) EmptyData ;;
  if first_byte =? 0xE5 then Ok (SingleCharacter 0xE5) else
  second_byte <- ok_or (get data 1) LengthShort ;;
  third_byte <- ok_or (get data 2) LengthShort ;;
  if first_byte =? 0x68 then
    body <- ok_or (get_from data 4) LengthShort ;;
    _ <- validate_checksum cf body ;;
    length <- ok_or (get data 1) LengthShort ;;
    if negb (second_byte =? third_byte) || negb (len data =? length + 6)
    then Err WrongLengthIndication else
    last <- ok_or (last_opt data) LengthShort ;;
    if negb (last =? 0x16) then Err InvalidStopByte else
    control_field <- ok_or (get data 4) LengthShort ;;
    address_field <- ok_or (get data 5) LengthShort ;;
    f <- function_try_from control_field ;;
    data_end <- sub_usize cf (len data) 2 ;;
    d <- ok_or (get_range data 6 data_end) LengthShort ;;
    if control_field =? 0x53
    then Ok (ControlFrame f (address_from address_field) d)
    else Ok (LongFrame f (address_from address_field) d)
  else if first_byte =? 0x10 then
    body <- ok_or (get_from data 1) LengthShort ;;
    _ <- validate_checksum cf body ;;
    if len data =? 5 then
      last <- ok_or (last_opt data) InvalidStopByte ;;
      if last =? 0x16 then
        f <- function_try_from second_byte ;;
        Ok (ShortFrame f (address_from third_byte))
      else Err LengthShort
    else Err LengthShort
  else Err InvalidStartByte.
