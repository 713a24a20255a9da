(** Model of crates/wireless-mbus-link-layer/src/lib.rs. *)
From Verif Require Import Model.Base Model.Core.

(** crates/wireless-mbus-link-layer/src/lib.rs:9-15, one iteration of the bit loop
    of [crc16_en13757] (u16 shift left drops bit 16) *)
Definition crc_bit (crc : N) : N :=
  if N.land crc 0x8000 =? 0 then N.land (N.shiftl crc 1) 0xFFFF
  else N.lxor (N.land (N.shiftl crc 1) 0xFFFF) 0x3D65.

(** crates/wireless-mbus-link-layer/src/lib.rs:7-16, one byte *)
Definition crc_byte (crc byte : N) : N :=
  let c := N.lxor crc (N.shiftl byte 8) in
  crc_bit (crc_bit (crc_bit (crc_bit (crc_bit (crc_bit (crc_bit (crc_bit c))))))).

(** crates/wireless-mbus-link-layer/src/lib.rs:5-18 and its copy
    src/annotate.rs:1304-1317, [crc16_en13757] *)
Definition crc16_en13757 (data : list N) : N :=
  N.lxor (fold_left crc_byte data 0) 0xFFFF.

(** crates/wireless-mbus-link-layer/src/lib.rs:22-30, [trailing_frame_crc_start] *)
Definition trailing_frame_crc_start {E} (data : list N) : outcome E (option N) :=
  if len data <? 2 then Ok None else
  let crc_start := len data - 2 in
  if crc_start <? 10 then Ok None else
  hi <- index data crc_start ;;
  lo <- index data (crc_start + 1) ;;
  prefix <- index_range data 0 crc_start ;;
  Ok (if crc16_en13757 prefix =? u16_be hi lo then Some crc_start else None).

(** [output[at..at + src.len()].copy_from_slice(src)], panics out of bounds;
    crates/wireless-mbus-link-layer/src/lib.rs:52, 58, 74, 84 *)
Definition copy_at (output : list N) (at_ : N) (src : list N) : outcome unit (list N) :=
  if at_ + len src <=? len output then
    Ok (firstn (N.to_nat at_) output ++ src
          ++ skipn (N.to_nat (at_ + len src)) output)
  else Panic PIndex.

(** crates/wireless-mbus-link-layer/src/lib.rs:66-80, the search for the longest data
    length [1..=data_len] (tried downwards) with a matching CRC at [pos] *)
Fixpoint find_block (data : list N) (pos : N) (data_len : nat) : outcome unit (option N) :=
  match data_len with
  | O => Ok None
  | S d =>
      let dl := N.of_nat data_len in
      let crc_start := pos + dl in
      if len data <? crc_start + 2 then find_block data pos d else
      block <- index_range data pos crc_start ;;
      hi <- index data crc_start ;;
      lo <- index data (crc_start + 1) ;;
      if crc16_en13757 block =? u16_be hi lo then Ok (Some dl)
      else find_block data pos d
  end.

(** crates/wireless-mbus-link-layer/src/lib.rs:54-88, the block loop.  State is
    (output, out_pos, pos).  [fuel] bounds the iterations; [Err tt] = out of fuel,
    which never happens with the fuel given below (WirelessFacts.v). *)
Fixpoint strip_loop (fuel : nat) (data output : list N) (out_pos pos : N)
  : outcome unit (list N * N) :=
  match fuel with
  | O => Err tt
  | S fuel' =>
      if len data <=? pos then Ok (output, out_pos) else
      let remaining := len data - pos in
      if remaining <? 3 then
        tail <- index_range data pos (pos + remaining) ;;
        output' <- copy_at output out_pos tail ;;
        Ok (output', out_pos + remaining)
      else
        let max_data_len := N.min 16 (remaining - 2) in
        found <- find_block data pos (N.to_nat max_data_len) ;;
        match found with
        | Some data_len =>
            block <- index_range data pos (pos + data_len) ;;
            output' <- copy_at output out_pos block ;;
            strip_loop fuel' data output' (out_pos + data_len) (pos + data_len + 2)
        | None =>
            tail <- index_range data pos (len data) ;;
            output' <- copy_at output out_pos tail ;;
            Ok (output', out_pos + remaining)
        end
  end.

(** crates/wireless-mbus-link-layer/src/lib.rs:41-92, [strip_format_a_crcs].
    Returns the option of the Rust function together with the final contents of
    the output buffer, of which the Rust result is the prefix of length
    [out_pos]. [Err tt] only stands for the model running out of fuel. *)
Definition strip_format_a_crcs (data output : list N)
  : outcome unit (option (list N) * list N) :=
  if (len data <? 12) || (len output <? len data) then Ok (None, output) else
  head <- index_range data 0 10 ;;
  hi <- index data 10 ;;
  lo <- index data 11 ;;
  if negb (crc16_en13757 head =? u16_be hi lo) then Ok (None, output) else
  output1 <- copy_at output 0 head ;;
  '(output2, out_pos) <- strip_loop (S (length data)) data output1 10 12 ;;
  (* output[0] = (out_pos - 1) as u8 *)
  output3 <- copy_at output2 0 [(out_pos - 1) mod 256] ;;
  result <- index_range output3 0 out_pos ;;
  Ok (Some result, output3).

(** crates/wireless-mbus-link-layer/src/lib.rs:161-167 *)
Inductive wl_frame_error :=
| WlEmptyData
| WlTooShort
| WlWrongLength (expected actual : N).

(** crates/wireless-mbus-link-layer/src/lib.rs:111-119; [is_unique_globally] is the
    constant false (line 156) and kept as a field. *)
Record manufacturer_id := {
  mi_manufacturer_code : manufacturer_code;
  mi_identification_number : N;
  mi_device_type : device_type;
  mi_version : N;
  mi_is_unique_globally : bool
}.

(** [.map_err(|_| FrameError::TooShort)?], lines 130 and 137 *)
Definition or_too_short {E A} (x : outcome E A) : outcome wl_frame_error A :=
  map_err (fun _ => WlTooShort) x.

(** crates/wireless-mbus-link-layer/src/lib.rs:121-159, [TryFrom<&[u8]> for
    ManufacturerId]; the iterator reads bytes 0..7 in order. *)
Definition manufacturer_id_try_from (data : list N)
  : outcome wl_frame_error manufacturer_id :=
  m0 <- ok_or (get data 0) WlTooShort ;;
  m1 <- ok_or (get data 1) WlTooShort ;;
  code <- or_too_short (mc_from_id (u16_le m0 m1)) ;;
  i0 <- ok_or (get data 2) WlTooShort ;;
  i1 <- ok_or (get data 3) WlTooShort ;;
  i2 <- ok_or (get data 4) WlTooShort ;;
  i3 <- ok_or (get data 5) WlTooShort ;;
  number <- or_too_short (bcd_hex_digits_to_u32 [i0; i1; i2; i3]) ;;
  version <- ok_or (get data 6) WlTooShort ;;
  device_byte <- ok_or (get data 7) WlTooShort ;;
  ci_byte <- ok_or (get data 8) WlTooShort ;;
  let device_type_code :=
    if (0xA0 <=? ci_byte) && (ci_byte <=? 0xAF)
    then N.land (N.shiftr device_byte 4) 0x0F else device_byte in
  Ok {| mi_manufacturer_code := code;
        mi_identification_number := number;
        mi_device_type := device_type_from_u8 device_type_code;
        mi_version := version;
        mi_is_unique_globally := false |}.

(** crates/wireless-mbus-link-layer/src/lib.rs:96-109 *)
Record wireless_frame := {
  wf_control_field : N;
  wf_function : option function;
  wf_manufacturer_id : manufacturer_id;
  wf_data : list N
}.

(** [Function::try_from(..).ok()], line 183 *)
Definition ok_opt {E A} (x : outcome E A) : option A :=
  match x with Ok a => Some a | _ => None end.

(** crates/wireless-mbus-link-layer/src/lib.rs:169-194, [TryFrom<&[u8]> for
    WirelessFrame] *)
Definition wireless_try_from (data : list N) : outcome wl_frame_error wireless_frame :=
  length_byte <- ok_or (get data 0) WlEmptyData ;;
  control_field <- ok_or (get data 1) WlTooShort ;;
  tail <- index_range data 2 (len data) ;;
  mid <- manufacturer_id_try_from tail ;;
  if length_byte + 1 =? len data then
    crc_start <- trailing_frame_crc_start data ;;
    let data_end := match crc_start with Some n => n | None => len data end in
    d <- index_range data 10 data_end ;;
    Ok {| wf_control_field := control_field;
          wf_function := ok_opt (function_try_from control_field);
          wf_manufacturer_id := mid;
          wf_data := d |}
  else Err (WlWrongLength (length_byte + 1) (len data)).
