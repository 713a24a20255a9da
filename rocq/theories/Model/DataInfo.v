(** Model of crates/m-bus-application-layer/src/data_information.rs. *)
From Verif Require Import Model.Base Model.Core Model.F64.

(** crates/m-bus-application-layer/src/data_information.rs:171-177; the
    [&'static str] of [Unimplemented] is dropped. *)
Inductive data_information_error :=
| NoData
| DataTooLong
| DataTooShort
| InvalidValueInformation
| DUnimplemented.

(** crates/m-bus-application-layer/src/variable_user_data.rs:8-11 *)
Inductive data_record_error :=
| DataInformationError (e : data_information_error)
| RInsufficientData.

(** crates/m-bus-application-layer/src/lib.rs:751-755; [StatusField] is its bits, the
    configuration field its raw u16. *)
Record short_tpl_header := {
  sh_access_number : N;
  sh_status : N;
  sh_configuration_field : N
}.

(** crates/m-bus-application-layer/src/lib.rs:730-741; [manufacturer] is
    [Result<ManufacturerCode, ApplicationLayerError>] (never [Panic]). *)
Record long_tpl_header := {
  lh_identification_number : N;
  lh_manufacturer : outcome application_layer_error manufacturer_code;
  lh_version : N;
  lh_device_type : device_type;
  lh_short_tpl_header : short_tpl_header;
  lh_lsb_order : bool
}.

(** crates/m-bus-application-layer/src/data_information.rs:8-11; the field
    extensions are the slice of DIFE bytes. *)
Record data_information_block := {
  dib_dif : N;
  dib_difes : option (list N)
}.

(** data_information.rs:13-22, [DataInformationBlock::get_size] *)
Definition dib_get_size (b : data_information_block) : N :=
  1 + match dib_difes b with Some difes => len difes | None => 0 end.

(** data_information.rs:119-121 (and value_information.rs:172-180): bit 7 *)
Definition has_extension (b : N) : bool := negb (N.land b 0x80 =? 0).

(** data_information.rs:123-125 *)
Definition is_special_function (dif : N) : bool := N.land dif 0x0F =? 0x0F.

(** data_information.rs:911-917 *)
Inductive special_functions :=
| SFManufacturerSpecific
| SFMoreRecordsFollow
| SFIdleFiller
| SFReserved
| SFGlobalReadoutRequest.

(** data_information.rs:127-135, [special_function] *)
Definition special_function (dif : N) : special_functions :=
  if dif =? 0x0F then SFManufacturerSpecific
  else if dif =? 0x1F then SFMoreRecordsFollow
  else if dif =? 0x2F then SFIdleFiller
  else if dif =? 0x7F then SFGlobalReadoutRequest
  else SFReserved.

(** data_information.rs:94, [take_while(ext bit).count()] *)
Fixpoint count_ext (data : list N) : N :=
  match data with
  | [] => 0
  | b :: rest => if has_extension b then 1 + count_ext rest else 0
  end.

(** data_information.rs:161 *)
Definition MAXIMUM_DATA_INFORMATION_SIZE : N := 11.

(** data_information.rs:85-116, [TryFrom<&[u8]> for DataInformationBlock] *)
Definition dib_try_from (data : list N) : outcome data_information_error data_information_block :=
  match data with
  | [] => Err NoData
  | dif :: data =>
      let length := count_ext data in
      let offset := length + 1 in
      if has_extension dif && (MAXIMUM_DATA_INFORMATION_SIZE <? offset) then Err DataTooLong
      else if has_extension dif && (len data <? offset) then Err DataTooShort
      else if has_extension dif then
        difes <- ok_or (get_to data offset) DataTooShort ;;
        Ok {| dib_dif := dif; dib_difes := Some difes |}
      else Ok {| dib_dif := dif; dib_difes := None |}
  end.

(** data_information.rs:889-894 *)
Inductive function_field :=
| InstantaneousValue
| MaximumValue
| MinimumValue
| ValueDuringErrorState.

(** data_information.rs:929-950 *)
Inductive data_field_coding :=
| CNoData
| CInteger8Bit
| CInteger16Bit
| CInteger24Bit
| CInteger32Bit
| CReal32Bit
| CInteger48Bit
| CInteger64Bit
| CSelectionForReadout
| CBCD2Digit
| CBCD4Digit
| CBCD6Digit
| CBCD8Digit
| CVariableLength
| CBCDDigit12
| CSpecialFunctions (s : special_functions)
| CDateTypeG
| CDateTimeTypeF
| CDateTimeTypeJ
| CDateTimeTypeI.

(** data_information.rs:140-148; [data_information_extension] is [Some] of a unit
    struct, kept as a bool *)
Record data_information := {
  di_storage_number : N;
  di_tariff : N;
  di_device : N;
  di_function_field : function_field;
  di_data_field_coding : data_field_coding;
  di_extension : bool;
  di_size : N
}.

(** data_information.rs:213-227, the loop over the DIFEs.  State: storage number,
    tariff, device, extension bit, [extension_index], [tariff_index],
    [device_index].  The u64 sums and shifts stay below 2^50 because
    [extension_index <= 11], so no wrap is modelled. *)
Fixpoint dife_loop (difes : list N) (storage tariff device : N) (extension_bit : bool)
  (extension_index tariff_index device_index : N)
  : outcome data_information_error (N * N * N * bool * N) :=
  match difes with
  | [] => Ok (storage, tariff, device, extension_bit, extension_index)
  | dife :: rest =>
      if MAXIMUM_DATA_INFORMATION_SIZE <? extension_index then Err DataTooLong else
      dife_loop rest
        (storage + N.shiftl (N.land dife 0x0f) (extension_index * 4 + 1))
        (N.lor tariff (N.shiftl (N.shiftr (N.land dife 0x30) 4) tariff_index))
        (N.lor device (N.shiftl (N.shiftr (N.land dife 0x40) 6) device_index))
        (has_extension dife)
        (extension_index + 1) (tariff_index + 2) (device_index + 1)
  end.

(** data_information.rs:229-234 *)
Definition function_field_of (dif : N) : function_field :=
  let f := N.shiftr (N.land dif 0x30) 4 in
  if f =? 0 then InstantaneousValue
  else if f =? 1 then MaximumValue
  else if f =? 2 then MinimumValue
  else ValueDuringErrorState.

(** data_information.rs:235-257; the [unreachable!] arm needs a 4 bit value above 15 *)
Definition data_field_coding_of (dif : N) : data_field_coding :=
  let c := N.land dif 0x0F in
  if c =? 0 then CNoData
  else if c =? 1 then CInteger8Bit
  else if c =? 2 then CInteger16Bit
  else if c =? 3 then CInteger24Bit
  else if c =? 4 then CInteger32Bit
  else if c =? 5 then CReal32Bit
  else if c =? 6 then CInteger48Bit
  else if c =? 7 then CInteger64Bit
  else if c =? 8 then CSelectionForReadout
  else if c =? 9 then CBCD2Digit
  else if c =? 10 then CBCD4Digit
  else if c =? 11 then CBCD6Digit
  else if c =? 12 then CBCD8Digit
  else if c =? 13 then CVariableLength
  else if c =? 14 then CBCDDigit12
  else CSpecialFunctions (special_function dif).

(** data_information.rs:199-273, [TryFrom<&DataInformationBlock> for DataInformation] *)
Definition data_information_try_from (b : data_information_block)
  : outcome data_information_error data_information :=
  let dif := dib_dif b in
  let storage0 := N.shiftr (N.land dif 0x40) 6 in
  '(storage, tariff, device, ext, idx) <-
    match dib_difes b with
    | Some difes => dife_loop difes storage0 0 0 (has_extension dif) 1 0 0
    | None => Ok (storage0, 0, 0, has_extension dif, 1)
    end ;;
  Ok {| di_storage_number := storage;
        di_tariff := tariff;
        di_device := device;
        di_function_field := function_field_of dif;
        di_data_field_coding := data_field_coding_of dif;
        di_extension := ext;
        di_size := idx |}.

(** data_information.rs:319-332 *)
Inductive month :=
| January | February | March | April | May | June
| July | August | September | October | November | December.

(** data_information.rs:364-368 *)
Inductive single_every_or_invalid (T : Type) :=
| Single (x : T)
| Every
| Invalid.
Arguments Single {T} x.
Arguments Every {T}.
Arguments Invalid {T}.

(** data_information.rs:374-410 *)
Inductive data_type :=
| Text (t : list N)
| Number (x : f64)
| LossyNumber (x : f64)
| Date (day : single_every_or_invalid N) (m : single_every_or_invalid month)
       (year : single_every_or_invalid N)
| Time (second minute hour : single_every_or_invalid N)
| DateTime (day : single_every_or_invalid N) (m : single_every_or_invalid month)
           (year hour minute : single_every_or_invalid N)
| DateTimeWithSeconds (day : single_every_or_invalid N) (m : single_every_or_invalid month)
           (year hour minute second : single_every_or_invalid N)
| ManufacturerSpecific (d : list N).

(** data_information.rs:414-417 *)
Record data := { d_value : option data_type; d_size : N }.

(** data_information.rs:471-479, macro [parse_single_or_every]; every use has
    [$shift = 0] *)
Definition parse_single_or_every (input mask all_value : N) : single_every_or_invalid N :=
  if N.land input mask =? all_value then Every else Single (N.land input mask).

(** data_information.rs:481-499, macro [parse_month] *)
Definition parse_month (input : N) : single_every_or_invalid month :=
  let m := N.land input 0xF in
  if m =? 0x1 then Single January
  else if m =? 0x2 then Single February
  else if m =? 0x3 then Single March
  else if m =? 0x4 then Single April
  else if m =? 0x5 then Single May
  else if m =? 0x6 then Single June
  else if m =? 0x7 then Single July
  else if m =? 0x8 then Single August
  else if m =? 0x9 then Single September
  else if m =? 0xA then Single October
  else if m =? 0xB then Single November
  else if m =? 0xC then Single December
  else Invalid.

(** [input.get(i).copied().unwrap_or(0)], data_information.rs:503-504 *)
Definition get_or_0 (l : list N) (i : N) : N :=
  match get l i with Some b => b | None => 0 end.

(** data_information.rs:501-512, macro [parse_year] with the masks of every use
    (0xF0, 0xE0, 0x7F) as arguments *)
Definition parse_year (input : list N) (mask1 mask2 all_value : N) : single_every_or_invalid N :=
  let byte1 := N.land (get_or_0 input 1) mask1 in
  let byte2 := N.land (get_or_0 input 0) mask2 in
  let year := N.lor (N.shiftr byte1 1) (N.shiftr byte2 5) in
  if year =? all_value then Every else Single year.

(** data_information.rs:526-548, the loop of [bcd_to_value_internal]: [todo] rounds
    left, [i] the current one *)
Fixpoint bcd_value_loop (data : list N) (num_digits : N) (lsb_order : bool)
  (todo : nat) (i : N) (data_value current_weight : f64)
  : outcome data_record_error f64 :=
  match todo with
  | O => Ok data_value
  | S todo' =>
      let index := if lsb_order then (num_digits - i - 1) / 2 else i / 2 in
      byte <- ok_or (get data index) RInsufficientData ;;
      let digit := if i mod 2 =? 0 then N.land byte 0x0F
                   else N.land (N.shiftr byte 4) 0x0F in
      if 9 <? digit then Err (DataInformationError InvalidValueInformation) else
      bcd_value_loop data num_digits lsb_order todo' (i + 1)
        (f64_add data_value (f64_mul (f64_of_Z (Z.of_N digit)) current_weight))
        (f64_mul current_weight (f64_of_Z 10))
  end.

(** data_information.rs:513-556, [bcd_to_value_internal] *)
Definition bcd_to_value_internal (data : list N) (num_digits : N) (sign : Z) (lsb_order : bool)
  : outcome data_record_error Model.DataInfo.data :=
  if len data <? (num_digits + 1) / 2 then Err RInsufficientData else
  data_value <- bcd_value_loop data num_digits lsb_order (N.to_nat num_digits) 0
                  (S754_zero false) (f64_of_Z 1) ;;
  let signed_value := f64_mul data_value (f64_of_Z sign) in
  Ok {| d_value := Some (Number signed_value); d_size := (num_digits + 1) / 2 |}.

(** data_information.rs:561-564: bytes are or-ed together little-endian; [shift]
    starts at 0.  The i64 bit pattern is kept as an unsigned [N]. *)
Fixpoint integer_loop (data : list N) (acc shift : N) : N * N :=
  match data with
  | [] => (acc, shift)
  | b :: rest => integer_loop rest (N.lor acc (N.shiftl b shift)) (shift + 8)
  end.

(** reading a 64 bit pattern as i64 *)
Definition i64_of_bits (w : N) : Z :=
  if w <? 2 ^ 63 then Z.of_N w else (Z.of_N w - 2 ^ 64)%Z.

(** data_information.rs:558-582, [integer_to_value_internal].  [shift - 1] is a u32
    subtraction: with no bytes it panics in a debug build; in a release build it
    wraps and the masked shift by 63 of 0 gives 0. *)
Definition integer_to_value_internal {E} (cf : config) (data : list N) (byte_size : N)
  : outcome E Model.DataInfo.data :=
  let '(bits, shift) :=
    integer_loop (firstn (N.to_nat (if 8 <? byte_size then 8 else byte_size)) data) 0 0 in
  msb_shift <- (if 1 <=? shift then Ok (shift - 1)
                else if overflow_checks cf then Panic POverflow
                else Ok 63) ;;
  let msb := N.testbit bits msb_shift in
  let value :=
    if (byte_size <? 8) && msb
    then (- (Z.of_N (N.lxor bits (2 ^ shift - 1)) + 1))%Z
    else i64_of_bits bits in
  Ok {| d_value := Some (if 8 <? byte_size then LossyNumber (f64_of_Z value)
                         else Number (f64_of_Z value));
        d_size := byte_size |}.

(** data_information.rs:602-609, macro [integer_to_value] *)
Definition integer_to_value (cf : config) (data : list N) (byte_size : N)
  : outcome data_record_error Model.DataInfo.data :=
  if len data <? byte_size then Err RInsufficientData
  else integer_to_value_internal cf data byte_size.

(** data_information.rs:669-672 etc.: the LVAR byte is added to the size *)
Definition plus_one (d : Model.DataInfo.data) : Model.DataInfo.data :=
  {| d_value := d_value d; d_size := d_size d + 1 |}.

(** data_information.rs:652-745, arm [VariableLength] *)
Definition parse_variable_length (cf : config) (input : list N) (lsb_order : bool)
  : outcome data_record_error Model.DataInfo.data :=
  length <- ok_or (get input 0) RInsufficientData ;;
  if length <=? 0xBF then
    t <- ok_or (get_range input 1 (1 + length)) RInsufficientData ;;
    Ok {| d_value := Some (Text t); d_size := length + 1 |}
  else if (0xC0 <=? length) && (length <=? 0xC9) then
    let length := length - 0xC0 in
    bytes <- ok_or (get_range input 1 (1 + length)) RInsufficientData ;;
    d <- bcd_to_value_internal bytes (2 * length) 1 lsb_order ;;
    Ok (plus_one d)
  else if (0xD0 <=? length) && (length <=? 0xD9) then
    let length := length - 0xD0 in
    bytes <- ok_or (get_range input 1 (1 + length)) RInsufficientData ;;
    d <- bcd_to_value_internal bytes (2 * length) (-1) lsb_order ;;
    Ok (plus_one d)
  else if (0xE0 <=? length) && (length <=? 0xEF) then
    let length := length - 0xE0 in
    bytes <- ok_or (get_range input 1 (1 + length)) RInsufficientData ;;
    d <- integer_to_value cf bytes length ;;
    Ok (plus_one d)
  else if (0xF0 <=? length) && (length <=? 0xF4) then
    let length := length - 0xEC in
    bytes <- ok_or (get_range input 1 (1 + 4 * length)) RInsufficientData ;;
    d <- integer_to_value cf bytes (4 * length) ;;
    Ok (plus_one d)
  else if length =? 0xF5 then
    bytes <- ok_or (get_range input 1 (1 + 48)) RInsufficientData ;;
    d <- integer_to_value cf bytes 48 ;;
    Ok (plus_one d)
  else if length =? 0xF6 then
    bytes <- ok_or (get_range input 1 (1 + 64)) RInsufficientData ;;
    d <- integer_to_value cf bytes 64 ;;
    Ok (plus_one d)
  else Err (DataInformationError DUnimplemented).

(** data_information.rs:584-877, [DataFieldCoding::parse] *)
Definition coding_parse (cf : config) (c : data_field_coding) (input : list N)
  (fixed_data_header : option long_tpl_header)
  : outcome data_record_error Model.DataInfo.data :=
  let lsb_order := match fixed_data_header with
                   | Some h => lh_lsb_order h | None => false end in
  let bcd n := bcd_to_value_internal input n 1 lsb_order in
  let nodata := Ok {| d_value := None; d_size := 0 |} in
  let byte i := ok_or (get input i) RInsufficientData in
  match c with
  | CNoData => nodata
  | CInteger8Bit => integer_to_value cf input 1
  | CInteger16Bit => integer_to_value cf input 2
  | CInteger24Bit => integer_to_value cf input 3
  | CInteger32Bit => integer_to_value cf input 4
  | CInteger48Bit => integer_to_value cf input 6
  | CInteger64Bit => integer_to_value cf input 8
  | CReal32Bit =>
      if len input <? 4 then Err RInsufficientData else
      b0 <- byte 0 ;; b1 <- byte 1 ;; b2 <- byte 2 ;; b3 <- byte 3 ;;
      Ok {| d_value := Some (Number (f64_of_f32_bits (u32_le b0 b1 b2 b3))); d_size := 4 |}
  | CSelectionForReadout => nodata
  | CBCD2Digit => bcd 2
  | CBCD4Digit => bcd 4
  | CBCD6Digit => bcd 6
  | CBCD8Digit => bcd 8
  | CBCDDigit12 => bcd 12
  | CVariableLength => parse_variable_length cf input lsb_order
  | CSpecialFunctions SFManufacturerSpecific
  | CSpecialFunctions SFMoreRecordsFollow =>
      Ok {| d_value := Some (ManufacturerSpecific input); d_size := len input |}
  | CSpecialFunctions SFIdleFiller => nodata
  | CSpecialFunctions SFGlobalReadoutRequest => nodata
  | CSpecialFunctions SFReserved => Err (DataInformationError InvalidValueInformation)
  | CDateTypeG =>
      b0 <- byte 0 ;;
      let day := parse_single_or_every b0 0x1F 0 in
      b1 <- byte 1 ;;
      let m := parse_month b1 in
      let year := parse_year input 0xF0 0xE0 0x7F in
      Ok {| d_value := Some (Date day m year); d_size := 2 |}
  | CDateTimeTypeF =>
      b0 <- byte 0 ;;
      let minutes := parse_single_or_every b0 0x3F 0x3F in
      b1 <- byte 1 ;;
      let hour := parse_single_or_every b1 0x1F 0x1F in
      b2 <- byte 2 ;;
      let day := parse_single_or_every b2 0x1F 0x1F in
      b3 <- byte 3 ;;
      let m := parse_month b3 in
      let year := parse_year input 0xF0 0xE0 0x7F in
      Ok {| d_value := Some (DateTime day m year hour minutes); d_size := 4 |}
  | CDateTimeTypeJ =>
      b0 <- byte 0 ;;
      let seconds := parse_single_or_every b0 0x3F 0x3F in
      b1 <- byte 1 ;;
      let minutes := parse_single_or_every b1 0x3F 0x3F in
      b2 <- byte 2 ;;
      let hours := parse_single_or_every b2 0x1F 0x1F in
      Ok {| d_value := Some (Time seconds minutes hours); d_size := 4 |}
  | CDateTimeTypeI =>
      b0 <- byte 0 ;;
      let seconds := parse_single_or_every b0 0x3F 0x3F in
      b1 <- byte 1 ;;
      let minutes := parse_single_or_every b1 0x3F 0x3F in
      b2 <- byte 2 ;;
      let hours := parse_single_or_every b2 0x1F 0x1F in
      b3 <- byte 3 ;;
      let days := parse_single_or_every b3 0x1F 0x1F in
      b4 <- byte 4 ;;
      let months := parse_month b4 in
      let year := parse_year input 0xF0 0xE0 0x7F in
      Ok {| d_value := Some (DateTimeWithSeconds days months year hours minutes seconds);
            d_size := 6 |}
  end.
