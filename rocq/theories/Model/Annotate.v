(** Model of src/annotate.rs: the labelled byte ranges of a frame.  The text of
    a segment ([detail]) is modelled in AnnotateText.v. *)
From Verif Require Import Model.Base Model.Core Model.Wired Model.Wireless Model.DataInfo Model.ValueInfo Model.Record
  Model.MbusData.

(** src/annotate.rs:19-56 *)
Inductive segment_kind :=
| KStartByte | KLength | KCField | KAField | KChecksum | KStopByte
| KCiField | KIdentificationNumber | KManufacturerCode | KVersion | KDeviceType
| KAccessNumber | KStatus | KConfigurationField | KEncryptionConfigByte
| KDif | KDife | KVif | KVife | KPlaintextVif | KDataPayload
| KLField | KWirelessManufacturerId | KCrc
| KExtendedLinkLayer
| KEncryptedPayload | KManufacturerSpecific
| KIdleFiller | KUnknown.

(** src/annotate.rs:98-102 *)
Inductive layer := LFrame | LAppHeader | LRecordField.

(** src/annotate.rs:107-120, without [detail] *)
Record segment := {
  s_start : N;
  s_end : N;
  s_kind : segment_kind;
  s_group : option N;
  s_layer : layer
}.

(** a [ByteSegment { .. }] literal of src/annotate.rs *)
Definition seg (a b : N) (k : segment_kind) (g : option N) (l : layer) : segment :=
  {| s_start := a; s_end := b; s_kind := k; s_group := g; s_layer := l |}.

(** the errors of the functions below; [AFuel] is the model running out of fuel, which
    never happens (Proof/AnnotateFacts.v) *)
Inductive annotate_error := AError (e : mbus_error) | AFuel.

(** src/annotate.rs:859-967, the segments of one record that was parsed, at [at_] (the
    absolute offset [base + offset]).  Result: segments, bytes advanced, and whether
    the loop goes on.  [avail] is [data.len() - offset] at the start of the record. *)
Definition record_segments (r : data_record) (at_ avail record_index : N) : list segment * N * bool :=
  let raw := drh_raw (dr_header r) in
  let g := Some record_index in
  let f a n k := if 0 <? n then [seg (at_ + a) (at_ + a + n) k g LRecordField] else [] in
  let header_size := header_get_size (dr_header r) in
  let total_size := dr_get_size r in
  let dife_count := dib_get_size (rh_dib raw) - 1 in
  let o := 1 + dife_count in
  let '(vib_segments, o) :=
    match rh_vib raw with
    | None => ([], o)
    | Some vib =>
        let vife_count := match vib_vifes vib with Some l => len l | None => 0 end in
        let pt := match vib_plaintext vib with
                  | Some p => [seg (at_ + (o + 1 + vife_count)) (at_ + (o + 1 + vife_count) + (len p + 1))
                                 KPlaintextVif g LRecordField]
                  | None => [] end in
        let pt_size := match vib_plaintext vib with Some p => len p + 1 | None => 0 end in
        (f o 1 KVif ++ f (o + 1) vife_count KVife ++ pt, o + 1 + vife_count + pt_size)
    end in
  let data_size := total_size - header_size in
  let emit_size := N.min data_size (avail - o) in
  (f 0 1 KDif ++ f 1 dife_count KDife ++ vib_segments ++ f o emit_size KDataPayload,
   o + emit_size,
   negb ((0 <? data_size) && (emit_size <? data_size))).

(** src/annotate.rs:792-988, [annotate_data_records]: the segments pushed.  Each round
    of the loop uses one unit of fuel. *)
Fixpoint annotate_records_loop (cf : config) (fuel : nat) (base : N) (data : list N) (offset record_index : N)
  : outcome annotate_error (list segment) :=
  match fuel with
  | O => Err AFuel
  | S fuel' =>
      if negb (offset <? len data) then Ok [] else
      match get data offset with
      | None => Ok []
      | Some dif_byte =>
          if N.land dif_byte 0x0F =? 0x0F then
            if dif_byte =? 0x2F then
              rest <- annotate_records_loop cf fuel' base data (offset + 1) record_index ;;
              Ok (seg (base + offset) (base + offset + 1) KIdleFiller None LRecordField :: rest)
            else if (dif_byte =? 0x0F) || (dif_byte =? 0x1F) then
              Ok [seg (base + offset) (base + len data) KManufacturerSpecific (Some record_index) LRecordField]
            else
              rest <- annotate_records_loop cf fuel' base data (offset + 1) record_index ;;
              Ok (seg (base + offset) (base + offset + 1) KUnknown None LRecordField :: rest)
          else
            remaining <- index_range data offset (len data) ;;
            match data_record_parse cf remaining None with
            | Ok record =>
                let '(segments, advance, go_on) :=
                  record_segments record (base + offset) (len data - offset) record_index in
                if go_on then
                  rest <- annotate_records_loop cf fuel' base data (offset + advance) (record_index + 1) ;;
                  Ok (segments ++ rest)
                else Ok segments
            | Err _ => Ok [seg (base + offset) (base + len data) KUnknown None LRecordField]
            | Panic p => Panic p
            end
      end
  end.
Definition annotate_data_records (cf : config) (base : N) (data : list N)
  : outcome annotate_error (list segment) :=
  annotate_records_loop cf (S (length data)) base data 0 0.

(** src/annotate.rs:1320-1330, [is_long_tpl_encrypted] *)
Definition is_long_tpl_encrypted {E} (app_data : list N) : outcome E bool :=
  if len app_data <? 13 then Ok false else
  c0 <- index app_data 11 ;;
  c1 <- index app_data 12 ;;
  Ok (match configuration_security_mode (configuration_field_from_bytes c0 c1) with
      | NoEncryption => false | _ => true end).

(** src/annotate.rs:1333-1345, [is_short_tpl_encrypted] *)
Definition is_short_tpl_encrypted {E} (app_data : list N) (skip_count : N) : outcome E bool :=
  if len app_data <? skip_count + 4 then Ok false else
  c0 <- index app_data (skip_count + 2) ;;
  c1 <- index app_data (skip_count + 3) ;;
  Ok (match configuration_security_mode (configuration_field_from_bytes c0 c1) with
      | NoEncryption => false | _ => true end).

(** src/annotate.rs:681-788, [annotate_long_tpl_header] *)
Definition long_tpl_segments (base : N) : list segment :=
  let h a b k := seg (base + a) (base + b) k None LAppHeader in
  [ h 0 1 KCiField; h 1 5 KIdentificationNumber; h 5 7 KManufacturerCode; h 7 8 KVersion;
    h 8 9 KDeviceType; h 9 10 KAccessNumber; h 10 11 KStatus; h 11 13 KConfigurationField ].

(** src/annotate.rs:399-413 and 501-515: the data after a transport header *)
Definition payload_segments (cf : config) (encrypted : bool) (start : N) (data : list N)
  : outcome annotate_error (list segment) :=
  if encrypted then
    Ok (match data with
        | [] => []
        | _ => [seg start (start + len data) KEncryptedPayload None LRecordField]
        end)
  else annotate_data_records cf start data.

(** src/annotate.rs:370-679, [annotate_application_layer]: the segments pushed.  The
    recursion of the ELL I arm (535-578) is on the slice after three bytes. *)
Fixpoint annotate_application_layer (cf : config) (base : N) (app_data : list N)
  : outcome annotate_error (list segment) :=
  match app_data with
  | [] => Ok []
  | ci :: tail =>
      let h a b k := seg (base + a) (base + b) k None LAppHeader in
      let incomplete := [seg base (base + len app_data) KUnknown None LAppHeader] in
      if (ci =? 0x72) || (ci =? 0x76) then
        if len app_data <? 13 then Ok incomplete else
        records_data <- index_range app_data 13 (len app_data) ;;
        encrypted <- is_long_tpl_encrypted app_data ;;
        rest <- payload_segments cf encrypted (base + 13) records_data ;;
        Ok (long_tpl_segments base ++ rest)
      else if (ci =? 0x7A) || ((0xA0 <=? ci) && (ci <=? 0xAF)) then
        let has_enc_config := ci =? 0xA0 in
        let skip_count := if has_enc_config then 2 else 1 in
        let data_block_offset := if has_enc_config then 6 else 5 in
        if len app_data <? data_block_offset then Ok incomplete else
        records_data <- index_range app_data data_block_offset (len app_data) ;;
        encrypted <- is_short_tpl_encrypted app_data skip_count ;;
        let o := skip_count in
        rest <- payload_segments cf encrypted (base + (o + 4)) records_data ;;
        Ok ([h 0 1 KCiField] ++ (if has_enc_config then [h 1 2 KEncryptionConfigByte] else [])
            ++ [h o (o + 1) KAccessNumber; h (o + 1) (o + 2) KStatus; h (o + 2) (o + 4) KConfigurationField]
            ++ rest)
      else if ci =? 0x78 then
        rest <- match tail with [] => Ok [] | _ => annotate_data_records cf (base + 1) tail end ;;
        Ok (h 0 1 KCiField :: rest)
      else if ci =? 0x8C then
        match tail with
        | _ :: _ :: inner =>
            rest <- match inner with [] => Ok [] | _ => annotate_application_layer cf (base + 3) inner end ;;
            Ok ([h 0 1 KCiField; h 1 3 KExtendedLinkLayer] ++ rest)
        | _ => Ok incomplete
        end
      else if ci =? 0x8D then
        if len app_data <? 9 then Ok incomplete else
        remaining <- index_range app_data 9 (len app_data) ;;
        rest <- match remaining with [] => Ok [] | _ => annotate_data_records cf (base + 9) remaining end ;;
        Ok ([h 0 1 KCiField; h 1 9 KExtendedLinkLayer] ++ rest)
      else if ci =? 0x8E then
        if len app_data <? 17 then Ok incomplete else
        remaining <- index_range app_data 17 (len app_data) ;;
        rest <- match remaining with [] => Ok [] | _ => annotate_data_records cf (base + 17) remaining end ;;
        Ok ([h 0 1 KCiField; h 1 17 KExtendedLinkLayer] ++ rest)
      else Ok incomplete
  end.

(** src/annotate.rs:266-366, [annotate_long_or_control_frame] *)
Definition annotate_long_or_control (cf : config) (data user_data : list N) (is_control : bool)
  : outcome annotate_error (list segment) :=
  let fr a b k := seg a b k None LFrame in
  let user_data_start := 6 in
  let user_data_end := user_data_start + len user_data in
  body <- match user_data with
          | [] => Ok []
          | _ => if is_control
                 then Ok [seg user_data_start user_data_end KUnknown None LAppHeader]
                 else annotate_application_layer cf user_data_start user_data
          end ;;
  let cs_offset := user_data_end in
  let stop_offset := cs_offset + 1 in
  Ok ([fr 0 1 KStartByte; fr 1 3 KLength; fr 3 4 KStartByte; fr 4 5 KCField; fr 5 6 KAField]
      ++ body
      ++ (if cs_offset <? len data then [fr cs_offset (cs_offset + 1) KChecksum] else [])
      ++ (if stop_offset <? len data then [fr stop_offset (stop_offset + 1) KStopByte] else [])).

(** src/annotate.rs:157-264, [annotate_wired] *)
Definition annotate_wired (cf : config) (data : list N) : outcome annotate_error (list segment) :=
  frame <- map_err (fun e => AError (MFrameError e)) (wired_try_from cf data) ;;
  let fr a b k := seg a b k None LFrame in
  match frame with
  | SingleCharacter _ => Ok [fr 0 1 KStartByte]
  | ShortFrame _ _ => Ok [fr 0 1 KStartByte; fr 1 2 KCField; fr 2 3 KAField; fr 3 4 KChecksum; fr 4 5 KStopByte]
  | LongFrame _ _ d => annotate_long_or_control cf data d false
  | ControlFrame _ _ d => annotate_long_or_control cf data d true
  end.

(** src/annotate.rs:1135-1236, [annotate_wireless_inner] *)
Definition annotate_wireless_inner (cf : config) (data : list N) : outcome annotate_error (list segment) :=
  _ <- map_err (fun e => AError (MWirelessFrameError e)) (wireless_try_from data) ;;
  let fr a b k := seg a b k None LFrame in
  crc_start <- trailing_frame_crc_start data ;;
  let app_end := match crc_start with Some s => s | None => len data end in
  body <- (if 10 <? app_end then
             app_data <- index_range data 10 app_end ;;
             annotate_application_layer cf 10 app_data
           else Ok []) ;;
  Ok ([fr 0 1 KLField; fr 1 2 KCField; fr 2 4 KManufacturerCode; fr 4 8 KIdentificationNumber;
       fr 8 9 KVersion; fr 9 10 KDeviceType]
      ++ body
      ++ match crc_start with Some s => [fr s (len data) KCrc] | None => [] end).

(** [a, a+1, .., a+n-1] *)
Definition range (a : N) (n : N) : list N := map (fun i => a + N.of_nat i) (seq 0 (N.to_nat n)).

(** an [outcome unit] of the wireless model in the functions below *)
Definition no_fuel {A} (x : outcome unit A) : outcome annotate_error A := map_err (fun _ => AFuel) x.

(** src/annotate.rs:1257-1298, the block loop of [build_format_a_offset_map].  The
    search in 1269-1288 is the one of [strip_format_a_crcs] ([find_block]), written
    once more. *)
Fixpoint offset_map_loop (fuel : nat) (original : list N) (pos : N) : outcome annotate_error (list N) :=
  match fuel with
  | O => Err AFuel
  | S fuel' =>
      if negb (pos <? len original) then Ok [] else
      let remaining := len original - pos in
      if remaining <? 3 then Ok (range pos remaining) else
      found <- no_fuel (find_block original pos (N.to_nat (N.min 16 (remaining - 2)))) ;;
      match found with
      | Some data_len =>
          rest <- offset_map_loop fuel' original (pos + data_len + 2) ;;
          Ok (range pos data_len ++ rest)
      | None => Ok (range pos remaining)
      end
  end.

(** src/annotate.rs:1243-1301, [build_format_a_offset_map] *)
Definition build_format_a_offset_map (original : list N) : outcome annotate_error (list N) :=
  let map := range 0 (N.min 10 (len original)) in
  if len original <? 12 then Ok map else
  rest <- offset_map_loop (S (length original)) original 12 ;;
  Ok (map ++ rest).

(** src/annotate.rs:1041-1066, the positions of the later CRCs.  The search in
    1049-1063 is [find_block] again. *)
Fixpoint crc_positions_loop (fuel : nat) (original : list N) (pos : N) : outcome annotate_error (list (N * N)) :=
  match fuel with
  | O => Err AFuel
  | S fuel' =>
      if negb (pos <? len original) then Ok [] else
      let remaining := len original - pos in
      if remaining <? 3 then Ok [] else
      found <- no_fuel (find_block original pos (N.to_nat (N.min 16 (remaining - 2)))) ;;
      match found with
      | Some data_len =>
          let crc_start := pos + data_len in
          rest <- crc_positions_loop fuel' original (crc_start + 2) ;;
          Ok ((crc_start, crc_start + 2) :: rest)
      | None => Ok []
      end
  end.

(** src/annotate.rs:1033-1066 *)
Definition crc_positions (original : list N) : outcome annotate_error (list (N * N)) :=
  rest <- crc_positions_loop (S (length original)) original 12 ;;
  Ok ((if 12 <=? len original then [(10, 12)] else []) ++ rest).

(** src/annotate.rs:1007-1030, one segment of the stripped frame at its original offsets *)
Definition map_segment (offset_map : list N) (s : segment) : segment :=
  let last_end := match last_opt offset_map with Some o => o + 1 | None => s_end s end in
  let orig_start := match get offset_map (s_start s) with Some o => o | None => s_start s end in
  let orig_end :=
    if s_end s <=? len offset_map then
      if s_end s <? len offset_map then
        match get offset_map (s_end s) with Some o => o | None => 0 end
      else last_end
    else last_end in
  seg orig_start orig_end (s_kind s) (s_group s) (s_layer s).

(** [segments.iter().position(|s| s.start >= crc_start).unwrap_or(len)], src/annotate.rs:1085-1088 *)
Fixpoint insert_position (segments : list segment) (crc_start : N) : nat :=
  match segments with
  | [] => O
  | s :: rest => if crc_start <=? s_start s then O else S (insert_position rest crc_start)
  end.

(** src/annotate.rs:1069-1126, one round of the loop that inserts the CRC segments *)
Definition insert_crc (segments : list segment) (crc : N * N) : list segment :=
  let '(crc_start, crc_end) := crc in
  let crc_seg := seg crc_start crc_end KCrc None LFrame in
  let n := insert_position segments crc_start in
  let before := firstn n segments in
  let after := skipn n segments in
  match last_opt before with
  | Some prev =>
      if crc_start <? s_end prev then
        firstn (n - 1) segments
          ++ [seg (s_start prev) crc_start (s_kind prev) (s_group prev) (s_layer prev); crc_seg]
          ++ (if crc_end <? s_end prev
              then [seg crc_end (s_end prev) (s_kind prev) (s_group prev) (s_layer prev)] else [])
          ++ after
      else before ++ crc_seg :: after
  | None => before ++ crc_seg :: after
  end.

(** src/annotate.rs:994-1132, [annotate_wireless_format_a] *)
Definition annotate_wireless_format_a (cf : config) (original stripped : list N)
  : outcome annotate_error (list segment) :=
  offset_map <- build_format_a_offset_map original ;;
  stripped_segments <- annotate_wireless_inner cf stripped ;;
  positions <- crc_positions original ;;
  let segments := fold_left insert_crc positions (map (map_segment offset_map) stripped_segments) in
  Ok (filter (fun s => s_start s <? s_end s) segments).

(** src/annotate.rs:131-153, [annotate_frame] *)
Definition annotate_frame (cf : config) (data : list N) : outcome annotate_error (list segment) :=
  match annotate_wired cf data with
  | Panic p => Panic p
  | Ok segments => Ok segments
  | Err AFuel => Err AFuel
  | Err (AError _) =>
      '(stripped, _) <- no_fuel (strip_format_a_crcs data (repeat 0 512)) ;;
      let plain :=
        match annotate_wireless_inner cf data with
        | Panic p => Panic p
        | Ok segments => Ok segments
        | Err AFuel => Err AFuel
        | Err (AError _) => Err (AError (MFrameError InvalidStartByte))
        end in
      match stripped with
      | Some s =>
          match annotate_wireless_format_a cf data s with
          | Panic p => Panic p
          | Ok segments => Ok segments
          | Err AFuel => Err AFuel
          | Err (AError _) => plain
          end
      | None => plain
      end
  end.

(** src/mbus_data.rs:1273-1294, [replace_encrypted_payload_segments] *)
Fixpoint replace_encrypted (cf : config) (segments : list segment) (display_data : list N)
  : outcome annotate_error (list segment) :=
  match segments with
  | [] => Ok []
  | s :: rest =>
      here <- match s_kind s with
              | KEncryptedPayload =>
                  pushed <- match get_range display_data (s_start s) (s_end s) with
                            | Some data => annotate_data_records cf (s_start s) data
                            | None => Ok []
                            end ;;
                  Ok (match pushed with [] => [s] | _ => pushed end)
              | _ => Ok [s]
              end ;;
      rest <- replace_encrypted cf rest display_data ;;
      Ok (here ++ rest)
  end.
