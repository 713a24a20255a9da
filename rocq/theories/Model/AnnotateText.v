(** Model of the tooltips ([detail]) of src/annotate.rs: the functions of Model/Annotate.v
    once more, each range with its text.  Proof/TooltipFacts.v shows that the ranges are
    those of Model/Annotate.v. *)
From Coq Require Import String.
From Verif Require Import Model.Base Model.Text Model.Core Model.F64 Model.Wired Model.Wireless Model.DataInfo Model.ValueInfo
  Model.Record Model.MbusData Model.Show Model.Legacy Model.Annotate.
Open Scope list_scope.

(** src/annotate.rs:107-120: a [ByteSegment] is a range and its [detail] *)
Definition told : Type := (segment * text)%type.

(** [data.get(i).copied().unwrap_or(0)], src/annotate.rs:207, 348, 454 and others *)
Definition byte_or_0 (data : list N) (i : N) : N := match get data i with Some b => b | None => 0 end.

(** src/annotate.rs:859-973, one record: as [record_segments], with the texts.  [display]
    is the standard library's [Display] of f64 in [format!("{}", record.data)] (961).
    The texts of the DIF and the VIF are those of the bytes of [data] at their offsets. *)
Definition record_told (display : f64 -> text) (r : data_record) (base : N) (data : list N) (offset record_index : N)
  : list told * N * bool :=
  let raw := drh_raw (dr_header r) in
  let at_ := base + offset in
  let avail := len data - offset in
  let g := Some record_index in
  let f a n k t := if 0 <? n then [(seg (at_ + a) (at_ + a + n) k g LRecordField, t)] else [] in
  let header_size := header_get_size (dr_header r) in
  let total_size := dr_get_size r in
  let dife_count := dib_get_size (rh_dib raw) - 1 in
  let o := 1 + dife_count in
  let '(vib_segments, o) :=
    match rh_vib raw with
    | None => ([], o)
    | Some vib =>
        let vife_count := match vib_vifes vib with Some l => len l | None => 0 end in
        let pt := match vib_plaintext vib with
                  | Some p => [(seg (at_ + (o + 1 + vife_count)) (at_ + (o + 1 + vife_count) + (len p + 1))
                                  KPlaintextVif g LRecordField,
                                txt "Plaintext VIF: """ ++ p ++ txt """")]
                  | None => [] end in
        let pt_size := match vib_plaintext vib with Some p => len p + 1 | None => 0 end in
        (f o 1 KVif (txt "VIF: 0x" ++ hex2 (byte_or_0 data (offset + o)))
           ++ f (o + 1) vife_count KVife (txt "VIFE: " ++ dec vife_count ++ txt " byte(s)") ++ pt,
         o + 1 + vife_count + pt_size)
    end in
  let data_size := total_size - header_size in
  let emit_size := N.min data_size (avail - o) in
  (f 0 1 KDif (txt "DIF: 0x" ++ hex2 (byte_or_0 data offset))
     ++ f 1 dife_count KDife (txt "DIFE: " ++ dec dife_count ++ txt " byte(s)")
     ++ vib_segments ++ f o emit_size KDataPayload (show_data display (d_value (dr_data r))),
   o + emit_size,
   negb ((0 <? data_size) && (emit_size <? data_size))).

(** src/annotate.rs:792-988, [annotate_data_records] *)
Fixpoint records_told_loop (cf : config) (display : f64 -> text) (fuel : nat) (base : N) (data : list N)
  (offset record_index : N) : outcome annotate_error (list told) :=
  match fuel with
  | O => Err AFuel
  | S fuel' =>
      if negb (offset <? len data) then Ok [] else
      match get data offset with
      | None => Ok []
      | Some dif_byte =>
          if N.land dif_byte 0x0F =? 0x0F then
            if dif_byte =? 0x2F then
              rest <- records_told_loop cf display fuel' base data (offset + 1) record_index ;;
              Ok ((seg (base + offset) (base + offset + 1) KIdleFiller None LRecordField, txt "Idle Filler: 0x2F") :: rest)
            else if (dif_byte =? 0x0F) || (dif_byte =? 0x1F) then
              Ok [(seg (base + offset) (base + len data) KManufacturerSpecific (Some record_index) LRecordField,
                   (if dif_byte =? 0x0F then txt "Manufacturer Specific" else txt "More Records Follow")
                   ++ txt ": 0x" ++ hex2 dif_byte ++ txt " (" ++ dec (len data - offset) ++ txt " bytes)")]
            else
              rest <- records_told_loop cf display fuel' base data (offset + 1) record_index ;;
              Ok ((seg (base + offset) (base + offset + 1) KUnknown None LRecordField,
                   txt "Special DIF: 0x" ++ hex2 dif_byte) :: rest)
          else
            remaining <- index_range data offset (len data) ;;
            match data_record_parse cf remaining None with
            | Ok record =>
                let '(segments, advance, go_on) := record_told display record base data offset record_index in
                if go_on then
                  rest <- records_told_loop cf display fuel' base data (offset + advance) (record_index + 1) ;;
                  Ok (segments ++ rest)
                else Ok segments
            | Err _ => Ok [(seg (base + offset) (base + len data) KUnknown None LRecordField,
                            txt "Unparseable data record bytes")]
            | Panic p => Panic p
            end
      end
  end.
(** src/annotate.rs:792-794 *)
Definition records_told (cf : config) (display : f64 -> text) (base : N) (data : list N)
  : outcome annotate_error (list told) :=
  records_told_loop cf display (S (length data)) base data 0 0.

(** src/annotate.rs:681-788, [annotate_long_tpl_header] *)
Definition long_tpl_told (base : N) (app_data : list N) : list told :=
  let h a b k t := (seg (base + a) (base + b) k None LAppHeader, t) in
  let at_ i := byte_or_0 app_data i in
  [ h 0 1 KCiField (txt "CI: 0x" ++ hex2 (at_ 0) ++ txt " ("
      ++ (if at_ 0 =? 0x72 then txt "Variable Data, Long TPL" else txt "Variable Data, Long TPL, LSB") ++ txt ")");
    h 1 5 KIdentificationNumber (txt "ID: " ++ hex2 (at_ 1) ++ hex2 (at_ 2) ++ hex2 (at_ 3) ++ hex2 (at_ 4));
    h 5 7 KManufacturerCode (txt "Manufacturer: 0x" ++ hex2 (at_ 5) ++ hex2 (at_ 6));
    h 7 8 KVersion (txt "Version: " ++ dec (at_ 7));
    h 8 9 KDeviceType (txt "Device Type: 0x" ++ hex2 (at_ 8));
    h 9 10 KAccessNumber (txt "Access Number: " ++ dec (at_ 9));
    h 10 11 KStatus (txt "Status: 0x" ++ hex2 (at_ 10));
    h 11 13 KConfigurationField (txt "Configuration: 0x" ++ hex2 (at_ 11) ++ hex2 (at_ 12)) ].

(** src/annotate.rs:399-413 and 506-521: the data after a transport header *)
Definition payload_told (cf : config) (display : f64 -> text) (encrypted : bool) (start : N) (data : list N)
  : outcome annotate_error (list told) :=
  if encrypted then
    Ok (match data with
        | [] => []
        | _ => [(seg start (start + len data) KEncryptedPayload None LRecordField, txt "Encrypted variable data")]
        end)
  else records_told cf display start data.

(** src/annotate.rs:370-679, [annotate_application_layer] *)
Fixpoint application_told (cf : config) (display : f64 -> text) (base : N) (app_data : list N)
  : outcome annotate_error (list told) :=
  match app_data with
  | [] => Ok []
  | ci :: tail =>
      let h a b k t := (seg (base + a) (base + b) k None LAppHeader, t) in
      let at_ i := byte_or_0 app_data i in
      let incomplete t := [(seg base (base + len app_data) KUnknown None LAppHeader, t)] in
      if (ci =? 0x72) || (ci =? 0x76) then
        if len app_data <? 13 then Ok (incomplete (txt "Incomplete long TPL header")) else
        records_data <- index_range app_data 13 (len app_data) ;;
        encrypted <- is_long_tpl_encrypted app_data ;;
        rest <- payload_told cf display encrypted (base + 13) records_data ;;
        Ok (long_tpl_told base app_data ++ rest)
      else if (ci =? 0x7A) || ((0xA0 <=? ci) && (ci <=? 0xAF)) then
        let has_enc_config := ci =? 0xA0 in
        let skip_count := if has_enc_config then 2 else 1 in
        let data_block_offset := if has_enc_config then 6 else 5 in
        if len app_data <? data_block_offset then Ok (incomplete (txt "Incomplete short TPL header")) else
        records_data <- index_range app_data data_block_offset (len app_data) ;;
        encrypted <- is_short_tpl_encrypted app_data skip_count ;;
        let o := skip_count in
        rest <- payload_told cf display encrypted (base + (o + 4)) records_data ;;
        Ok ([h 0 1 KCiField (txt "CI: 0x" ++ hex2 ci ++ txt " (Short TPL)")]
            ++ (if has_enc_config then [h 1 2 KEncryptionConfigByte (txt "Encryption config: 0x" ++ hex2 (at_ 1))] else [])
            ++ [h o (o + 1) KAccessNumber (txt "Access Number: " ++ dec (at_ o));
                h (o + 1) (o + 2) KStatus (txt "Status: 0x" ++ hex2 (at_ (o + 1)));
                h (o + 2) (o + 4) KConfigurationField
                  (txt "Configuration: 0x" ++ hex2 (at_ (o + 2)) ++ hex2 (at_ (o + 3)))]
            ++ rest)
      else if ci =? 0x78 then
        rest <- match tail with [] => Ok [] | _ => records_told cf display (base + 1) tail end ;;
        Ok (h 0 1 KCiField (txt "CI: 0x78 (Application Layer, no TPL header)") :: rest)
      else if ci =? 0x8C then
        match tail with
        | _ :: _ :: inner =>
            rest <- match inner with [] => Ok [] | _ => application_told cf display (base + 3) inner end ;;
            Ok ([h 0 1 KCiField (txt "CI: 0x8C (ELL I)"); h 1 3 KExtendedLinkLayer (txt "ELL I: CC + Access Number")] ++ rest)
        | _ => Ok (incomplete (txt "Incomplete ELL I header"))
        end
      else if ci =? 0x8D then
        if len app_data <? 9 then Ok (incomplete (txt "Incomplete ELL II header")) else
        remaining <- index_range app_data 9 (len app_data) ;;
        rest <- match remaining with [] => Ok [] | _ => records_told cf display (base + 9) remaining end ;;
        Ok ([h 0 1 KCiField (txt "CI: 0x8D (ELL II)");
             h 1 9 KExtendedLinkLayer (txt "ELL II: CC + ACC + SN[4] + CRC[2]")] ++ rest)
      else if ci =? 0x8E then
        if len app_data <? 17 then Ok (incomplete (txt "Incomplete ELL III header")) else
        remaining <- index_range app_data 17 (len app_data) ;;
        rest <- match remaining with [] => Ok [] | _ => records_told cf display (base + 17) remaining end ;;
        Ok ([h 0 1 KCiField (txt "CI: 0x8E (ELL III)");
             h 1 17 KExtendedLinkLayer (txt "ELL III: CC + ACC + MFR[2] + ADDR[6] + SN[4] + CRC[2]")] ++ rest)
      else Ok (incomplete (txt "Unknown CI: 0x" ++ hex2 ci))
  end.

(** src/annotate.rs:266-366, [annotate_long_or_control_frame] *)
Definition long_or_control_told (cf : config) (display : f64 -> text) (data : list N) (f : function) (a : address)
  (user_data : list N) (is_control : bool) : outcome annotate_error (list told) :=
  let fr a b k t := (seg a b k None LFrame, t) in
  let user_data_start := 6 in
  let user_data_end := user_data_start + len user_data in
  body <- match user_data with
          | [] => Ok []
          | _ => if is_control
                 then Ok [(seg user_data_start user_data_end KUnknown None LAppHeader, txt "Control frame data")]
                 else application_told cf display user_data_start user_data
          end ;;
  let cs_offset := user_data_end in
  let stop_offset := cs_offset + 1 in
  Ok ([fr 0 1 KStartByte (txt "Start: 0x68"); fr 1 3 KLength (txt "Length: " ++ dec (byte_or_0 data 1) ++ txt " (repeated)");
       fr 3 4 KStartByte (txt "Start: 0x68 (repeated)");
       fr 4 5 KCField (txt "C Field: " ++ frame_function_name f ++ (if is_control then txt " (Control)" else []));
       fr 5 6 KAField (txt "Address: " ++ show_address a)]
      ++ body
      ++ (if cs_offset <? len data
          then [fr cs_offset (cs_offset + 1) KChecksum (txt "Checksum: 0x" ++ hex2 (byte_or_0 data cs_offset))] else [])
      ++ (if stop_offset <? len data
          then [fr stop_offset (stop_offset + 1) KStopByte (txt "Stop: 0x16")] else [])).

(** src/annotate.rs:157-264, [annotate_wired] *)
Definition wired_told (cf : config) (display : f64 -> text) (data : list N) : outcome annotate_error (list told) :=
  frame <- map_err (fun e => AError (MFrameError e)) (wired_try_from cf data) ;;
  let fr a b k t := (seg a b k None LFrame, t) in
  match frame with
  | SingleCharacter c => Ok [fr 0 1 KStartByte (txt "Single Character: 0x" ++ hex2 c)]
  | ShortFrame f a =>
      Ok [fr 0 1 KStartByte (txt "Start: 0x10"); fr 1 2 KCField (txt "C Field: " ++ frame_function_name f);
          fr 2 3 KAField (txt "Address: " ++ show_address a);
          fr 3 4 KChecksum (txt "Checksum: 0x" ++ hex2 (byte_or_0 data 3)); fr 4 5 KStopByte (txt "Stop: 0x16")]
  | LongFrame f a d => long_or_control_told cf display data f a d false
  | ControlFrame f a d => long_or_control_told cf display data f a d true
  end.

(** src/annotate.rs:1075-1079 and 1225-1229: the text of a CRC *)
Definition crc_text (data : list N) (start : N) : text :=
  txt "CRC: 0x" ++ hex2 (byte_or_0 data start) ++ hex2 (byte_or_0 data (start + 1)).

(** src/annotate.rs:1135-1236, [annotate_wireless_inner] *)
Definition wireless_told (cf : config) (display : f64 -> text) (data : list N) : outcome annotate_error (list told) :=
  _ <- map_err (fun e => AError (MWirelessFrameError e)) (wireless_try_from data) ;;
  let fr a b k t := (seg a b k None LFrame, t) in
  let at_ i := byte_or_0 data i in
  crc_start <- trailing_frame_crc_start data ;;
  let app_end := match crc_start with Some s => s | None => len data end in
  body <- (if 10 <? app_end then
             app_data <- index_range data 10 app_end ;;
             application_told cf display 10 app_data
           else Ok []) ;;
  Ok ([fr 0 1 KLField (txt "L Field: " ++ dec (at_ 0)); fr 1 2 KCField (txt "C Field: 0x" ++ hex2 (at_ 1));
       fr 2 4 KManufacturerCode (txt "Manufacturer: 0x" ++ hex2 (at_ 2) ++ hex2 (at_ 3));
       fr 4 8 KIdentificationNumber (txt "ID: " ++ hex2 (at_ 4) ++ hex2 (at_ 5) ++ hex2 (at_ 6) ++ hex2 (at_ 7));
       fr 8 9 KVersion (txt "Version: " ++ dec (at_ 8)); fr 9 10 KDeviceType (txt "Device Type: 0x" ++ hex2 (at_ 9))]
      ++ body
      ++ match crc_start with Some s => [fr s (len data) KCrc (crc_text data s)] | None => [] end).

(** src/annotate.rs:1071-1126, one round of the loop that inserts the CRC segments: the
    two halves of a range that is split keep its text (1097 and 1115) *)
Definition insert_crc_told (original : list N) (segments : list told) (crc : N * N) : list told :=
  let '(crc_start, crc_end) := crc in
  let crc_seg := (seg crc_start crc_end KCrc None LFrame, crc_text original crc_start) in
  let n := insert_position (map fst segments) crc_start in
  let before := firstn n segments in
  let after := skipn n segments in
  match last_opt before with
  | Some (prev, t) =>
      if crc_start <? s_end prev then
        firstn (n - 1) segments
          ++ [(seg (s_start prev) crc_start (s_kind prev) (s_group prev) (s_layer prev), t); crc_seg]
          ++ (if crc_end <? s_end prev
              then [(seg crc_end (s_end prev) (s_kind prev) (s_group prev) (s_layer prev), t)] else [])
          ++ after
      else before ++ crc_seg :: after
  | None => before ++ crc_seg :: after
  end.

(** src/annotate.rs:994-1132, [annotate_wireless_format_a] *)
Definition format_a_told (cf : config) (display : f64 -> text) (original stripped : list N)
  : outcome annotate_error (list told) :=
  offset_map <- build_format_a_offset_map original ;;
  stripped_segments <- wireless_told cf display stripped ;;
  positions <- crc_positions original ;;
  let segments := fold_left (insert_crc_told original) positions
                    (map (fun '(s, t) => (map_segment offset_map s, t)) stripped_segments) in
  Ok (filter (fun '(s, _) => s_start s <? s_end s) segments).

(** src/annotate.rs:131-153, [annotate_frame] *)
Definition frame_told (cf : config) (display : f64 -> text) (data : list N) : outcome annotate_error (list told) :=
  match wired_told cf display data with
  | Panic p => Panic p
  | Ok segments => Ok segments
  | Err AFuel => Err AFuel
  | Err (AError _) =>
      '(stripped, _) <- no_fuel (strip_format_a_crcs data (repeat 0 512)) ;;
      let plain :=
        match wireless_told cf display data with
        | Panic p => Panic p
        | Ok segments => Ok segments
        | Err AFuel => Err AFuel
        | Err (AError _) => Err (AError (MFrameError InvalidStartByte))
        end in
      match stripped with
      | Some s =>
          match format_a_told cf display data s with
          | Panic p => Panic p
          | Ok segments => Ok segments
          | Err AFuel => Err AFuel
          | Err (AError _) => plain
          end
      | None => plain
      end
  end.

(** src/mbus_data.rs:1273-1294, [replace_encrypted_payload_segments] *)
Fixpoint replace_encrypted_told (cf : config) (display : f64 -> text) (segments : list told) (display_data : list N)
  : outcome annotate_error (list told) :=
  match segments with
  | [] => Ok []
  | (s, t) :: rest =>
      here <- match s_kind s with
              | KEncryptedPayload =>
                  pushed <- match get_range display_data (s_start s) (s_end s) with
                            | Some data => records_told cf display (s_start s) data
                            | None => Ok []
                            end ;;
                  Ok (match pushed with [] => [(s, t)] | _ => pushed end)
              | _ => Ok [(s, t)]
              end ;;
      rest <- replace_encrypted_told cf display rest display_data ;;
      Ok (here ++ rest)
  end.
