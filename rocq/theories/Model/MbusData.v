(** Model of src/lib.rs (errors) and src/mbus_data.rs: frames with their application
    layer, and the frames rebuilt for display after decryption. *)
From Verif Require Import Model.Base Model.Core Model.Wired Model.Wireless Model.DataInfo Model.Record Model.Decrypt
  Model.UserData.

(** src/lib.rs:80-85 and the [From] impls 102-124 *)
Inductive mbus_error :=
| MFrameError (e : frame_error)
| MWirelessFrameError (e : wl_frame_error)
| MApplicationLayerError (e : application_layer_error)
| MDataRecordError (e : data_record_error).

(** src/mbus_data.rs:16-24 *)
Record mbus_data (F : Type) := {
  md_frame : F;
  md_user_data : option user_data_block;
  md_data_records : option data_records;
  md_application_error : option application_layer_error
}.
Arguments md_frame {F} m.
Arguments md_user_data {F} m.
Arguments md_data_records {F} m.
Arguments md_application_error {F} m.

(** src/mbus_data.rs:37-54 and 88-107, the match on the block;
    the conversion of the variable block with [into] is crates/m-bus-application-layer/src/variable_user_data.rs:52-56,
    which passes no header *)
Definition block_records (u : user_data_block) : option data_records :=
  match u with
  | VariableLong _ _ block => Some (records_new block None)
  | VariableShort _ _ block => Some (records_new block None)
  | VariableNone _ block => Some (records_new block None)
  | _ => None
  end.

(** src/mbus_data.rs:35-58 and 86-112, identical in both impls: the application layer
    of a frame whose application data are [data] *)
Definition with_application {E F} (frame : F) (data : list N) : outcome E (mbus_data F) :=
  match user_data_try_from data with
  | Ok x => Ok {| md_frame := frame; md_user_data := Some x;
                  md_data_records := block_records x; md_application_error := None |}
  | Err e => Ok {| md_frame := frame; md_user_data := None;
                   md_data_records := None; md_application_error := Some e |}
  | Panic p => Panic p
  end.

(** src/mbus_data.rs:26-73, [TryFrom<&[u8]> for MbusData<WiredFrame>] *)
Definition mbus_wired_try_from (cf : config) (data : list N) : outcome mbus_error (mbus_data wired_frame) :=
  frame <- map_err MFrameError (wired_try_from cf data) ;;
  match frame with
  | LongFrame _ _ d => with_application frame d
  | _ => Ok {| md_frame := frame; md_user_data := None;
               md_data_records := None; md_application_error := None |}
  end.

(** src/mbus_data.rs:75-121, [TryFrom<&[u8]> for MbusData<WirelessFrame>] *)
Definition mbus_wireless_try_from (data : list N) : outcome mbus_error (mbus_data wireless_frame) :=
  frame <- map_err MWirelessFrameError (wireless_try_from data) ;;
  with_application frame (wf_data frame).

(** src/mbus_data.rs:1395-1411 and 1419-1424 (and src/output.rs:763, 774-778, 793-797): the key
    store with room for one key, after adding it *)
Definition one_key (manufacturer identification : N) (key : list N)
  : outcome decryption_error key_provider :=
  match kp_add_key (kp_new 1) manufacturer identification key with
  | (Ok _, kp) => Ok kp
  | (Err e, _) => Err e
  | (Panic p, _) => Panic p
  end.

(** src/mbus_data.rs:1386-1439, [decrypt_variable_data_with_key].  [None] is [Ok None]; the
    result is paired with the output buffer.  [aes] is the block cipher. *)
Definition decrypt_variable_data_with_key (aes : list N -> list N -> list N) (u : user_data_block)
  (wireless_id : option manufacturer_id) (key output : list N) : outcome unit (option N) * list N :=
  let ok (r : outcome decryption_error N * list N) :=
    match r with
    | (Ok n, out) => (Ok (Some n), out)
    | (Err _, out) => (Ok None, out)
    | (Panic p, out) => (Panic p, out)
    end in
  match u with
  | VariableLong _ h _ =>
      if negb (long_is_encrypted h) then (Ok None, output) else
      match lh_manufacturer h with
      | Ok m =>
          match one_key (mc_to_id m) (lh_identification_number h) key with
          | Ok kp => ok (decrypt_variable_data aes (kp_get_key kp) u output)
          | Err _ => (Ok None, output)
          | Panic p => (Panic p, output)
          end
      | _ => (Ok None, output)
      end
  | VariableShort _ h _ =>
      if negb (short_is_encrypted h) then (Ok None, output) else
      match wireless_id with
      | None => (Ok None, output)
      | Some id =>
          match one_key (mc_to_id (mi_manufacturer_code id)) (mi_identification_number id) key with
          | Ok kp => ok (decrypt_variable_data_with_context aes (kp_get_key kp) u
                           (mi_manufacturer_code id) (mi_identification_number id)
                           (mi_version id) (mi_device_type id) output)
          | Err _ => (Ok None, output)
          | Panic p => (Panic p, output)
          end
      end
  | _ => (Ok None, output)
  end.

(** [Vec::splice(a..b, src)], src/mbus_data.rs:1326 and 1371; panics out of bounds *)
Definition vec_splice (v : list N) (a b : N) (src : list N) : outcome unit (list N) :=
  if (a <=? b) && (b <=? len v)
  then Ok (firstn (N.to_nat a) v ++ src ++ skipn (N.to_nat b) v)
  else Panic PIndex.

(** Early returns of [None] by [?] and [return None] in the two functions below:
    [some o k] continues with the value of [o], and is [Ok None] without one *)
Definition some {A B} (o : option A) (k : A -> outcome unit (option B)) : outcome unit (option B) :=
  match o with Some a => k a | None => Ok None end.

(** [checked_sub], src/mbus_data.rs:1322, 1328, 1335, 1366, 1367, 1372 *)
Definition checked_sub (a b : N) : option N := if b <=? a then Some (a - b) else None.

(** [*v.get_mut(i)? = x], src/mbus_data.rs:1332, 1333, 1340 *)
Definition set_at (v : list N) (i x : N) : option (list N) :=
  match get v i with Some _ => Some (set_nth v (N.to_nat i) x) | None => None end.

(** src/mbus_data.rs:1296-1342, [decrypted_wired_hexview_data] *)
Definition decrypted_wired_hexview (cf : config) (aes : list N -> list N -> list N) (data key : list N)
  : outcome unit (option (list N)) :=
  match mbus_wired_try_from cf data with
  | Panic p => Panic p
  | Err _ => Ok None
  | Ok parsed =>
      some (md_user_data parsed) (fun u =>
      let variable_len := variable_data_len u in
      if variable_len =? 0 then Ok None else
      let '(res, buffer) := decrypt_variable_data_with_key aes u None key (repeat 0 256) in
      r <- res ;;
      some r (fun decrypted_len =>
      some (match md_frame parsed with
            | LongFrame _ _ d | ControlFrame _ _ d => Some (len d)
            | _ => None
            end) (fun user_data_len =>
      some (checked_sub user_data_len variable_len) (fun header_len =>
      let payload_start := 6 + header_len in
      let payload_end := payload_start + variable_len in
      some (get_to buffer decrypted_len) (fun decrypted_data =>
      display <- vec_splice data payload_start payload_end decrypted_data ;;
      some (checked_sub (len display) 6) (fun length =>
      if (255 <? length) || (len display <? 6) then Ok None else
      some (set_at display 1 length) (fun display =>
      some (set_at display 2 length) (fun display =>
      some (checked_sub (len display) 2) (fun checksum_index =>
      some (get_range display 4 checksum_index) (fun summed =>
      some (set_at display checksum_index (checksum summed)) (fun display =>
      Ok (Some display))))))))))))
  end.

(** src/mbus_data.rs:1344-1383, [decrypted_wireless_hexview_data] *)
Definition decrypted_wireless_hexview (aes : list N -> list N -> list N) (data key : list N)
  : outcome unit (option (list N)) :=
  '(stripped, _) <- strip_format_a_crcs data (repeat 0 512) ;;
  let wireless_data := match stripped with Some d => d | None => data end in
  match mbus_wireless_try_from wireless_data with
  | Panic p => Panic p
  | Err _ => Ok None
  | Ok parsed =>
      some (md_user_data parsed) (fun u =>
      let variable_len := variable_data_len u in
      if variable_len =? 0 then Ok None else
      let '(res, buffer) :=
        decrypt_variable_data_with_key aes u (Some (wf_manufacturer_id (md_frame parsed))) key (repeat 0 256) in
      r <- res ;;
      some r (fun decrypted_len =>
      let app_data_len := len (wf_data (md_frame parsed)) in
      some (checked_sub (len wireless_data) app_data_len) (fun app_start =>
      some (checked_sub app_data_len variable_len) (fun header_len =>
      let payload_start := app_start + header_len in
      let payload_end := payload_start + variable_len in
      some (get_to buffer decrypted_len) (fun decrypted_data =>
      display <- vec_splice wireless_data payload_start payload_end decrypted_data ;;
      Ok (Some
        (match checked_sub (len display) 1 with
         | Some length =>
             if length <=? 255
             then match set_at display 0 length with Some d => d | None => display end
             else display
         | None => display
         end)))))))
  end.

(** src/mbus_data.rs:1268-1270, [decrypted_hexview_data] *)
Definition decrypted_hexview (cf : config) (aes : list N -> list N -> list N) (data key : list N)
  : outcome unit (option (list N)) :=
  r <- decrypted_wired_hexview cf aes data key ;;
  match r with
  | Some d => Ok (Some d)
  | None => decrypted_wireless_hexview aes data key
  end.
