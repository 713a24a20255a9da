(** Model of crates/m-bus-application-layer/src/data_record.rs and of the record
    iterator in crates/m-bus-application-layer/src/lib.rs. *)
From Verif Require Import Model.Base Model.Core Model.DataInfo Model.ValueInfo.

(** [?] on a [DataInformationError] in a function returning [DataRecordError]:
    crates/m-bus-application-layer/src/data_information.rs:30-34 *)
Definition from_die {A} (x : outcome data_information_error A) : outcome data_record_error A :=
  map_err DataInformationError x.

(** data_record.rs:10-13 *)
Record raw_data_record_header := {
  rh_dib : data_information_block;
  rh_vib : option value_information_block
}.

(** data_record.rs:17-20 *)
Record processed_data_record_header := {
  ph_data_information : option data_information;
  ph_value_information : option value_information
}.

(** data_record.rs:149-152 *)
Record data_record_header := {
  drh_raw : raw_data_record_header;
  drh_processed : processed_data_record_header
}.

(** data_record.rs:24-33 *)
Record data_record := {
  dr_header : data_record_header;
  dr_data : data;
  dr_raw_bytes : list N
}.

(** data_record.rs:66-69, [DataRecord::get_size] *)
Definition dr_get_size (r : data_record) : N := len (dr_raw_bytes r).

(** data_record.rs:169-189, [TryFrom<&[u8]> for RawDataRecordHeader] *)
Definition raw_header_try_from (cf : config) (data : list N)
  : outcome data_record_error raw_data_record_header :=
  difb <- from_die (dib_try_from data) ;;
  let offset := dib_get_size difb in
  if negb (is_special_function (dib_dif difb)) then
    rest <- ok_or (get_from data offset) RInsufficientData ;;
    vifb <- from_die (vib_try_from cf rest) ;;
    Ok {| rh_dib := difb; rh_vib := Some vifb |}
  else Ok {| rh_dib := difb; rh_vib := None |}.

(** [labels.contains(&ValueLabel::..)] for the four labels of data_record.rs:205-218 *)
Definition has_label (is : value_label -> bool) (v : value_information) : bool :=
  existsb is (vi_labels v).
Definition is_LDate (l : value_label) : bool := match l with LDate => true | _ => false end.
Definition is_LDateTime (l : value_label) : bool := match l with LDateTime => true | _ => false end.
Definition is_LTime (l : value_label) : bool := match l with LTime => true | _ => false end.
Definition is_LDateTimeWithSeconds (l : value_label) : bool :=
  match l with LDateTimeWithSeconds => true | _ => false end.

(** assignment [d.data_field_coding = c], data_record.rs:206-218 *)
Definition set_coding (d : data_information) (c : data_field_coding) : data_information :=
  {| di_storage_number := di_storage_number d;
     di_tariff := di_tariff d;
     di_device := di_device d;
     di_function_field := di_function_field d;
     di_data_field_coding := c;
     di_extension := di_extension d;
     di_size := di_size d |}.

(** data_record.rs:205-219, the override of the coding by the value labels *)
Definition override_coding (v : value_information) (d : data_information) : data_information :=
  if has_label is_LDate v then set_coding d CDateTypeG
  else if has_label is_LDateTime v then
    set_coding d (match di_data_field_coding d with
                  | CInteger48Bit => CDateTimeTypeI
                  | _ => CDateTimeTypeF
                  end)
  else if has_label is_LTime v then set_coding d CDateTimeTypeJ
  else if has_label is_LDateTimeWithSeconds v then set_coding d CDateTimeTypeI
  else d.

(** data_record.rs:191-238, [TryFrom<&RawDataRecordHeader> for
    ProcessedDataRecordHeader] *)
Definition processed_header_try_from (raw : raw_data_record_header)
  : outcome data_record_error processed_data_record_header :=
  match rh_vib raw with
  | Some x =>
      v <- from_die (value_information_try_from x) ;;
      d <- from_die (data_information_try_from (rh_dib raw)) ;;
      Ok {| ph_data_information := Some (override_coding v d);
            ph_value_information := Some v |}
  | None =>
      if is_special_function (dib_dif (rh_dib raw)) then
        d <- from_die (data_information_try_from (rh_dib raw)) ;;
        Ok {| ph_data_information := Some d; ph_value_information := None |}
      else Ok {| ph_data_information := None; ph_value_information := None |}
  end.

(** data_record.rs:240-251, [TryFrom<&[u8]> for DataRecordHeader] *)
Definition header_try_from (cf : config) (data : list N)
  : outcome data_record_error data_record_header :=
  raw <- raw_header_try_from cf data ;;
  processed <- processed_header_try_from raw ;;
  Ok {| drh_raw := raw; drh_processed := processed |}.

(** data_record.rs:154-167, [DataRecordHeader::get_size] *)
Definition header_get_size (h : data_record_header) : N :=
  let s := dib_get_size (rh_dib (drh_raw h)) in
  match rh_vib (drh_raw h) with
  | Some x => s + vib_get_size x
  | None => s
  end.

(** data_record.rs:100-144, [DataRecord::parse]; the two [TryFrom] impls at 253-267
    call it with and without a header *)
Definition data_record_parse (cf : config) (data : list N) (hdr : option long_tpl_header)
  : outcome data_record_error data_record :=
  h <- header_try_from cf data ;;
  let header_size := header_get_size h in
  if len data <? header_size then Err RInsufficientData else
  let offset := header_size in
  data_out <-
    match ph_data_information (drh_processed h) with
    | Some di =>
        rest <- ok_or (get_from data offset) RInsufficientData ;;
        coding_parse cf (di_data_field_coding di) rest hdr
    | None =>
        rest <- ok_or (get_from data offset) RInsufficientData ;;
        Ok {| d_value := Some (ManufacturerSpecific rest); d_size := len data - offset |}
    end ;;
  let record_size := header_get_size h + d_size data_out in
  let record_size := if len data <? record_size then len data else record_size in
  raw <- ok_or (get_to data record_size) RInsufficientData ;;
  Ok {| dr_header := h; dr_data := data_out; dr_raw_bytes := raw |}.

(** crates/m-bus-application-layer/src/lib.rs:80-84, [DataRecords]; built by
    [parse_data_records] / [parse_data_records_with_header] (60-74) with offset 0 *)
Record data_records := {
  rs_offset : N;
  rs_data : list N;
  rs_header : option long_tpl_header
}.

(** lib.rs:153-162, [DataRecords::new] *)
Definition records_new (data : list N) (hdr : option long_tpl_header) : data_records :=
  {| rs_offset := 0; rs_data := data; rs_header := hdr |}.

(** What one call of [next] gives: the end, an item, or (model only) not enough
    fuel.  A panic while parsing a record is an item [Panic p]. *)
Inductive next_result :=
| NDone
| NItem (r : outcome data_record_error data_record)
| NFuel.

(** [self.offset = o] *)
Definition set_offset (s : data_records) (o : N) : data_records :=
  {| rs_offset := o; rs_data := rs_data s; rs_header := rs_header s |}.

(** lib.rs:94-151, [Iterator::next] for [DataRecords]; each round of the while loop
    uses one unit of fuel *)
Fixpoint records_next (cf : config) (fuel : nat) (s : data_records) : next_result * data_records :=
  match fuel with
  | O => (NFuel, s)
  | S fuel' =>
      if rs_offset s <? len (rs_data s) then
        match get (rs_data s) (rs_offset s) with
        | None => (NDone, s)
        | Some dif =>
            match get_from (rs_data s) (rs_offset s) with
            | None => (NDone, s)
            | Some remaining =>
                if is_special_function dif then
                  match special_function dif with
                  | SFIdleFiller => records_next cf fuel' (set_offset s (rs_offset s + 1))
                  | SFManufacturerSpecific
                  | SFMoreRecordsFollow =>
                      (NItem (data_record_parse cf remaining (rs_header s)),
                       set_offset s (len (rs_data s)))
                  | SFGlobalReadoutRequest =>
                      (NItem (data_record_parse cf remaining (rs_header s)),
                       set_offset s (rs_offset s + 1))
                  | SFReserved => records_next cf fuel' (set_offset s (rs_offset s + 1))
                  end
                else
                  match data_record_parse cf remaining (rs_header s) with
                  | Ok record =>
                      (NItem (Ok record), set_offset s (rs_offset s + dr_get_size record))
                  | Err error => (NItem (Err error), set_offset s (len (rs_data s)))
                  | Panic p => (NItem (Panic p), s)
                  end
            end
        end
      else (NDone, s)
  end.

(** one call of [next] with enough fuel for any state *)
Definition next (cf : config) (s : data_records) : next_result * data_records :=
  records_next cf (S (length (rs_data s))) s.

(** Driving the iterator to its end, as [for record in records] does; a panic ends
    it.  [None]: the model ran out of fuel.  Not a function of /repo. *)
Fixpoint collect (cf : config) (fuel : nat) (s : data_records)
  : option (list (outcome data_record_error data_record)) :=
  match fuel with
  | O => None
  | S fuel' =>
      match next cf s with
      | (NFuel, _) => None
      | (NDone, _) => Some []
      | (NItem (Panic p), _) => Some [Panic p]
      | (NItem r, s') =>
          match collect cf fuel' s' with
          | None => None
          | Some l => Some (r :: l)
          end
      end
  end.

(** all items of [parse_data_records(data)] / [parse_data_records_with_header],
    crates/m-bus-application-layer/src/lib.rs:60-74 *)
Definition records_all (cf : config) (data : list N) (hdr : option long_tpl_header)
  : option (list (outcome data_record_error data_record)) :=
  collect cf (S (length data)) (records_new data hdr).

(** lib.rs:89, [collect::<Result<Vec<_>, _>>()]: stops at the first error *)
Fixpoint collect_result (items : list (outcome data_record_error data_record))
  : outcome data_record_error (list data_record) :=
  match items with
  | [] => Ok []
  | item :: items => r <- item ;; rs <- collect_result items ;; Ok (r :: rs)
  end.

(** lib.rs:86-92, [From<DataRecords> for Vec<DataRecord>]: [unwrap_or_default];
    [None]: the model ran out of fuel *)
Definition records_to_vec (cf : config) (data : list N) (hdr : option long_tpl_header)
  : option (outcome data_record_error (list data_record)) :=
  match records_all cf data hdr with
  | None => None
  | Some items =>
      Some (match collect_result items with
            | Ok rs => Ok rs
            | Err _ => Ok []
            | Panic p => Panic p
            end)
  end.
