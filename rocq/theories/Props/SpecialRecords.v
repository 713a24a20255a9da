(** C132: records without data. *)
From Coq Require Import List NArith.
Import ListNotations.
From Verif Require Import Model.Base Model.Core Model.DataInfo Model.ValueInfo Model.Record
  Spec.CoreSpec Spec.RecordSpec Proof.AnnotateProps Proof.SpecialRecords.
Open Scope N_scope.

(** 0F and 1F: one record of all that follows, given as sent; nothing behind it is read as a record *)
Theorem C132_manufacturer_block : forall cf dif rest hdr,
  bytes_ok (dif :: rest) -> dif = 0x0F \/ dif = 0x1F ->
  exists r, records_all cf (dif :: rest) hdr = Some [Ok r] /\ dr_raw_bytes r = dif :: rest /\
    d_value (dr_data r) = Some (ManufacturerSpecific rest) /\
    ph_value_information (drh_processed (dr_header r)) = None.
Proof. exact manufacturer_block. Qed.
Print Assumptions C132_manufacturer_block.
Example C132_manufacturer_example : bytes_ok [0x1F; 0x04; 0x13; 1; 2; 3; 4; 0x2F] /\ (0x1F = 0x0F \/ 0x1F = 0x1F).
Proof. split; [repeat constructor|right; reflexivity]. Qed.

(** 7F: a record of this byte alone, without value; what follows is read as records *)
Theorem C132_global_readout : forall cf rest hdr, bytes_ok rest ->
  exists r items, records_all cf (0x7F :: rest) hdr = Some (Ok r :: items) /\
    laid_out (fun d => data_record_parse cf d hdr) rest items /\
    dr_raw_bytes r = [0x7F] /\ d_value (dr_data r) = None /\ ph_value_information (drh_processed (dr_header r)) = None.
Proof. exact readout_records. Qed.
Print Assumptions C132_global_readout.
Example C132_global_readout_example : exists r1 r2,
  records_all debug [0x7F; 0x01; 0x13; 5] None = Some [Ok r1; Ok r2] /\ dr_raw_bytes r2 = [0x01; 0x13; 5].
Proof. vm_compute. do 2 eexists. split; reflexivity. Qed.

(** the other special functions but the filler 2F, with or without extension: never a record *)
Theorem C132_reserved : forall cf dif rest hdr r,
  dif mod 16 = 15 -> dif <> 0x0F -> dif <> 0x1F -> dif <> 0x2F -> dif <> 0x7F ->
  data_record_parse cf (dif :: rest) hdr <> Ok r.
Proof. exact reserved_refused. Qed.
Print Assumptions C132_reserved.
Example C132_reserved_example :
  data_record_parse debug [0x8F; 0x13; 5] None = Err (DataInformationError InvalidValueInformation) /\ 0x8F mod 16 = 15.
Proof. split; vm_compute; reflexivity. Qed.

(** full statement: as below for every VIF; with a date VIF the next two or four bytes are taken *)
Theorem C132_no_data_refuted : forall cf, exists r,
  data_record_parse cf [0x00; 0x6C; 0x01; 0x13; 5] None = Ok r /\
  dr_raw_bytes r = [0x00; 0x6C; 0x01; 0x13] /\ d_value (dr_data r) <> None.
Proof. intros [[] []]; vm_compute; eexists; (split; [reflexivity|split; [reflexivity|discriminate]]). Qed.
Print Assumptions C132_no_data_refuted.
(** data fields 0 (no data) and 8 (selection for readout): the record is its header, without value *)
Theorem C132_no_data_partial : forall cf head rest hdr h dif vif,
  header_of cf head rest h dif vif -> ~ date_vif vif -> dif mod 16 = 0 \/ dif mod 16 = 8 ->
  exists r, data_record_parse cf (head ++ rest) hdr = Ok r /\ dr_header r = h /\ dr_raw_bytes r = head /\ d_value (dr_data r) = None.
Proof. exact no_data_record. Qed.
Print Assumptions C132_no_data_partial.
Example C132_no_data_example : forall cf, exists h,
  header_of cf [0xC8; 0x11; 0x13] [0x01; 0x13; 5] h 0xC8 0x13 /\ ~ date_vif 0x13 /\ 0xC8 mod 16 = 8.
Proof.
  intros [[] []]; eexists; (split; [split; [repeat constructor|split; [vm_compute; reflexivity|
    split; [reflexivity|split; [reflexivity|eexists; split; reflexivity]]]]|split; [intros [K|K]; discriminate K|reflexivity]]).
Qed.
