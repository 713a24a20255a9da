(** What an annotation of a byte string is, written without reference to the annotator. *)
From Coq Require Import List NArith Bool.
Import ListNotations.
From Verif Require Import Model.Base Model.Wired Model.Wireless Model.DataInfo Model.ValueInfo Model.Record
  Model.Annotate Spec.CrcSpec Spec.WiredSpec Spec.WirelessSpec.
Open Scope N_scope.

(** the segments are non-empty and in order, and cover the bytes from [a] up to [b]
    exactly once *)
Inductive tiles : N -> list segment -> N -> Prop :=
| tiles_nil a : tiles a [] a
| tiles_cons s rest b :
    s_start s < s_end s -> tiles (s_end s) rest b -> tiles (s_start s) (s :: rest) b.

Definition covers (s : segment) (i : N) : Prop := s_start s <= i /\ i < s_end s.

(** what is said about a byte: the label of the segment covering it *)
Definition label (s : segment) : segment_kind * option N * layer := (s_kind s, s_group s, s_layer s).
Definition label_at (segs : list segment) (i : N) : option (segment_kind * option N * layer) :=
  option_map label (find (fun s => (s_start s <=? i) && (i <? s_end s)) segs).

(** the labels of decoded record fields *)
Definition record_kind (k : segment_kind) : bool :=
  match k with
  | KDif | KDife | KVif | KVife | KPlaintextVif | KDataPayload | KIdleFiller | KManufacturerSpecific => true
  | _ => false
  end.

(** where byte [j] of a frame is found in its Format A encoding: after the CRC of the
    first block of ten bytes and those of the full blocks of sixteen before it *)
Definition format_a_position (j : N) : N :=
  if j <? 10 then j else j + 2 + 2 * ((j - 10) / 16).

(** the bytes of a segment, and the segments of a frame as labelled bytes *)
Definition slice (data : list N) (a b : N) : list N :=
  firstn (N.to_nat (b - a)) (skipn (N.to_nat a) data).
Definition fields (data : list N) (segs : list segment) : list (segment_kind * list N) :=
  map (fun s => (s_kind s, slice data (s_start s) (s_end s))) segs.

(** the segments of record number [i] *)
Definition group (segs : list segment) (i : N) : list segment :=
  filter (fun s => match s_group s with Some g => g =? i | None => false end) segs.

(** the parts of a decoded record with their labels: DIF and its extensions, VIF, its
    extensions and its text, and the data; manufacturer blocks are one part *)
Definition part (k : segment_kind) (bytes : list N) : list (segment_kind * list N) :=
  match bytes with [] => [] | _ => [(k, bytes)] end.
Definition header_parts (h : raw_data_record_header) : list (segment_kind * list N) :=
  [(KDif, [dib_dif (rh_dib h)])]
  ++ match dib_difes (rh_dib h) with Some l => part KDife l | None => [] end
  ++ match rh_vib h with
     | None => []
     | Some v =>
         [(KVif, [vib_vif v])]
         ++ match vib_vifes v with Some l => part KVife l | None => [] end
         ++ match vib_plaintext v with Some p => [(KPlaintextVif, len p :: p)] | None => [] end
     end.
Definition record_parts (r : data_record) : list (segment_kind * list N) :=
  let h := drh_raw (dr_header r) in
  if (dib_dif (rh_dib h) =? 0x0F) || (dib_dif (rh_dib h) =? 0x1F)
  then [(KManufacturerSpecific, dr_raw_bytes r)]
  else header_parts h ++ part KDataPayload (skipn (length (concat (map snd (header_parts h)))) (dr_raw_bytes r)).

(** a transport header that announces encryption, and the block it protects: the low
    five bits of the second configuration byte are not zero *)
Inductive encrypted_message : list N -> list N -> Prop :=
| EncLong ci i0 i1 i2 i3 m0 m1 v d acc st c0 c1 block :
    ci = 0x72 \/ ci = 0x76 -> c1 mod 32 <> 0 ->
    encrypted_message ([ci; i0; i1; i2; i3; m0; m1; v; d; acc; st; c0; c1] ++ block) block
| EncShort ci acc st c0 c1 block :
    ci = 0x7A \/ 0xA1 <= ci <= 0xAF -> c1 mod 32 <> 0 ->
    encrypted_message ([ci; acc; st; c0; c1] ++ block) block
| EncShortA0 x acc st c0 c1 block :
    c1 mod 32 <> 0 -> encrypted_message ([0xA0; x; acc; st; c0; c1] ++ block) block
| EncEll cc acc rest block :
    encrypted_message rest block -> encrypted_message ([0x8C; cc; acc] ++ rest) block.

(** a message whose records are in clear, and the block of its records *)
Inductive clear_message : list N -> list N -> Prop :=
| ClrLong ci i0 i1 i2 i3 m0 m1 v d acc st c0 c1 block :
    ci = 0x72 \/ ci = 0x76 -> c1 mod 32 = 0 ->
    clear_message ([ci; i0; i1; i2; i3; m0; m1; v; d; acc; st; c0; c1] ++ block) block
| ClrShort ci acc st c0 c1 block :
    ci = 0x7A \/ 0xA1 <= ci <= 0xAF -> c1 mod 32 = 0 ->
    clear_message ([ci; acc; st; c0; c1] ++ block) block
| ClrShortA0 x acc st c0 c1 block :
    c1 mod 32 = 0 -> clear_message ([0xA0; x; acc; st; c0; c1] ++ block) block
| ClrNone block : clear_message (0x78 :: block) block
| ClrEll cc acc rest block :
    clear_message rest block -> clear_message ([0x8C; cc; acc] ++ rest) block
| ClrEllII cc acc s0 s1 s2 s3 p0 p1 block :
    clear_message ([0x8D; cc; acc; s0; s1; s2; s3; p0; p1] ++ block) block
| ClrEllIII cc acc m0 m1 a0 a1 a2 a3 a4 a5 s0 s1 s2 s3 p0 p1 block :
    clear_message ([0x8E; cc; acc; m0; m1; a0; a1; a2; a3; a4; a5; s0; s1; s2; s3; p0; p1] ++ block) block.

(** the bytes are not a wired frame, and do not start with ten bytes followed by their CRC *)
Definition not_wired (data : list N) : Prop := forall fr, ~ wired_meaning data fr.
Definition no_first_crc (data : list N) : Prop :=
  forall head hi lo enc, data = head ++ [hi; lo] ++ enc -> len head = 10 -> ~ is_crc head (256 * hi + lo).

(** [carries data start payload]: the frame [data] carries the application message
    [payload] from byte [start] on *)
Inductive carries : list N -> N -> list N -> Prop :=
| CarryWired data f a payload :
    wired_meaning data (LongFrame f a payload) -> carries data 6 payload
| CarryWireless data fr :
    not_wired data -> no_first_crc data -> wireless_meaning data fr -> carries data 10 (wf_data fr).

(** the text of a record is after its VIF extensions (or there is none), and the record
    is not a global readout request: what the annotator's labels presuppose *)
Definition text_before (cf : config) (r : data_record) : Prop :=
  plaintext_before_extension cf = false \/
  (forall v, rh_vib (drh_raw (dr_header r)) = Some v -> vib_plaintext v = None).
Definition item_ok (cf : config) (x : outcome data_record_error data_record) : Prop :=
  forall r, x = Ok r -> dib_dif (rh_dib (drh_raw (dr_header r))) <> 0x7F /\ text_before cf r.

(** the labels of the bytes of a header: [labels_from segs at_ kinds l] says the bytes
    from [at_] on have these labels, one each *)
Definition labels_from (segs : list segment) (at_ : N) (kinds : list segment_kind) (l : layer) : Prop :=
  forall j k, nth_error kinds j = Some k -> label_at segs (at_ + N.of_nat j) = Some (k, None, l).
Definition wired_labels : list segment_kind :=
  [KStartByte; KLength; KLength; KStartByte; KCField; KAField].
Definition wireless_labels : list segment_kind :=
  [KLField; KCField; KManufacturerCode; KManufacturerCode; KIdentificationNumber; KIdentificationNumber;
   KIdentificationNumber; KIdentificationNumber; KVersion; KDeviceType].
Definition long_header_labels : list segment_kind :=
  [KCiField; KIdentificationNumber; KIdentificationNumber; KIdentificationNumber; KIdentificationNumber;
   KManufacturerCode; KManufacturerCode; KVersion; KDeviceType; KAccessNumber; KStatus;
   KConfigurationField; KConfigurationField].
Definition short_header_labels : list segment_kind :=
  [KCiField; KAccessNumber; KStatus; KConfigurationField; KConfigurationField].
