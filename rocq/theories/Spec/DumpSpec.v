(** The annotated text of a frame, written without reference to the code that makes it: a dump
    of the bytes and a list of the segments. *)
From Coq Require Import String List NArith.
Import ListNotations.
From Verif Require Import Model.Base Model.Text Model.Annotate Spec.TextSpec.
Open Scope N_scope.

(** [s] are hexadecimal digits, the most significant first, at least [w] of them, of value [n] *)
Definition hex_written (w : nat) (s : text) (n : N) : Prop :=
  s <> [] /\ (w <= length s)%nat /\
  exists vs, Forall2 hex_digit s vs /\ n = fold_left (fun a v => 16 * a + v) vs 0.

(** how a byte is shown as a character: as it is if printable, else as a centred dot *)
Definition seen (b : N) : N := if (32 <=? b) && (b <=? 126) then b else 0xB7.

(** a line of the dump: the offset, the bytes, the characters *)
Definition dump_row (offset : N) (chunk : list N) (l : text) : Prop :=
  exists off area, l = txt "  " ++ off ++ txt "  " ++ area ++ map seen chunk /\
    hex_written 4 off offset /\ separated area chunk /\ length area = 50%nat.

(** [dump offset data lines]: the lines show the data, sixteen bytes in each but the last *)
Inductive dump : N -> list N -> list text -> Prop :=
| DumpEnd offset : dump offset [] []
| DumpMore offset chunk rest l lines :
    chunk <> [] -> length chunk = 16%nat \/ (length chunk < 16)%nat /\ rest = [] ->
    dump_row offset chunk l -> dump (offset + 16) rest lines ->
    dump offset (chunk ++ rest) (l :: lines).

(** a text in a column of [w] characters *)
Definition wide (w : nat) (s : text) : text := s ++ repeat 32 (w - length s).

(** where a segment is: the position of its only byte, or those of its first byte and of the
    one after its last *)
Definition place_shown (s : segment) (t : text) : Prop :=
  (s_end s = s_start s + 1 /\ exists a, hex_written 2 a (s_start s) /\ t = txt "[" ++ a ++ txt "]") \/
  (s_end s <> s_start s + 1 /\ exists a b, hex_written 2 a (s_start s) /\ hex_written 2 b (s_end s) /\
     t = txt "[" ++ a ++ txt ".." ++ b ++ txt "]").

(** the bytes of a segment *)
Definition bytes_of (data : list N) (s : segment) : list N :=
  firstn (N.to_nat (s_end s - s_start s)) (skipn (N.to_nat (s_start s)) data).
(** all of them are shown, or the first eight followed by three dots *)
Definition segment_bytes_shown (data : list N) (s : segment) (t : text) : Prop :=
  (s_end s - s_start s <= 8 /\ separated t (bytes_of data s) /\ length t = (3 * length (bytes_of data s) - 1)%nat) \/
  (8 < s_end s - s_start s /\ exists body, t = body ++ txt "..." /\ separated body (firstn 8 (bytes_of data s)) /\ length body = 24%nat).

(** the names of the kinds of segments *)
Definition kind_names : list (segment_kind * string) := [
  (KStartByte, "Start Byte"); (KLength, "Length"); (KCField, "C Field"); (KAField, "A Field"); (KChecksum, "Checksum");
  (KStopByte, "Stop Byte"); (KCiField, "CI Field"); (KIdentificationNumber, "Identification Number");
  (KManufacturerCode, "Manufacturer Code"); (KVersion, "Version"); (KDeviceType, "Device Type");
  (KAccessNumber, "Access Number"); (KStatus, "Status"); (KConfigurationField, "Configuration Field");
  (KEncryptionConfigByte, "Encryption Config Byte"); (KDif, "DIF"); (KDife, "DIFE"); (KVif, "VIF"); (KVife, "VIFE");
  (KPlaintextVif, "Plaintext VIF"); (KDataPayload, "Data"); (KLField, "L Field"); (KWirelessManufacturerId, "Manufacturer ID");
  (KCrc, "CRC"); (KExtendedLinkLayer, "Extended Link Layer"); (KEncryptedPayload, "Encrypted Payload");
  (KManufacturerSpecific, "Manufacturer Specific"); (KIdleFiller, "Idle Filler"); (KUnknown, "Unknown")]%string.

(** the line of a segment: its place, its bytes, its kind and what is known about it *)
Definition segment_row (data : list N) (s : segment) (detail l : text) : Prop :=
  exists place bytes name, place_shown s place /\ segment_bytes_shown data s bytes /\ In (s_kind s, name) kind_names /\
    l = [0x2502; 32; 32] ++ wide 10 place ++ txt " " ++ wide 24 bytes ++ txt " " ++ wide 22 (txt name) ++ txt " " ++ detail.

(** a heading announces each part of the frame, and another one each record *)
Definition part_heading (l : layer) : text :=
  [0x250C; 0x2500; 32]
  ++ txt match l with LFrame => "Frame" | LAppHeader => "Application Header" | LRecordField => "Data Records" end
  ++ txt " " ++ repeat 0x2500 56.
Definition record_heading (g : N) (l : text) : Prop :=
  exists digits, Forall digit_char digits /\ no_leading_zero digits /\ digits <> [] /\ number digits = g /\
    l = [0x2502; 32; 32; 0x2500; 0x2500] ++ txt " Record " ++ digits ++ txt " " ++ [0x2500; 0x2500].

(** [headings previous s lines]: the headings between a segment and the one before it, if any *)
Definition headings (previous : option segment) (s : segment) (lines : list text) : Prop :=
  exists part record, lines = part ++ record /\
    (part = [] \/ part = [part_heading (s_layer s)]) /\
    (part = [] <-> exists p, previous = Some p /\ s_layer p = s_layer s) /\
    match s_layer s, s_group s with
    | LRecordField, Some g =>
        (record = [] <-> exists p, previous = Some p /\ s_layer p = LRecordField /\ s_group p = Some g) /\
        (record = [] \/ exists l, record_heading g l /\ record = [l])
    | _, _ => record = []
    end.

(** [listing data previous segments lines]: the segments, each with what is known about it, one by one *)
Inductive listing (data : list N) : option segment -> list (segment * text) -> list text -> Prop :=
| ListEnd previous : listing data previous [] []
| ListMore previous s detail segments above l lines :
    headings previous s above -> segment_row data s detail l -> listing data (Some s) segments lines ->
    listing data previous ((s, detail) :: segments) (above ++ l :: lines).
