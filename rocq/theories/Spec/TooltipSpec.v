(** What the text shown over a byte range should say, written without reference to the code that makes it. *)
From Coq Require Import List NArith ZArith Bool String.
Import ListNotations.
From Verif Require Import Model.Base Model.Text Model.Core Model.F64 Model.Wired Model.DataInfo Model.ValueInfo Model.Record
  Model.Show Model.Annotate Model.AnnotateText Spec.WiredSpec Spec.DetailSpec Spec.LegacySpec Spec.AnnotateSpec.
Open Scope N_scope.
Open Scope list_scope.

(** bytes in hexadecimal, in the order of the frame *)
Definition hex_digits : text := txt "0123456789ABCDEF".
Definition hex_of (bytes : list N) : text :=
  concat (map (fun b => [nth (N.to_nat (b / 16)) hex_digits 0; nth (N.to_nat (b mod 16)) hex_digits 0]) bytes).

(** the control information bytes that are known, with their words *)
Definition ci_words (ci : N) (words : text) : Prop :=
  (ci = 0x72 /\ words = txt "Variable Data, Long TPL") \/ (ci = 0x76 /\ words = txt "Variable Data, Long TPL, LSB") \/
  ((ci = 0x7A \/ 0xA0 <= ci <= 0xAF) /\ words = txt "Short TPL") \/
  (ci = 0x78 /\ words = txt "Application Layer, no TPL header") \/
  (ci = 0x8C /\ words = txt "ELL I") \/ (ci = 0x8D /\ words = txt "ELL II") \/ (ci = 0x8E /\ words = txt "ELL III").

(** [cut_short bytes t]: a message of which not even the header is there: the bytes a header of this kind has at least *)
Definition cut_short (bytes : list N) (t : text) : Prop :=
  exists ci rest name least, bytes = ci :: rest /\ len bytes < least /\ t = txt "Incomplete " ++ name ++ txt " header" /\
    ((ci = 0x72 \/ ci = 0x76) /\ name = txt "long TPL" /\ least = 13 \/
     (ci = 0x7A \/ 0xA1 <= ci <= 0xAF) /\ name = txt "short TPL" /\ least = 5 \/
     ci = 0xA0 /\ name = txt "short TPL" /\ least = 6 \/
     ci = 0x8C /\ name = txt "ELL I" /\ least = 3 \/
     ci = 0x8D /\ name = txt "ELL II" /\ least = 9 \/
     ci = 0x8E /\ name = txt "ELL III" /\ least = 17).

(** [says cf radio at_ l bytes k t]: [t] is the right text for a range of layer [l] and kind [k] that begins at byte [at_] of
    a frame, a wireless one if [radio], and holds [bytes].  The values of records are not here, since they are not told by
    these bytes alone. *)
Inductive says (cf : config) : bool -> N -> layer -> list N -> segment_kind -> text -> Prop :=
(* the link layer *)
| SaySingle : says cf false 0 LFrame [0xE5] KStartByte (txt "Single Character: 0xE5")
| SayStartShort : says cf false 0 LFrame [0x10] KStartByte (txt "Start: 0x10")
| SayStartLong : says cf false 0 LFrame [0x68] KStartByte (txt "Start: 0x68")
| SayStartAgain : says cf false 3 LFrame [0x68] KStartByte (txt "Start: 0x68 (repeated)")
| SayLength n : says cf false 1 LFrame [n; n] KLength (txt "Length: " ++ dec n ++ txt " (repeated)")
| SayShortFunction c t : In (c, t) function_texts -> says cf false 1 LFrame [c] KCField (txt "C Field: " ++ t)
| SayFunction c t : In (c, t) function_texts ->
    says cf false 4 LFrame [c] KCField (txt "C Field: " ++ t ++ (if c =? 0x53 then txt " (Control)" else []))
| SayAddress at_ a t : address_text a t -> says cf false at_ LFrame [a] KAField (txt "Address: " ++ t)
| SayChecksum at_ b : says cf false at_ LFrame [b] KChecksum (txt "Checksum: 0x" ++ hex_of [b])
| SayStop at_ : says cf false at_ LFrame [0x16] KStopByte (txt "Stop: 0x16")
| SayControl bytes : says cf false 6 LAppHeader bytes KUnknown (txt "Control frame data")
| SayL n : says cf true 0 LFrame [n] KLField (txt "L Field: " ++ dec n)
| SayC c : says cf true 1 LFrame [c] KCField (txt "C Field: 0x" ++ hex_of [c])
| SayCrc at_ a b : says cf true at_ LFrame [a; b] KCrc (txt "CRC: 0x" ++ hex_of [a; b])
(* the meter, in the link layer of a wireless frame and in the long header *)
| SayNumber radio at_ l a b c d : says cf radio at_ l [a; b; c; d] KIdentificationNumber (txt "ID: " ++ hex_of [a; b; c; d])
| SayManufacturer radio at_ l a b : says cf radio at_ l [a; b] KManufacturerCode (txt "Manufacturer: 0x" ++ hex_of [a; b])
| SayVersion radio at_ l v : says cf radio at_ l [v] KVersion (txt "Version: " ++ dec v)
| SayDevice radio at_ l d : says cf radio at_ l [d] KDeviceType (txt "Device Type: 0x" ++ hex_of [d])
(* the headers of the application layer *)
| SayCi radio at_ ci words : ci_words ci words ->
    says cf radio at_ LAppHeader [ci] KCiField (txt "CI: 0x" ++ hex_of [ci] ++ txt " (" ++ words ++ txt ")")
| SayAccess radio at_ n : says cf radio at_ LAppHeader [n] KAccessNumber (txt "Access Number: " ++ dec n)
| SayStatus radio at_ s : says cf radio at_ LAppHeader [s] KStatus (txt "Status: 0x" ++ hex_of [s])
| SayConfiguration radio at_ a b :
    says cf radio at_ LAppHeader [a; b] KConfigurationField (txt "Configuration: 0x" ++ hex_of [a; b])
| SayEncryption radio at_ b : says cf radio at_ LAppHeader [b] KEncryptionConfigByte (txt "Encryption config: 0x" ++ hex_of [b])
| SayEllI radio at_ bytes : len bytes = 2 -> says cf radio at_ LAppHeader bytes KExtendedLinkLayer (txt "ELL I: CC + Access Number")
| SayEllII radio at_ bytes : len bytes = 8 ->
    says cf radio at_ LAppHeader bytes KExtendedLinkLayer (txt "ELL II: CC + ACC + SN[4] + CRC[2]")
| SayEllIII radio at_ bytes : len bytes = 16 ->
    says cf radio at_ LAppHeader bytes KExtendedLinkLayer (txt "ELL III: CC + ACC + MFR[2] + ADDR[6] + SN[4] + CRC[2]")
| SayIncomplete radio at_ bytes t : cut_short bytes t -> says cf radio at_ LAppHeader bytes KUnknown t
| SayUnknown radio at_ ci bytes : (forall words, ~ ci_words ci words) ->
    says cf radio at_ LAppHeader (ci :: bytes) KUnknown (txt "Unknown CI: 0x" ++ hex_of [ci])
(* the records *)
| SayEncrypted radio at_ bytes : bytes <> [] -> says cf radio at_ LRecordField bytes KEncryptedPayload (txt "Encrypted variable data")
| SayFiller radio at_ : says cf radio at_ LRecordField [0x2F] KIdleFiller (txt "Idle Filler: 0x2F")
| SaySpecific radio at_ bytes :
    says cf radio at_ LRecordField (0x0F :: bytes) KManufacturerSpecific
      (txt "Manufacturer Specific: 0x0F (" ++ dec (1 + len bytes) ++ txt " bytes)")
| SayMore radio at_ bytes :
    says cf radio at_ LRecordField (0x1F :: bytes) KManufacturerSpecific
      (txt "More Records Follow: 0x1F (" ++ dec (1 + len bytes) ++ txt " bytes)")
| SaySpecial radio at_ b : b mod 16 = 15 -> b <> 0x0F -> b <> 0x1F -> b <> 0x2F ->
    says cf radio at_ LRecordField [b] KUnknown (txt "Special DIF: 0x" ++ hex_of [b])
| SayDif radio at_ b : says cf radio at_ LRecordField [b] KDif (txt "DIF: 0x" ++ hex_of [b])
| SayDife radio at_ bytes : bytes <> [] ->
    says cf radio at_ LRecordField bytes KDife (txt "DIFE: " ++ dec (len bytes) ++ txt " byte(s)")
| SayVif radio at_ b : says cf radio at_ LRecordField [b] KVif (txt "VIF: 0x" ++ hex_of [b])
| SayVife radio at_ bytes : bytes <> [] ->
    says cf radio at_ LRecordField bytes KVife (txt "VIFE: " ++ dec (len bytes) ++ txt " byte(s)")
| SayText radio at_ chars :
    says cf radio at_ LRecordField (len chars :: chars) KPlaintextVif (txt "Plaintext VIF: """ ++ chars ++ txt """")
| SayUnreadable radio at_ bytes e : data_record_parse cf bytes None = Err e ->
    says cf radio at_ LRecordField bytes KUnknown (txt "Unparseable data record bytes").

(** a range of the frame [data] has the right text.  Two exceptions: with the text-first setting the text of a VIF is not
    where its label is; and a frame is accepted whatever its fourth byte, the second start byte, is. *)
Definition right_text (cf : config) (radio : bool) (data : list N) (x : told) : Prop :=
  let '(s, t) := x in
  s_kind s <> KDataPayload -> (s_kind s = KPlaintextVif -> plaintext_before_extension cf = false) ->
  (s_kind s = KStartByte -> s_start s = 3 -> get data 3 = Some 0x68) ->
  says cf radio (s_start s) (s_layer s) (slice data (s_start s) (s_end s)) (s_kind s) t.

(** [value_told display r t]: [t] is the value of the record [r] *)
Definition value_told (display : f64 -> text) (r : data_record) (t : text) : Prop :=
  match d_value (dr_data r) with
  | Some v => old_value display v t
  | None => t = txt "No Data"
  end.

(** not a global readout request, which is a record to the parser and not to the annotator *)
Definition not_readout (x : outcome data_record_error data_record) : Prop :=
  forall r, x = Ok r -> dib_dif (rh_dib (drh_raw (dr_header r))) <> 0x7F.

(** the text over byte [i] *)
Definition text_at (x : list told) (i : N) : option text :=
  option_map snd (find (fun '(s, _) => (s_start s <=? i) && (i <? s_end s)) x).

(** the ranges without their texts *)
Definition ranges (x : outcome annotate_error (list told)) : outcome annotate_error (list segment) :=
  match x with Ok l => Ok (map fst l) | Err e => Err e | Panic p => Panic p end.
