(** What decoding a frame for display should give, written without reference to the code. *)
From Coq Require Import List NArith ZArith QArith String.
Import ListNotations.
From Verif Require Import Model.Base Model.Text Model.Core Model.Wired Model.Wireless Model.DataInfo Model.ValueInfo Model.Record Model.UserData
  Model.MbusData Model.Output Spec.TextSpec Spec.CoreSpec Spec.CrcSpec Spec.WiredSpec Spec.WirelessSpec Spec.DecryptSpec Spec.RecordSpec Spec.AppSpec Spec.AnnotateSpec Spec.MbusSpec.
Open Scope N_scope.

(** [message data payload id]: the received bytes [data] are a frame that carries the
    application message [payload]; [id] is the meter its link layer names, which only
    wireless frames do.  Wireless frames may be in Format A. *)
Inductive message : list N -> list N -> option manufacturer_id -> Prop :=
| MsgWired data f a payload :
    wired_meaning data (LongFrame f a payload) -> message data payload None
| MsgWireless data w fr :
    not_wired data -> received data w -> wireless_meaning w fr ->
    message data (wf_data fr) (Some (wf_manufacturer_id fr)).

(** the same with the bytes of the meter's address in the link layer, in place of its name *)
Inductive addressed : list N -> list N -> list N -> Prop :=
| AddrWired data f a payload :
    wired_meaning data (LongFrame f a payload) -> addressed data [] payload
| AddrWireless data l c link rest fr :
    length link = 8%nat -> not_wired data -> received data ([l; c] ++ link ++ rest) ->
    wireless_meaning ([l; c] ++ link ++ rest) fr -> addressed data link (wf_data fr).

(** the bytes are a frame: a wired one, or a wireless one as it is or in Format A *)
Inductive readable : list N -> Prop :=
| ReadWired data fr : wired_meaning data fr -> readable data
| ReadWireless data w fr : not_wired data -> received data w -> wireless_meaning w fr -> readable data.

(** what is taken as the wireless frame: the bytes themselves, or, if the first block is
    followed by its CRC, without the CRCs and with the length recomputed *)
Inductive normalized (data : list N) : list N -> Prop :=
| NormKeep : normalized data data
| NormStrip head hi lo encoded content :
    data = head ++ [hi; lo] ++ encoded -> length head = 10%nat -> is_crc head (256 * hi + lo) ->
    strips encoded content -> normalized data (with_length (head ++ content)).

(** the message is encrypted: its transport header says so, or it starts with an
    extended link layer for encrypted sessions *)
Inductive protected : list N -> Prop :=
| ProtTransport p block : encrypted_message p block -> protected p
| ProtEllII cc acc s0 s1 s2 s3 p0 p1 block : protected ([0x8D; cc; acc; s0; s1; s2; s3; p0; p1] ++ block)
| ProtEllIII cc acc m0 m1 a0 a1 a2 a3 a4 a5 s0 s1 s2 s3 p0 p1 block :
    protected ([0x8E; cc; acc; m0; m1; a0; a1; a2; a3; a4; a5; s0; s1; s2; s3; p0; p1] ++ block).

(** the message is in clear, and [block] are its records: [clear_message] without the
    extended link layers for encrypted sessions *)
Inductive in_clear : list N -> list N -> Prop :=
| InClrLong ci i0 i1 i2 i3 m0 m1 v d acc st c0 c1 block :
    ci = 0x72 \/ ci = 0x76 -> c1 mod 32 = 0 ->
    in_clear ([ci; i0; i1; i2; i3; m0; m1; v; d; acc; st; c0; c1] ++ block) block
| InClrShort ci acc st c0 c1 block :
    ci = 0x7A \/ 0xA1 <= ci <= 0xAF -> c1 mod 32 = 0 ->
    in_clear ([ci; acc; st; c0; c1] ++ block) block
| InClrShortA0 x acc st c0 c1 block :
    c1 mod 32 = 0 -> in_clear ([0xA0; x; acc; st; c0; c1] ++ block) block
| InClrNone block : in_clear (0x78 :: block) block
| InClrEll cc acc rest block :
    in_clear rest block -> in_clear ([0x8C; cc; acc] ++ rest) block.

(** [taken aes data key block]: the bytes [block] are part of the frame [data], or, with a key, the decryption of the encrypted
    part of the message that [data] carries *)
Inductive taken (aes : list N -> list N -> list N) (data : list N) : option (list N) -> list N -> Prop :=
| TakenClear key w pre block post : normalized data w -> w = pre ++ block ++ post -> taken aes data key block
| TakenOpened k w pre p post cipher iv block :
    normalized data w -> w = pre ++ p ++ post -> encrypted_message p cipher ->
    length iv = 16%nat -> opened (aes k) iv cipher block -> taken aes data (Some k) block.

(** the output mentions a problem with this code *)
Definition mentions (d : decoded_output) (code : text) : Prop :=
  exists x, In x (do_diagnostics d) /\ dg_code x = code.

(** [fails_at parse data pos skips]: reading [data] from left to right one meets records and
    [skips] bytes that carry nothing, until a record that cannot be read at byte [pos] *)
Inductive fails_at (parse : list N -> item) : list N -> N -> N -> Prop :=
| FailsHere b t e : ~ skipped b -> parse (b :: t) = Err e -> fails_at parse (b :: t) 0 0
| FailsSkip b rest pos skips :
    skipped b -> fails_at parse rest pos skips -> fails_at parse (b :: rest) (pos + 1) (skips + 1)
| FailsLater b t r rest pos skips :
    ~ skipped b -> parse (b :: t) = Ok r -> b :: t = dr_raw_bytes r ++ rest ->
    fails_at parse rest pos skips -> fails_at parse (b :: t) (pos + len (dr_raw_bytes r)) skips.

(** two outputs that say the same, except for the received bytes *)
Definition same_but_raw (a b : decoded_output) : Prop :=
  do_decode_state a = do_decode_state b /\ do_protocol a = do_protocol b /\ do_frame a = do_frame b /\
  do_identity a = do_identity b /\ do_alternate_identities a = do_alternate_identities b /\
  do_transport a = do_transport b /\ do_security a = do_security b /\ do_records a = do_records b /\
  do_diagnostics a = do_diagnostics b /\ do_enrichment a = do_enrichment b.

(** two outputs that say the same, except for the details of the manufacturer *)
Definition same_but_enrichment (a b : decoded_output) : Prop :=
  do_decode_state a = do_decode_state b /\ do_protocol a = do_protocol b /\ do_frame a = do_frame b /\
  do_identity a = do_identity b /\ do_alternate_identities a = do_alternate_identities b /\
  do_transport a = do_transport b /\ do_security a = do_security b /\ do_records a = do_records b /\
  do_raw a = do_raw b /\ do_diagnostics a = do_diagnostics b.

(** [listed index rs outs]: [outs] are the records [rs] one by one, numbered from [index] *)
Inductive listed : N -> list data_record -> list record_out -> Prop :=
| ListedEnd index : listed index [] []
| ListedNext index r rs outs :
    listed (index + 1) rs outs -> listed index (r :: rs) (record_output index r :: outs).

(** [shown env block res]: [res], the result of decoding a frame whose records are [block],
    shows the records of [block]: all of them; or those before the first that cannot be read,
    with its reason; and panics when reading them does *)
Inductive shown (env : environment) (block : list N) : outcome output_error decoded_output -> Prop :=
| ShownAll rs d :
    records_all (env_config env) block None = Some (map Ok rs) -> listed 0 rs (do_records d) ->
    do_decode_state d = txt "complete" -> ~ mentions d (txt "application.record_partial") ->
    shown env block (Ok d)
| ShownPart rs e d pos skips :
    records_all (env_config env) block None = Some (map Ok rs ++ [Err e]) -> listed 0 rs (do_records d) ->
    do_decode_state d = txt "partial" ->
    fails_at (fun b => data_record_parse (env_config env) b None) block pos skips ->
    In {| dg_severity := txt "warning"; dg_code := txt "application.record_partial"; dg_layer := txt "application";
          dg_message := env_record_message env e; dg_offset_start := Some (pos - skips) |} (do_diagnostics d) ->
    shown env block (Ok d)
| ShownPanic rs p :
    records_all (env_config env) block None = Some (map Ok rs ++ [Panic p]) -> shown env block (Panic p).

(** two texts of hexadecimal digits separated by spaces, put together *)
Definition without_spaces (t : text) : text := filter (fun c => negb (c =? 32)) t.

(** the same result, except for the received bytes *)
Definition same_result (x y : outcome output_error decoded_output) : Prop :=
  match x, y with
  | Ok a, Ok b => same_but_raw a b
  | Err e, Err e' => e = e'
  | Panic p, Panic p' => p = p'
  | _, _ => False
  end.

(** two outputs that say the same, except for whether a key was given *)
Definition same_but_key (a b : decoded_output) : Prop :=
  do_decode_state a = do_decode_state b /\ do_protocol a = do_protocol b /\ do_frame a = do_frame b /\
  do_identity a = do_identity b /\ do_alternate_identities a = do_alternate_identities b /\
  do_transport a = do_transport b /\ do_records a = do_records b /\ do_raw a = do_raw b /\
  do_enrichment a = do_enrichment b /\
  so_payload_protection (do_security a) = so_payload_protection (do_security b) /\
  so_decryption_state (do_security a) = so_decryption_state (do_security b) /\
  (forall x, dg_code x <> txt "security.key_unused" -> In x (do_diagnostics a) <-> In x (do_diagnostics b)).

(** the digits packed in these bytes, most significant first *)
Definition packed_digits (bytes : list N) (t : text) : Prop :=
  exists digits, spells digits bytes /\ t = map (fun d => 48 + d) (rev digits).

(** [names_meter x source number m v d]: [x], found in [source], is the meter with the packed
    number [number], the manufacturer id [m], the version [v] and the device type byte [d] *)
Definition names_meter (x : meter_identity) (source : text) (number : list N) (m v d : N) : Prop :=
  id_source x = source /\
  (exists t, id_id x = Some t /\ packed_digits number t) /\
  (forall a b c, capital a -> capital b -> capital c -> m = flag_id a b c -> id_manufacturer_code x = Some [a; b; c]) /\
  ((forall a b c, capital a -> capital b -> capital c -> m <> flag_id a b c) -> id_manufacturer_code x = None) /\
  id_version x = Some v /\ id_device_type_code x = Some d.

(** the extensions 78 to 7B add a power of ten to the value; the last one counts *)
Definition additive (e : N) : Prop := 0x78 <= e mod 128 <= 0x7B.
Inductive addition (vifes : list N) : option Z -> Prop :=
| AddNone : Forall (fun e => ~ additive e) vifes -> addition vifes None
| AddLast pre e post :
    vifes = pre ++ e :: post -> additive e -> Forall (fun e => ~ additive e) post ->
    addition vifes (Some (Z.of_N (e mod 4) - 3)%Z).

(** [shows_number o h z]: the record shown as [o] has the number [z] in its data field, and the
    text shown denotes exactly [z] times the power of ten of its unit, plus the addition *)
Definition shows_number (o : record_out) (h : data_record_header) (z : Z) : Prop :=
  exists v b offset t,
    ph_value_information (drh_processed h) = Some v /\ rh_vib (drh_raw h) = Some b /\
    addition (match vib_vifes b with Some l => l | None => [] end) offset /\
    vo_kind (ro_value o) = txt "decimal" /\ vo_value (ro_value o) = Some (JString t) /\
    decimal_text t (inject_Z z * ten_power (vi_decimal_scale_exponent v) + addend offset)%Q.

(** [pieces data l]: [data] are the runs of bytes [l] one after the other, with bytes between
    them that carry nothing *)
Inductive pieces : list N -> list (list N) -> Prop :=
| PiecesEnd : pieces [] []
| PiecesSkip b rest l : skipped b -> pieces rest l -> pieces (b :: rest) l
| PiecesRun b t rest l : ~ skipped b -> pieces rest l -> pieces ((b :: t) ++ rest) ((b :: t) :: l).
