(** The details shown with a decoded frame: its transport header, link layer and security mode,
    and what is shown with a record besides its value, written without reference to the code. *)
From Coq Require Import String List NArith ZArith.
Import ListNotations.
From Verif Require Import Model.Base Model.Text Model.Core Model.F64 Model.Hex Model.DataInfo Model.ValueInfo Model.Record Model.UserData Model.Output
  Spec.TextSpec Spec.WiredSpec Spec.VifSpec Spec.OutputSpec.
Open Scope N_scope.

(** the words for the bits of the status byte that are set, lowest first *)
Fixpoint with_commas (words : list text) : text :=
  match words with [] => [] | [w] => w | w :: rest => w ++ txt ", " ++ with_commas rest end.
Definition status_bits : list (N * text) :=
  [ (1, txt "Counter binary signed"); (2, txt "Counter fixed date"); (4, txt "Power low"); (8, txt "Permanent error");
    (16, txt "Temporary error"); (32, txt "Manufacturer specific 1"); (64, txt "Manufacturer specific 2");
    (128, txt "Manufacturer specific 3") ].
Definition status_text (st : N) : text :=
  match map snd (filter (fun e => (st / fst e) mod 2 =? 1) status_bits) with
  | [] => txt "No Error(s)"
  | words => with_commas words
  end.

(** [opened payload o inner]: [payload] is [inner] inside any number of extended link layers
    without encryption; [o] are the communication control and the access number of the outermost *)
Inductive opened : list N -> option (N * N) -> list N -> Prop :=
| OpenNone inner : opened inner None inner
| OpenEll cc acc rest o inner :
    opened rest o inner -> opened ([0x8C; cc; acc] ++ rest) (Some (cc, acc)) inner.

(** an extended link layer for an encrypted session, inside another one *)
Definition nested_session (payload : list N) : Prop :=
  exists cc acc ci rest, opened payload (Some (cc, acc)) (ci :: rest) /\ (ci = 0x8D \/ ci = 0x8E).

(** the short transport header [head] with access number, status and configuration *)
Inductive short_head : list N -> N -> N -> N -> N -> Prop :=
| HeadShort ci acc st c0 c1 : ci = 0x7A \/ 0xA1 <= ci <= 0xAF -> short_head [ci; acc; st; c0; c1] acc st c0 c1
| HeadA0 x acc st c0 c1 : short_head [0xA0; x; acc; st; c0; c1] acc st c0 c1.

(** the extended link layer shown *)
Definition plain_ell (o : option (N * N)) : option ell_out :=
  match o with
  | Some (cc, acc) =>
      Some {| eo_communication_control := hex_string [cc]; eo_access_number := acc; eo_receiver_manufacturer := None;
              eo_receiver_address := None; eo_session_number := None; eo_payload_crc := None |}
  | None => None
  end.

(** access number, status and configuration [c1 c0], all from [source] *)
Definition header_shown (kind source : text) (acc st c0 c1 : N) (ell : option ell_out) : transport_output :=
  {| to_header_kind := Some kind; to_access_numbers := [(source, acc)];
     to_statuses := [(source, hex_string [st], status_text st)];
     to_configuration := Some (source, hex_string [c1; c0]); to_ell := ell |}.
(** the access number of an extended link layer only *)
Definition ell_shown (acc : N) (ell : option ell_out) : transport_output :=
  {| to_header_kind := Some (txt "ell"); to_access_numbers := [(txt "ell", acc)]; to_statuses := [];
     to_configuration := None; to_ell := ell |}.
(** no header *)
Definition nothing_shown (kind : option text) : transport_output :=
  {| to_header_kind := kind; to_access_numbers := []; to_statuses := []; to_configuration := None; to_ell := None |}.

(** [transport_shown payload t]: [t] says what the message [payload] has before its data *)
Inductive transport_shown : list N -> transport_output -> Prop :=
| TSLong ci i0 i1 i2 i3 m0 m1 v d acc st c0 c1 block :
    ci = 0x72 \/ ci = 0x76 ->
    transport_shown ([ci; i0; i1; i2; i3; m0; m1; v; d; acc; st; c0; c1] ++ block)
      (header_shown (txt "long_tpl") (txt "tpl.long") acc st c0 c1 None)
| TSShort payload o head acc st c0 c1 block :
    opened payload o (head ++ block) -> short_head head acc st c0 c1 ->
    transport_shown payload (header_shown (txt "short_tpl") (txt "tpl.short") acc st c0 c1 (plain_ell o))
| TSNone block : transport_shown (0x78 :: block) (nothing_shown (Some (txt "none")))
| TSEll payload cc acc block :
    opened payload (Some (cc, acc)) (0x78 :: block) ->
    transport_shown payload (ell_shown acc (plain_ell (Some (cc, acc))))
| TSSession cc acc s0 s1 s2 s3 p0 p1 block :
    transport_shown ([0x8D; cc; acc; s0; s1; s2; s3; p0; p1] ++ block)
      (ell_shown acc (Some {| eo_communication_control := hex_string [cc]; eo_access_number := acc;
         eo_receiver_manufacturer := None; eo_receiver_address := None;
         eo_session_number := Some (hex_string [s0; s1; s2; s3]); eo_payload_crc := Some (hex_string [p1; p0]) |}))
| TSSessionTo cc acc m0 m1 a0 a1 a2 a3 a4 a5 s0 s1 s2 s3 p0 p1 block :
    transport_shown ([0x8E; cc; acc; m0; m1; a0; a1; a2; a3; a4; a5; s0; s1; s2; s3; p0; p1] ++ block)
      (ell_shown acc (Some {| eo_communication_control := hex_string [cc]; eo_access_number := acc;
         eo_receiver_manufacturer := Some (hex_string [m1; m0]);
         eo_receiver_address := Some (hex_string [a0; a1; a2; a3; a4; a5]);
         eo_session_number := Some (hex_string [s0; s1; s2; s3]); eo_payload_crc := Some (hex_string [p1; p0]) |}))
| TSFixed ci i0 i1 i2 i3 acc st rest :
    ci = 0x73 \/ ci = 0x77 ->
    transport_shown ([ci; i0; i1; i2; i3; acc; st] ++ rest)
      {| to_header_kind := Some (txt "fixed"); to_access_numbers := [(txt "application.fixed", acc)];
         to_statuses := [(txt "application.fixed", hex_string [st], status_text st)];
         to_configuration := None; to_ell := None |}
| TSReset rest : transport_shown (0x50 :: rest) (nothing_shown (Some (txt "application_reset"))).

(** the names of the security modes 0 to 15; the others are shown with their number *)
Definition mode_names : list text :=
  [ txt "No encryption used"; txt "Manufacturer specific usage"; txt "DES; IV = 0 (deprecated)";
    txt "DES; IV " ++ [0x2260] ++ txt " 0 (deprecated)"; txt "Specific usage (Bibliographical Entry [6])";
    txt "AES-CBC-128; IV " ++ [0x2260] ++ txt " 0"; txt "Reserved for future use"; txt "AES-CBC-128; IV = 0";
    txt "AES-CTR-128; CMAC"; txt "AES-GCM-128"; txt "AES-CCM-128"; txt "Reserved for future use";
    txt "Reserved for future use"; txt "Specific usage (Bibliographical Entry [8])"; txt "Reserved for future use";
    txt "Specific usage (Bibliographical Entry [7])" ].
Inductive mode_name : N -> text -> Prop :=
| ModeNamed m t : nth_error mode_names (N.to_nat m) = Some t -> mode_name m t
| ModeNumber m t : 16 <= m < 32 -> integer_text t (Z.of_N m) -> mode_name m (txt "Reserved for future use (mode " ++ t ++ txt ")").

(** the security mode of a message: bits 0 to 4 of the high byte of its configuration *)
Inductive has_mode : list N -> option N -> Prop :=
| ModeLong ci i0 i1 i2 i3 m0 m1 v d acc st c0 c1 block :
    ci = 0x72 \/ ci = 0x76 ->
    has_mode ([ci; i0; i1; i2; i3; m0; m1; v; d; acc; st; c0; c1] ++ block) (Some (c1 mod 32))
| ModeShort payload o head acc st c0 c1 block :
    opened payload o (head ++ block) -> short_head head acc st c0 c1 -> has_mode payload (Some (c1 mod 32))
| ModeNone payload o ci rest : opened payload o (ci :: rest) -> In ci [0x50; 0x73; 0x77; 0x78] -> has_mode payload None
| ModeSession ci rest : ci = 0x8D \/ ci = 0x8E -> has_mode (ci :: rest) None.

(** the text for each control byte *)
Definition function_texts : list (N * text) :=
  [ (0x40, txt "SND_NKE (PRM: false)"); (0x44, txt "SND_NR");
    (0x53, txt "SND_UD (FCB: false)"); (0x73, txt "SND_UD (FCB: true)");
    (0x5B, txt "REQ_UD2 (FCB: false)"); (0x7B, txt "REQ_UD2 (FCB: true)");
    (0x5A, txt "REQ_UD1 (FCB: false)"); (0x7A, txt "REQ_UD1 (FCB: true)");
    (0x08, txt "RSP_UD (ACD: false, DFC: false)"); (0x18, txt "RSP_UD (ACD: false, DFC: true)");
    (0x28, txt "RSP_UD (ACD: true, DFC: false)"); (0x38, txt "RSP_UD (ACD: true, DFC: true)") ].
(** the text for an address byte *)
Definition address_text (a : N) (t : text) : Prop :=
  if a =? 0 then t = txt "Uninitalized"
  else if a =? 253 then t = txt "Secondary"
  else if a =? 254 then t = txt "Broadcast (Reply Required: true)"
  else if a =? 255 then t = txt "Broadcast (Reply Required: false)"
  else exists n, integer_text n (Z.of_N a) /\ t = txt "Primary (" ++ n ++ txt ")".

(** [frame_shown data f payload]: the wired frame [data] is shown as [f] with this payload *)
Inductive frame_shown : list N -> frame_output -> option (list N) -> Prop :=
| FSSingle rest :
    frame_shown (0xE5 :: rest)
      {| fo_kind := txt "single_character"; fo_function := None; fo_address := None; fo_control_field := None |} None
| FSShort c a t s :
    In (c, t) function_texts -> address_text a s ->
    frame_shown (short_layout c a)
      {| fo_kind := txt "short"; fo_function := Some t; fo_address := Some s; fo_control_field := None |} None
| FSLong x c a t s payload :
    In (c, t) function_texts -> address_text a s ->
    frame_shown (long_layout x c a payload)
      {| fo_kind := if c =? 0x53 then txt "control" else txt "long"; fo_function := Some t; fo_address := Some s;
         fo_control_field := None |} (Some payload).

(** EN 13757-3: the function of a value, bits 4 and 5 of the DIF *)
Definition functions : list text :=
  [ txt "Instantaneous value"; txt "Maximum value"; txt "Minimum value"; txt "Value during error state" ].
(** the data field, bits 0 to 3 of the DIF *)
Definition codings : list text :=
  [ txt "No data"; txt "8-bit integer"; txt "16-bit integer"; txt "24-bit integer"; txt "32-bit integer"; txt "32-bit real";
    txt "48-bit integer"; txt "64-bit integer"; txt "Selection for readout"; txt "2-digit BCD"; txt "4-digit BCD";
    txt "6-digit BCD"; txt "8-digit BCD"; txt "Variable length"; txt "12-digit BCD" ].
(** what is shown: the VIFs for dates and times fix the coding *)
Definition coding_shown (dif vif : N) (t : text) : Prop :=
  if vif mod 128 =? 0x6C then t = txt "Date (type G)"
  else if vif mod 128 =? 0x6D then
    t = (if dif mod 16 =? 6 then txt "Date and time (type I)" else txt "Date and time (type F)")
  else nth_error codings (N.to_nat (dif mod 16)) = Some t.

(** the names of the quantities of the primary VIFs, and their units in the notation of UCUM *)
Definition quantity_texts : list (value_label * text) :=
  [ (LEnergy, txt "Energy"); (LVolume, txt "Volume"); (LMass, txt "Mass"); (LOnTime, txt "On time");
    (LOperatingTime, txt "Operating time"); (LPower, txt "Power"); (LVolumeFlow, txt "Volume flow");
    (LMassFlow, txt "Mass flow"); (LFlowTemperature, txt "Flow temperature"); (LReturnTemperature, txt "Return temperature");
    (LTemperatureDifference, txt "Temperature difference"); (LExternalTemperature, txt "External temperature");
    (LPressure, txt "Pressure"); (LDate, txt "Time point (date)"); (LDateTime, txt "Time point (date and time)");
    (LDimensionlessHCA, txt "Dimensionless HCA"); (LAveragingDuration, txt "Averaging duration");
    (LActualityDuration, txt "Actuality duration"); (LFabricationNumber, txt "Fabrication number");
    (LEnhancedIdentification, txt "Enhanced identification"); (LAddress, txt "Address") ].
Definition unit_texts : list (list unit_ * text) :=
  map (fun '(u, t) => (unit_of u, t))
  [ ([(UWatt, 1%Z); (UHour, 1%Z)], txt "W.h"); ([(UJoul, 1%Z)], txt "J"); ([(UMeter, 3%Z)], txt "m3");
    ([(UKilogram, 1%Z)], txt "kg"); ([(USecond, 1%Z)], txt "s"); ([(UMinute, 1%Z)], txt "min"); ([(UHour, 1%Z)], txt "h");
    ([(UDay, 1%Z)], txt "d"); ([(UWatt, 1%Z)], txt "W"); ([(UJoul, 1%Z); (UHour, (-1)%Z)], txt "J.h-1");
    ([(UMeter, 3%Z); (UHour, (-1)%Z)], txt "m3.h-1"); ([(UMeter, 3%Z); (UMinute, (-1)%Z)], txt "m3.min-1");
    ([(UMeter, 3%Z); (USecond, (-1)%Z)], txt "m3.s-1"); ([(UKilogram, 1%Z); (UHour, (-1)%Z)], txt "kg.h-1");
    ([(UCelsius, 1%Z)], txt "Cel"); ([(UKelvin, 1%Z)], txt "K"); ([(UBar, 1%Z)], txt "bar") ].

(** the received bytes [data], the frame [w] in them and its payload, shown *)
Definition raw_shown (data w : list N) (stripped : bool) (payload : option (list N)) : raw_output :=
  {| rw_input := None; rw_original_frame_hex := hex_string data; rw_normalized_frame_hex := hex_string w;
     rw_byte_length := len data; rw_format_a_crc_stripped := stripped; rw_payload_hex := option_map hex_string payload |}.

(** the special functions: manufacturer data, with or without more records in the next telegram,
    and the request to read out everything *)
Inductive special_shown : N -> text -> value_out -> Prop :=
| SpecialData : special_shown 0x0F (txt "Manufacturer specific") {| vo_kind := txt "manufacturer_specific"; vo_value := None |}
| SpecialMore : special_shown 0x1F (txt "More records follow") {| vo_kind := txt "manufacturer_specific"; vo_value := None |}
| SpecialReadout : special_shown 0x7F (txt "Global readout request") {| vo_kind := txt "none"; vo_value := None |}.

(** bytes that say the message comes from the meter, and that it goes to the meter *)
Definition from_meter (ci : N) : Prop := 0x6E <= ci <= 0x7F \/ 0x8A <= ci <= 0x8E \/ 0xA0 <= ci <= 0xAF.
Definition to_meter (ci : N) : Prop :=
  In ci [0x50; 0x51; 0x52; 0x54; 0x5A; 0x5B; 0x60; 0x61; 0x64; 0x65; 0x69; 0x6A; 0x6B; 0x6C; 0x6D; 0x80; 0x81; 0x82; 0x83; 0x84; 0x85; 0x89] \/
  0x90 <= ci <= 0x97 \/ In ci [0xB1; 0xB2; 0xB3; 0xB4; 0xB6] \/ 0xB8 <= ci <= 0xBF.

(** dates and times in digits *)
Definition two_digits (n : N) : text := [48 + n / 10; 48 + n mod 10].
Definition date_text (y m d : N) : text :=
  two_digits (y / 100) ++ two_digits (y mod 100) ++ txt "-" ++ two_digits m ++ txt "-" ++ two_digits d.
Definition time_text (h mi s : N) : text := two_digits h ++ txt ":" ++ two_digits mi ++ txt ":" ++ two_digits s.

(** the parts of a date that is not a single one: the number, or a word *)
Definition part (every x : N) : N + text := if x =? every then inr (txt "every") else inl x.
Definition month_part (m : N) : N + text :=
  match nth_error [txt "invalid"; txt "January"; txt "February"; txt "March"; txt "April"; txt "May"; txt "June"; txt "July";
                   txt "August"; txt "September"; txt "October"; txt "November"; txt "December"] (N.to_nat m) with
  | Some t => inr t
  | None => inr (txt "invalid")
  end.

(** [day_shown d m y v]: [v] is shown for the day [d] (0 for every), month [m] and year [y] (127 for every) *)
Definition day_shown (d m y : N) (v : json_value) : Prop :=
  if negb (d =? 0) && (1 <=? m) && (m <=? 12) && negb (y =? 127) then v = JString (date_text y m d)
  else v = JObject [(txt "day", part 0 d); (txt "month", month_part m); (txt "year", part 127 y)].
(** with hour (31 for every) and minute (63 for every), where the day 31 also stands for every *)
Definition minute_shown (d m y h mi : N) (v : json_value) : Prop :=
  if negb (d =? 31) && (1 <=? m) && (m <=? 12) && negb (y =? 127) && negb (h =? 31) && negb (mi =? 63)
  then v = JString (date_text y m d ++ txt "T" ++ time_text h mi 0)
  else v = JObject [(txt "day", part 31 d); (txt "hour", part 31 h); (txt "minute", part 63 mi); (txt "month", month_part m);
                    (txt "year", part 127 y)].
(** with the second too; every second is shown as the second 0 unless more is missing *)
Definition second_shown (d m y h mi s : N) (v : json_value) : Prop :=
  if negb (d =? 31) && (1 <=? m) && (m <=? 12) && negb (y =? 127) && negb (h =? 31) && negb (mi =? 63)
  then v = JString (date_text y m d ++ txt "T" ++ time_text h mi (if s =? 63 then 0 else s))
  else v = JObject [(txt "day", part 31 d); (txt "hour", part 31 h); (txt "minute", part 63 mi); (txt "month", month_part m);
                    (txt "second", part 63 s); (txt "year", part 127 y)].

(** UTF-8: the bytes of a character, and of a text *)
Definition scalar (c : N) : Prop := c < 0xD800 \/ 0xE000 <= c < 0x110000.
Definition utf8_char (c : N) : list N :=
  if c <? 0x80 then [c]
  else if c <? 0x800 then [0xC0 + c / 64; 0x80 + c mod 64]
  else if c <? 0x10000 then [0xE0 + c / 4096; 0x80 + c / 64 mod 64; 0x80 + c mod 64]
  else [0xF0 + c / 262144; 0x80 + c / 4096 mod 64; 0x80 + c / 64 mod 64; 0x80 + c mod 64].
Definition utf8 (t : text) (bs : list N) : Prop := Forall scalar t /\ bs = flat_map utf8_char t.

(** the text transmitted as [body], last character first: UTF-8, or else one character per byte *)
Definition reads_text (body : list N) (t : text) : Prop :=
  utf8 t (rev body) \/ ((forall t', ~ utf8 t' (rev body)) /\ t = rev body).

(** the JSON value for a floating point number *)
Definition float_shown (f : f64) : json_value :=
  match f with
  | S754_nan => JString (txt "nan")
  | S754_infinity s => JString (if s then txt "negative_infinity" else txt "positive_infinity")
  | _ => JFloat f
  end.

(** the message is secured: its security mode is not 0, or it is in an encrypted session *)
Definition secured (payload : list N) : Prop :=
  (exists m, has_mode payload (Some m) /\ m <> 0) \/
  (exists ci rest, payload = ci :: rest /\ (ci = 0x8D \/ ci = 0x8E)).

(** severity, code and layer of the notices *)
Definition notices : list (text * text * text) :=
  [ (txt "warning", txt "application.partial", txt "application");
    (txt "warning", txt "security.key_missing", txt "security");
    (txt "info", txt "security.decrypted_unverified", txt "security");
    (txt "info", txt "security.key_unused", txt "security");
    (txt "warning", txt "application.record_partial", txt "application") ].

(** [read_result message items res]: [res] is right for a buffer with these records *)
Inductive read_result (message : data_record_error -> text) : list (outcome data_record_error data_record) -> outcome output_error (list record_out) -> Prop :=
| ReadAll rs outs : listed 0 rs outs -> read_result message (map Ok rs) (Ok outs)
| ReadError rs e off : read_result message (map Ok rs ++ [Err e]) (Err (ORecordsInvalid off (message e)))
| ReadPanic rs p : read_result message (map Ok rs ++ [Panic p]) (Panic p).
