(** Record-level forms, witnesses and examples for Props/Details.v. *)
From Coq Require Import List NArith ZArith QArith Lia Bool String.
Import ListNotations.
From Verif Require Import Model.Base Model.Text Model.Core Model.Wired Model.Wireless Model.F64 Model.DataInfo Model.ValueInfo Model.Record Model.Decrypt
  Model.UserData Model.Hex Model.Decimal Model.MbusData Model.Show Model.Output Model.Rscada
  Spec.CoreSpec Spec.TextSpec Spec.FloatSpec Spec.CrcSpec Spec.WiredSpec Spec.WirelessSpec Spec.DecryptSpec Spec.RecordSpec Spec.AppSpec
  Spec.AnnotateSpec Spec.MbusSpec Spec.OutputSpec Spec.VifSpec Spec.DetailSpec
  Proof.BaseFacts Proof.WiredFacts Proof.WirelessFacts Proof.FormatAProps Proof.AppFacts Proof.HexFacts Proof.AnnotateProps Proof.MbusFacts Proof.MbusProps
  Proof.ScaledFacts Proof.ShowFacts Proof.OutputFacts Proof.OutputRecords Proof.OutputFrames Proof.OutputMore Proof.OutputValues Proof.OutputProps
  Proof.VifFacts Proof.RecordFacts Spec.XmlSpec Spec.RscadaSpec Proof.RscadaFacts Proof.RscadaProps
  Proof.DetailFacts Proof.DetailRecords Proof.Utf8Facts Proof.DetailValues Proof.RscadaTexts Proof.DetailReports.
Open Scope N_scope.

(** ** Dates at the level of the header of the record *)
Lemma date_of_header cf head rest hdr h dif vif r i :
  header_of cf head rest h dif vif -> vif mod 128 = 0x6C -> data_record_parse cf (head ++ rest) hdr = Ok r ->
  exists b0 b1 rest' w, rest = [b0; b1] ++ rest' /\ ro_value (record_output i r) = {| vo_kind := txt "date"; vo_value := Some w |} /\
    day_shown (b0 mod 32) (b1 mod 16) (g_year b0 b1) w.
Proof.
  intros H V P. destruct (header_known _ _ _ _ _ _ _ _ H P) as (Eh & Lh & v & Ev & Evif).
  destruct (date_shown cf _ hdr r v i (proj1 H) P Ev) as (head' & b0 & b1 & rest' & w & Ed & _ & Lh' & Ew & Hw); [now rewrite Evif|].
  destruct (split_at head rest head' ([b0; b1] ++ rest') Ed) as (_ & ->); [congruence|]. exists b0, b1, rest', w. auto.
Qed.
Lemma datetime_of_header cf head rest hdr h dif vif r i :
  header_of cf head rest h dif vif -> vif mod 128 = 0x6D -> dif mod 16 = 4 -> data_record_parse cf (head ++ rest) hdr = Ok r ->
  exists b0 b1 b2 b3 rest' w, rest = [b0; b1; b2; b3] ++ rest' /\
    ro_value (record_output i r) = {| vo_kind := txt "datetime"; vo_value := Some w |} /\
    minute_shown (b2 mod 32) (b3 mod 16) (g_year b0 b1) (b1 mod 32) (b0 mod 64) w.
Proof.
  intros H V D P. destruct (header_known _ _ _ _ _ _ _ _ H P) as (Eh & Lh & v & Ev & Evif).
  destruct (datetime_shown cf _ hdr r v i (proj1 H) P Ev) as (head' & b0 & b1 & b2 & b3 & rest' & w & Ed & _ & Lh' & Ew & Hw);
    [now rewrite Evif|rewrite Eh; destruct H as (_ & _ & _ & -> & _); exact D|].
  destruct (split_at head rest head' ([b0; b1; b2; b3] ++ rest') Ed) as (_ & ->); [congruence|]. exists b0, b1, b2, b3, rest', w. auto.
Qed.
Lemma datetime48_of_header cf head rest hdr h dif vif r i :
  header_of cf head rest h dif vif -> vif mod 128 = 0x6D -> dif mod 16 = 6 -> data_record_parse cf (head ++ rest) hdr = Ok r ->
  exists b0 b1 b2 b3 b4 rest' w, rest = [b0; b1; b2; b3; b4] ++ rest' /\
    ro_value (record_output i r) = {| vo_kind := txt "datetime"; vo_value := Some w |} /\
    second_shown (b3 mod 32) (b4 mod 16) (g_year b0 b1) (b2 mod 32) (b1 mod 64) (b0 mod 64) w.
Proof.
  intros H V D P. destruct (header_known _ _ _ _ _ _ _ _ H P) as (Eh & Lh & v & Ev & Evif).
  destruct (datetime48_shown cf _ hdr r v i (proj1 H) P Ev) as (head' & b0 & b1 & b2 & b3 & b4 & rest' & w & Ed & _ & Lh' & Ew & Hw);
    [now rewrite Evif|rewrite Eh; destruct H as (_ & _ & _ & -> & _); exact D|].
  destruct (split_at head rest head' ([b0; b1; b2; b3; b4] ++ rest') Ed) as (_ & ->); [congruence|]. exists b0, b1, b2, b3, b4, rest', w. auto.
Qed.

(** 15 June 2024 *)
Lemma date_refuted cf : exists h r,
  header_of cf [0x02; 0x6C] [0x0F; 0x36] h 0x02 0x6C /\ data_record_parse cf ([0x02; 0x6C] ++ [0x0F; 0x36]) None = Ok r /\
  0x0F mod 32 = 15 /\ 0x36 mod 16 = 6 /\ g_year 0x0F 0x36 = 24 /\
  ro_value (record_output 0 r) = {| vo_kind := txt "date"; vo_value := Some (JString (txt "0024-06-15")) |}.
Proof.
  destruct cf as [[] []]; do 2 eexists; (split; [head|]); (split; [vm_compute; reflexivity|]); (split; [reflexivity|]); (split; [reflexivity|]);
  (split; [reflexivity|]); vm_compute; reflexivity.
Qed.
(** 15 June 2024, 12:30: the year is taken from the minute and the hour *)
Lemma datetime_refuted cf : exists h r,
  header_of cf [0x04; 0x6D] [30; 12; 0x0F; 0x36] h 0x04 0x6D /\ data_record_parse cf ([0x04; 0x6D] ++ [30; 12; 0x0F; 0x36]) None = Ok r /\
  g_year 0x0F 0x36 = 24 /\
  ro_value (record_output 0 r) = {| vo_kind := txt "datetime"; vo_value := Some (JString (txt "0000-06-15T12:30:00")) |}.
Proof.
  destruct cf as [[] []]; do 2 eexists; (split; [head|]); (split; [vm_compute; reflexivity|]); (split; [reflexivity|]); vm_compute; reflexivity.
Qed.
Lemma date_example : exists h r,
  header_of debug [0x02; 0x6C] [0x00; 0x36] h 0x02 0x6C /\ 0x6C mod 128 = 0x6C /\
  data_record_parse debug ([0x02; 0x6C] ++ [0x00; 0x36]) None = Ok r /\
  vo_value (ro_value (record_output 0 r)) =
    Some (JObject [(txt "day", inr (txt "every")); (txt "month", inr (txt "June")); (txt "year", inl 24)]).
Proof. do 2 eexists. split; [head|]. split; [reflexivity|]. split; [vm_compute; reflexivity|]. vm_compute. reflexivity. Qed.
Lemma datetime_example : exists h r,
  header_of debug [0x04; 0x6D] [30; 12; 0x0F; 0x36] h 0x04 0x6D /\ 0x6D mod 128 = 0x6D /\ 0x04 mod 16 = 4 /\
  data_record_parse debug ([0x04; 0x6D] ++ [30; 12; 0x0F; 0x36]) None = Ok r.
Proof. do 2 eexists. split; [head|]. split; [reflexivity|]. split; [reflexivity|]. vm_compute; reflexivity. Qed.
Lemma datetime48_example : exists h r,
  header_of debug [0x06; 0x6D] [10; 30; 12; 0x0F; 0x36; 0] h 0x06 0x6D /\ 0x06 mod 16 = 6 /\
  data_record_parse debug ([0x06; 0x6D] ++ [10; 30; 12; 0x0F; 0x36; 0]) None = Ok r.
Proof. do 2 eexists. split; [head|]. split; [reflexivity|]. vm_compute; reflexivity. Qed.
Lemma xml_date_example : exists h r id fields,
  header_of debug [0x02; 0x6C] [0x0F; 0x36] h 0x02 0x6C /\ data_record_parse debug ([0x02; 0x6C] ++ [0x0F; 0x36]) None = Ok r /\
  record_element (render_variable_record ex_powi 0 r) = Some (id, fields) /\ lookup (txt "Value") fields = Some (txt "2024-06-15").
Proof. do 4 eexists. split; [head|]. split; [vm_compute; reflexivity|]. split; [vm_compute; reflexivity|]. vm_compute; reflexivity. Qed.
Lemma xml_datetime_example : exists h r id fields,
  header_of debug [0x04; 0x6D] [30; 12; 0x0F; 0x36] h 0x04 0x6D /\ data_record_parse debug ([0x04; 0x6D] ++ [30; 12; 0x0F; 0x36]) None = Ok r /\
  record_element (render_variable_record ex_powi 0 r) = Some (id, fields) /\ lookup (txt "Value") fields = Some (txt "2024-06-15T12:30:00Z").
Proof. do 4 eexists. split; [head|]. split; [vm_compute; reflexivity|]. split; [vm_compute; reflexivity|]. vm_compute; reflexivity. Qed.
Lemma xml_datetime48_example : exists h r id fields,
  header_of debug [0x06; 0x6D] [10; 30; 12; 0x0F; 0x36; 0] h 0x06 0x6D /\
  data_record_parse debug ([0x06; 0x6D] ++ [10; 30; 12; 0x0F; 0x36; 0]) None = Ok r /\ 6 <= len [10; 30; 12; 0x0F; 0x36; 0] /\
  record_element (render_variable_record ex_powi 0 r) = Some (id, fields) /\ lookup (txt "Value") fields = Some (txt "2024-06-15T12:30:10Z").
Proof. do 4 eexists. split; [head|]. split; [vm_compute; reflexivity|]. split; [cbn; lia|]. split; [vm_compute; reflexivity|]. vm_compute; reflexivity. Qed.

(** ** Texts and reals *)
(** "Größe": the umlaut takes two bytes, and all of them come last first *)
Definition ex_text : list N := rev ([0x47; 0x72; 0xC3; 0xB6; 0xC3; 0x9F; 0x65]).
Lemma text_example : exists h r,
  header_of debug [0x0D; 0x78] (7 :: ex_text) h 0x0D 0x78 /\ ~ date_vif 0x78 /\
  data_record_parse debug ([0x0D; 0x78] ++ 7 :: ex_text) None = Ok r /\
  ro_value (record_output 0 r) = {| vo_kind := txt "text"; vo_value := Some (JString [0x47; 0x72; 0xF6; 0xDF; 0x65]) |}.
Proof.
  do 2 eexists. split; [head|]. split; [intros [K|K]; discriminate K|]. split; [vm_compute; reflexivity|]. vm_compute. reflexivity.
Qed.
Lemma fabrication_row : primary 0x78 (row 0x78 1 0 LFabricationNumber [] (txt "Fabrication No") [] 1) 0.
Proof. split; [cbn; auto 60|]. split; [cbn; lia|reflexivity]. Qed.
Lemma ex_text_utf8 : utf8 [0x47; 0x72; 0xF6; 0xDF; 0x65] (rev ex_text).
Proof. split; [repeat constructor; unfold scalar; lia|reflexivity]. Qed.
Lemma xml_text_example : exists h r id fields,
  header_of debug [0x0D; 0x78] (7 :: ex_text) h 0x0D 0x78 /\ primary 0x78 (row 0x78 1 0 LFabricationNumber [] (txt "Fabrication No") [] 1) 0 /\
  ~ date_vif 0x78 /\ 0x0D mod 16 = 13 /\ data_record_parse debug ([0x0D; 0x78] ++ 7 :: ex_text) None = Ok r /\
  record_element (render_variable_record ex_powi 0 r) = Some (id, fields) /\
  utf8 [0x47; 0x72; 0xF6; 0xDF; 0x65] (rev ex_text) /\ lookup (txt "Value") fields = Some [0x47; 0x72; 0xF6; 0xDF; 0x65].
Proof.
  do 4 eexists. split; [head|]. split; [exact fabrication_row|]. split; [intros [K|K]; discriminate K|]. split; [reflexivity|].
  split; [vm_compute; reflexivity|]. split; [vm_compute; reflexivity|]. split; [exact ex_text_utf8|]. vm_compute. reflexivity.
Qed.
Lemma real_example : exists h r,
  header_of debug [0x05; 0x5B] [0; 0; 0xA8; 0x41] h 0x05 0x5B /\ ~ date_vif 0x5B /\ 0x05 mod 16 = 5 /\
  data_record_parse debug ([0x05; 0x5B] ++ [0; 0; 0xA8; 0x41]) None = Ok r.
Proof. do 2 eexists. split; [head|]. split; [intros [K|K]; discriminate K|]. split; [reflexivity|]. vm_compute. reflexivity. Qed.
Lemma quantity_example : exists h r,
  header_of debug [0x04; 0x13] [1; 0; 0; 0] h 0x04 0x13 /\
  primary 0x13 (row 0x10 8 (-6) LVolume [(UMeter, 3%Z)] (txt "Volume") (txt "m^3") 1) 3 /\
  data_record_parse debug ([0x04; 0x13] ++ [1; 0; 0; 0]) None = Ok r /\
  ro_quantities (record_output 0 r) = [txt "Volume"] /\ ro_unit (record_output 0 r) = Some (txt "m3").
Proof.
  do 2 eexists. split; [head|]. split; [apply volume_row|]. split; [vm_compute; reflexivity|]. split; vm_compute; reflexivity.
Qed.
Lemma specific_example : exists h r, header_of debug [0x02; 0xFF; 0x22] [1; 0] h 0x02 0xFF /\
  data_record_parse debug ([0x02; 0xFF; 0x22] ++ [1; 0]) None = Ok r.
Proof. do 2 eexists. split; [head|]. vm_compute; reflexivity. Qed.
Lemma unit_text_refuted cf : exists data r b, data_record_parse cf data None = Ok r /\ bytes_ok data /\
  rh_vib (drh_raw (dr_header r)) = Some b /\ vib_plaintext b = Some (rev (txt "%RH")) /\
  ro_quantities (record_output 0 r) = [txt "Plain text"] /\ ro_unit (record_output 0 r) = None.
Proof.
  destruct cf as [[] []]; [exists [0x02; 0xFC; 3; 0x48; 0x52; 0x25; 0x74; 0x2C; 1]|exists [0x02; 0xFC; 0x74; 3; 0x48; 0x52; 0x25; 0x2C; 1]
    |exists [0x02; 0xFC; 3; 0x48; 0x52; 0x25; 0x74; 0x2C; 1]|exists [0x02; 0xFC; 0x74; 3; 0x48; 0x52; 0x25; 0x2C; 1]];
    (do 2 eexists; split; [vm_compute; reflexivity|]; split; [lit|]; split; [reflexivity|]; split; [reflexivity|]; split; vm_compute; reflexivity).
Qed.
Lemma labels_example : exists r,
  bytes_ok ([0x9A; 0x60] ++ [0x13; 5; 0]) /\ dif_chain 0x9A [0x9A; 0x60] /\ data_record_parse debug ([0x9A; 0x60] ++ [0x13; 5; 0]) None = Ok r /\
  ro_function (record_output 0 r) = txt "Maximum value" /\ ro_tariff (record_output 0 r) = 2 /\ ro_subunit (record_output 0 r) = 1 /\
  ro_data_coding (record_output 0 r) = txt "4-digit BCD".
Proof.
  eexists. split; [lit|]. split.
  { split; [discriminate|]. exists [0x60]. split; [reflexivity|]. right. split; [unfold extends; lia|]. split; [|cbn; lia].
    exists [], 0x60. repeat split; constructor. }
  split; [vm_compute; reflexivity|]. repeat split; vm_compute; reflexivity.
Qed.
Lemma special_example : exists r, bytes_ok [0x0F; 1; 2; 3] /\
  special_shown 0x0F (txt "Manufacturer specific") {| vo_kind := txt "manufacturer_specific"; vo_value := None |} /\
  data_record_parse debug [0x0F; 1; 2; 3] None = Ok r.
Proof. eexists. split; [lit|]. split; [constructor|]. vm_compute. reflexivity. Qed.

(** ** Headers, frames and notices *)
Lemma not_nested x p : x <> 0x8C -> ~ nested_session (x :: p).
Proof. intros N (cc & acc & ci & rest & O & _). inversion O; subst. now apply N. Qed.
Lemma transport_example : exists u d,
  bytes_ok ex_wired_encrypted /\ message ex_wired_encrypted ex_encrypted_message None /\ app_meaning ex_encrypted_message u /\
  ~ nested_session ex_encrypted_message /\ secured ex_encrypted_message /\
  decode_bytes ex_env ex_wired_encrypted None false = Ok d /\ to_header_kind (do_transport d) = Some (txt "long_tpl") /\
  so_mode_code (do_security d) = Some 5 /\ so_payload_protection (do_security d) = txt "encrypted".
Proof.
  do 2 eexists. split; [lit|]. split; [apply long_message|]. split; [apply app_lit; [lit|vm_compute; reflexivity]|].
  split; [apply not_nested; discriminate|]. split.
  { left. exists 5. split; [|discriminate]. apply (ModeLong 0x72 0x78 0x56 0x34 0x12 0x42 0x04 1 7 9 0 0 5). now left. }
  split; [vm_compute; reflexivity|]. repeat split.
Qed.
(** behind an extended link layer, with a short header *)
Definition ex_ell : list N := [0x8C; 0x20; 7] ++ [0x7A; 9; 0x04; 0; 0] ++ [0x01; 0x13; 5].
Lemma not_nested_ell : ~ nested_session ex_ell.
Proof.
  intros (cc & acc & ci & rest & O & C). inversion O as [|a b c o i O']; subst. inversion O'; subst. destruct C; discriminate.
Qed.
Lemma ell_example : exists u d,
  bytes_ok (long_frame ex_ell) /\ message (long_frame ex_ell) ex_ell None /\ app_meaning ex_ell u /\ ~ nested_session ex_ell /\
  decode_bytes ex_env (long_frame ex_ell) None false = Ok d /\
  do_transport d = header_shown (txt "short_tpl") (txt "tpl.short") 9 4 0 0 (plain_ell (Some (0x20, 7))) /\
  to_statuses (do_transport d) = [(txt "tpl.short", txt "04", txt "Power low")].
Proof.
  do 2 eexists. split; [lit|]. split; [apply long_message|]. split; [apply app_lit; [lit|vm_compute; reflexivity]|]. split; [exact not_nested_ell|].
  split; [vm_compute; reflexivity|]. split; vm_compute; reflexivity.
Qed.
Lemma nested_shown_refuted env : exists data payload u d,
  bytes_ok data /\ message data payload None /\ app_meaning payload u /\ nested_session payload /\ decode_bytes env data None false = Ok d /\
  to_header_kind (do_transport d) = Some (txt "short_tpl") /\ so_mode_code (do_security d) = Some 0 /\
  so_payload_protection (do_security d) = txt "cleartext".
Proof.
  exists (long_frame ex_nested), ex_nested. do 2 eexists. split; [lit|]. split; [apply long_message|].
  split; [apply app_lit; [lit|vm_compute; reflexivity]|].
  split. { exists 0, 1, 0x8D. eexists. split; [apply (OpenEll 0 1 _ None), OpenNone|now left]. }
  destruct env as [[[] []] ? ? ? ?]; (split; [vm_compute; reflexivity|]); repeat split.
Qed.
Lemma wired_frame_example : exists d, bytes_ok ex_wired_clear /\ wired_meaning ex_wired_clear (LongFrame (RspUd false false) (Primary 1) ex_clear_message) /\
  decode_bytes ex_env ex_wired_clear None false = Ok d /\
  do_frame d = {| fo_kind := txt "long"; fo_function := Some (txt "RSP_UD (ACD: false, DFC: false)"); fo_address := Some (txt "Primary (1)"); fo_control_field := None |}.
Proof.
  eexists. split; [lit|]. split; [apply WLong; [cbn; auto 20|cbn; lia|discriminate]|]. split; [vm_compute; reflexivity|]. vm_compute. reflexivity.
Qed.
Lemma wireless_frame_example : exists fr d, bytes_ok ex_air_encoded /\ not_wired ex_air_encoded /\ received ex_air_encoded ex_air /\
  wireless_meaning ex_air fr /\ ex_air_encoded <> ex_air /\
  decode_bytes ex_env ex_air_encoded None false = Ok d /\ fo_control_field (do_frame d) = Some (txt "44") /\
  fo_function (do_frame d) = Some (txt "SND_NR").
Proof.
  destruct air_example as (fr & B1 & B2 & F & Wm & N1 & C & N2 & _). exists fr. eexists. split; [exact B1|]. split; [exact N2|].
  split; [right; exact F|]. split; [exact Wm|]. split; [vm_compute; discriminate|]. split; [vm_compute; reflexivity|]. split; vm_compute; reflexivity.
Qed.
Lemma records_example : exists outs, bytes_ok ex_clear_block /\ ex_clear_block <> [] /\
  decode_data_records ex_env ex_clear_block = Ok outs /\ List.length outs = 2%nat /\ hex_input (hex_string ex_clear_block) ex_clear_block.
Proof.
  eexists. split; [lit|]. split; [discriminate|]. split; [vm_compute; reflexivity|]. split; [reflexivity|].
  apply decode_hex_exact. vm_compute. reflexivity.
Qed.
(** a control information byte without a message: 0x51 *)
Lemma refused_example : exists d, bytes_ok (long_frame [0x51; 1; 2]) /\ message (long_frame [0x51; 1; 2]) [0x51; 1; 2] None /\
  (~ exists u, app_meaning [0x51; 1; 2] u) /\ decode_bytes ex_env (long_frame [0x51; 1; 2]) None false = Ok d /\
  mentions d (txt "application.partial").
Proof.
  eexists. split; [lit|]. split; [apply long_message|]. split.
  { intros (u & A). apply dispatch_exact in A; [|lit]. vm_compute in A. discriminate. }
  split; [vm_compute; reflexivity|]. eexists. split; [left; reflexivity|reflexivity].
Qed.
Lemma notices_example : exists d d' d'',
  decode_bytes ex_env ex_wired_encrypted None false = Ok d /\ map dg_code (do_diagnostics d) = [txt "security.key_missing"] /\
  decode_bytes ex_env (long_frame (ex_sealed ex_long_head)) (Some ex_key) false = Ok d' /\ map dg_code (do_diagnostics d') = [txt "security.decrypted_unverified"; txt "application.record_partial"] /\
  decode_bytes ex_env ex_wired_clear (Some ex_key) false = Ok d'' /\ map dg_code (do_diagnostics d'') = [txt "security.key_unused"].
Proof.
  do 3 eexists. split; [vm_compute; reflexivity|]. split; [reflexivity|]. split; [vm_compute; reflexivity|]. split; [reflexivity|].
  split; [vm_compute; reflexivity|]. reflexivity.
Qed.

(** ** The fixed data structure and the registry *)
Lemma fixed_identity env data id ci i0 i1 i2 i3 acc st d0 d1 rest u key enrich d :
  bytes_ok data -> ci = 0x73 \/ ci = 0x77 -> message data ([ci; i0; i1; i2; i3; acc; st; d0; d1] ++ rest) id ->
  app_meaning ([ci; i0; i1; i2; i3; acc; st; d0; d1] ++ rest) u -> decode_bytes env data key enrich = Ok d ->
  do_alternate_identities d = [] /\
  exists x t, do_identity d = Some x /\ id_source x = txt "application.fixed" /\ id_id x = Some t /\ packed_digits [i0; i1; i2; i3] t /\
    id_manufacturer_code x = None /\ id_version x = None /\ id_device_type_code x = None /\
    id_device_type x = Some (txt "fixed type/unit 0x" ++ hex_string [d0; d1]).
Proof.
  intros B C M A H. pose proof (message_bytes _ _ _ B M) as Bp.
  destruct (message_identity env data _ id (Some u) None key enrich d B M) as (E1 & E2); [left; eauto|exact H|].
  inversion A; subst; try lia. cbn [app] in Bp. bytes_split Bp.
  cbn [meter_and_transport fst snd] in E1, E2. split; [exact E2|]. rewrite E1. do 2 eexists. split; [reflexivity|].
  cbn [id_source id_id id_manufacturer_code id_version id_device_type_code id_device_type].
  split; [reflexivity|]. split; [reflexivity|]. split; [now apply show_number|]. repeat (split; [reflexivity|]).
  match goal with |- Some (_ ++ hex4 (256 * ?a + ?b)) = _ => replace (256 * a + b) with (b + 256 * a) by lia end.
  now rewrite hex4_string.
Qed.
Definition ex_fixed : list N := [0x73; 0x78; 0x56; 0x34; 0x12; 9; 0; 0xE9; 0x7E; 1; 0; 0; 0; 2; 0; 0; 0].
Lemma fixed_example : exists u d, bytes_ok (long_frame ex_fixed) /\ message (long_frame ex_fixed) ex_fixed None /\ app_meaning ex_fixed u /\
  decode_bytes ex_env (long_frame ex_fixed) None false = Ok d /\ option_map id_id (do_identity d) = Some (Some (txt "12345678")).
Proof.
  do 2 eexists. split; [lit|]. split; [apply long_message|]. split; [apply app_lit; [lit|vm_compute; reflexivity]|].
  split; [vm_compute; reflexivity|]. vm_compute. reflexivity.
Qed.
Lemma direction_example : control_information_from 0x72 = Ok (CIResponseWithVariableDataStructure false) /\ from_meter 0x72 /\
  control_information_from 0x51 = Ok CISendData /\ to_meter 0x51.
Proof. repeat split; [unfold from_meter; lia|left; cbn; auto]. Qed.
Lemma records_alone_no_hex env input : (forall data, ~ hex_input input data) -> exists e, decode_data_records_hex env input = Err (OInvalidHex e).
Proof.
  intros N. destruct (decode_hex_bytes input) as [data|e|p] eqn:E.
  - exfalso. apply (N data). now apply decode_hex_exact.
  - exists e. now apply records_alone_not_hex.
  - exfalso. apply (decode_hex_no_panic input). exists p. exact E.
Qed.
Lemma no_hex_example data : ~ hex_input (txt "12 3x") data.
Proof. intros H. apply decode_hex_exact in H. vm_compute in H. discriminate. Qed.
Lemma manufacturer_example : exists d i, decode_bytes ex_env ex_wired_clear None true = Ok d /\ do_identity d = Some i /\ id_manufacturer_code i <> None.
Proof. do 2 eexists. split; [vm_compute; reflexivity|]. split; [reflexivity|]. discriminate. Qed.
