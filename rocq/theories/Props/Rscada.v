(** C26, C32 and C79 to C89: the conversion of a received frame to the XML of libmbus. *)
From Coq Require Import List NArith ZArith QArith Lia String Reals.
From Flocq Require IEEE754.Bits.
Import ListNotations.
From Verif Require Import Model.Base Model.Text Model.Core Model.Wired Model.Wireless Model.F64 Model.DataInfo Model.ValueInfo Model.Record Model.Decrypt
  Model.UserData Model.MbusData Model.Output Model.Rscada
  Spec.CoreSpec Spec.TextSpec Spec.FloatSpec Spec.WiredSpec Spec.WirelessSpec Spec.DecryptSpec Spec.RecordSpec Spec.AppSpec
  Spec.AnnotateSpec Spec.MbusSpec Spec.OutputSpec Spec.VifSpec
  Proof.AnnotateProps Proof.MbusProps Proof.OutputProps Proof.VifFacts Spec.XmlSpec Spec.ProductSpec Spec.RscadaSpec Spec.RoundSpec
  Proof.RscadaMessages Proof.RscadaErrors Proof.RscadaRecords Proof.RscadaValues Proof.RscadaClose Proof.RscadaProps.
Open Scope N_scope.

(** C26 as stated fails when a DIFE has storage bits: the data information gives 32, the XML 2 *)
Theorem C26_storage_refuted : forall cf powi, exists data r id fields di,
  bytes_ok data /\ data_record_parse cf data None = Ok r /\ record_element (render_variable_record powi 0 r) = Some (id, fields) /\
  ph_data_information (drh_processed (dr_header r)) = Some di /\ di_storage_number di = 32 /\
  lookup (txt "StorageNumber") fields = Some (txt "2").
Proof. exact storage_refuted. Qed.
Print Assumptions C26_storage_refuted.
(** ... tariff and device always agree, and are left out of the XML when there is no DIFE; the
    storage number of the XML is always that of the standard, and agrees with the one of the
    data information exactly when no DIFE has storage bits *)
Theorem C26_same_numbers_partial : forall cf data hdr r powi i id fields,
  bytes_ok data -> data_record_parse cf data hdr = Ok r -> record_element (render_variable_record powi i r) = Some (id, fields) ->
  fields <> [] ->
  exists di, ph_data_information (drh_processed (dr_header r)) = Some di /\
  let dif := dib_dif (rh_dib (drh_raw (dr_header r))) in
  let difes := match dib_difes (rh_dib (drh_raw (dr_header r))) with Some l => l | None => [] end in
  (exists t, lookup (txt "StorageNumber") fields = Some t /\ written t (en_storage dif difes)) /\
  (difes = [] -> lookup (txt "Tariff") fields = None /\ lookup (txt "Device") fields = None /\ di_tariff di = 0 /\ di_device di = 0) /\
  (difes <> [] -> exists t d, lookup (txt "Tariff") fields = Some t /\ lookup (txt "Device") fields = Some d /\
     written t (di_tariff di) /\ written d (di_device di)) /\
  di_tariff di = en_tariff difes /\ di_device di = en_subunit difes /\
  (di_storage_number di = en_storage dif difes <-> Forall (fun b => b mod 16 = 0) difes).
Proof. exact xml_numbers. Qed.
Print Assumptions C26_same_numbers_partial.
Example C26_example : exists r id fields di,
  bytes_ok [0xC1; 0x50; 0x13; 5] /\ data_record_parse debug [0xC1; 0x50; 0x13; 5] None = Ok r /\
  record_element (render_variable_record ex_powi 0 r) = Some (id, fields) /\
  ph_data_information (drh_processed (dr_header r)) = Some di /\ di_storage_number di = 1 /\ di_tariff di = 1 /\ di_device di = 1 /\
  lookup (txt "StorageNumber") fields = Some (txt "1") /\ lookup (txt "Tariff") fields = Some (txt "1") /\
  lookup (txt "Device") fields = Some (txt "1").
Proof. exact numbers_example. Qed.

(** for every primary VIF that both tables have, the XML multiplies by the power of ten of the
    value information; times, which the XML gives in seconds, also by the seconds of their unit *)
Theorem C32_scales_agree : forall powi vif vi custom x unit_text y quantity, vif < 0x80 -> vif <> 0x7C ->
  value_information_try_from {| vib_vif := vif; vib_vifes := None; vib_plaintext := None |} = Ok vi ->
  vib_unit_normalize powi vif [] custom x = Some (unit_text, y, quantity) ->
  exists seconds, In seconds [1; 60; 3600; 86400]%Z /\ (seconds <> 1 -> vi_decimal_scale_exponent vi = 0)%Z /\
    y = f64_mul x (f64_literal seconds (vi_decimal_scale_exponent vi)).
Proof. exact scales_agree. Qed.
Print Assumptions C32_scales_agree.
Example C32_example : exists vi unit_text y quantity,
  value_information_try_from {| vib_vif := 0x13; vib_vifes := None; vib_plaintext := None |} = Ok vi /\
  vib_unit_normalize ex_powi 0x13 [] None (f64_of_Z 5) = Some (unit_text, y, quantity) /\ vi_decimal_scale_exponent vi = (-3)%Z.
Proof. exact scales_example. Qed.

(** the result is a document of the libmbus vocabulary, whatever the frame contains *)
Theorem C79_well_formed : forall env powi data key out,
  bytes_ok data -> render_from_bytes env powi data key = Ok out ->
  exists slave es, document out = Some (slave, es) /\
    forall i e, nth_error es i = Some e -> written (fst e) (N.of_nat i).
Proof. exact render_readable. Qed.
Print Assumptions C79_well_formed.
Example C79_example : exists out slave es,
  bytes_ok ex_wired_clear /\ render_from_bytes ex_env ex_powi ex_wired_clear None = Ok out /\ document out = Some (slave, es) /\
  lookup (txt "Id") slave = Some (txt "12345678") /\ map fst es = [txt "0"; txt "1"] /\
  map (fun e => lookup (txt "Quantity") (snd e)) es = [Some (txt "Volume"); Some (txt "Error flags")].
Proof. exact readable_example. Qed.

(** a message in clear has an element for each of its records, in their order *)
Theorem C80_clear_records : forall env powi data payload id block u key,
  bytes_ok data -> message data payload id -> in_clear payload block -> app_meaning payload u ->
  (id = None -> exists t, payload = 0x72 :: t \/ payload = 0x76 :: t) ->
  exists slave, shown_xml (env_config env) powi block slave (render_from_bytes env powi data key).
Proof. exact clear_xml. Qed.
Print Assumptions C80_clear_records.
(** wired frames with other messages are refused *)
Theorem C80_wired_unsupported : forall env powi data ci t u key,
  bytes_ok data -> message data (ci :: t) None -> app_meaning (ci :: t) u -> ~ In ci [0x72; 0x73; 0x76; 0x77] ->
  render_from_bytes env powi data key = Err XUnsupportedWired.
Proof. exact wired_unsupported. Qed.
Print Assumptions C80_wired_unsupported.
Example C80_example : exists u d,
  bytes_ok ex_wired_clear /\ message ex_wired_clear ex_clear_message None /\ in_clear ex_clear_message ex_clear_block /\
  app_meaning ex_clear_message u /\ decode_bytes ex_env ex_wired_clear None false = Ok d /\ List.length (do_records d) = 2%nat /\
  do_decode_state d = txt "complete".
Proof. exact clear_example. Qed.
Example C80_unsupported_example : exists u,
  bytes_ok (long_frame [0x78; 0x01; 0x13; 5]) /\ message (long_frame [0x78; 0x01; 0x13; 5]) [0x78; 0x01; 0x13; 5] None /\
  app_meaning [0x78; 0x01; 0x13; 5] u /\ ~ In 0x78 [0x72; 0x73; 0x76; 0x77].
Proof. exact unsupported_example. Qed.

(** the slave information names the meter of the long header *)
Theorem C81_long_header : forall env powi data link ci i0 i1 i2 i3 m0 m1 v dv acc st c0 c1 block key out,
  bytes_ok data -> ci = 0x72 \/ ci = 0x76 ->
  addressed data link ([ci; i0; i1; i2; i3; m0; m1; v; dv; acc; st; c0; c1] ++ block) ->
  (exists u, app_meaning ([ci; i0; i1; i2; i3; m0; m1; v; dv; acc; st; c0; c1] ++ block) u) ->
  render_from_bytes env powi data key = Ok out ->
  exists f1 f2 es, document out = Some (f1 ++ f2, es) /\
    meter_fields (if ci =? 0x76 then [i3; i2; i1; i0] else [i0; i1; i2; i3]) (m0 + 256 * m1) v dv f1 /\
    header_fields (Some acc) (Some st) (Some (c0, c1)) f2.
Proof. exact long_slave. Qed.
Print Assumptions C81_long_header.
(** ... that of the wireless link when there is none, with what the transport or the extended link
    layer gives besides *)
Theorem C81_link_header : forall env powi data m0 m1 i0 i1 i2 i3 v dv ci t acc st config key out,
  bytes_ok data -> addressed data [m0; m1; i0; i1; i2; i3; v; dv] (ci :: t) -> transport (ci :: t) acc st config ->
  (exists u, app_meaning (ci :: t) u) -> render_from_bytes env powi data key = Ok out ->
  exists f1 f2 es, document out = Some (f1 ++ f2, es) /\
    meter_fields [i0; i1; i2; i3] (m0 + 256 * m1) v (if andb (0xA0 <=? ci) (ci <=? 0xAF) then dv / 16 else dv) f1 /\
    header_fields acc st config f2.
Proof. exact link_slave. Qed.
Print Assumptions C81_link_header.
(** ... also when the message cannot be read; it then has no records *)
Theorem C81_unread_message : forall env powi data m0 m1 i0 i1 i2 i3 v dv ci t key,
  bytes_ok data -> addressed data [m0; m1; i0; i1; i2; i3; v; dv] (ci :: t) -> (forall u, ~ app_meaning (ci :: t) u) ->
  exists out f1, render_from_bytes env powi data key = Ok out /\ document out = Some (f1, []) /\
    meter_fields [i0; i1; i2; i3] (m0 + 256 * m1) v (if andb (0xA0 <=? ci) (ci <=? 0xAF) then dv / 16 else dv) f1.
Proof. exact unread_slave. Qed.
Print Assumptions C81_unread_message.
Example C81_example : exists t u out slave es,
  bytes_ok ex_wired_clear /\ addressed ex_wired_clear [] ([0x72; 0x78; 0x56; 0x34; 0x12; 0x42; 0x04; 1; 7; 9; 0; 0; 0] ++ t) /\
  app_meaning ([0x72; 0x78; 0x56; 0x34; 0x12; 0x42; 0x04; 1; 7; 9; 0; 0; 0] ++ t) u /\
  render_from_bytes ex_env ex_powi ex_wired_clear None = Ok out /\ document out = Some (slave, es) /\
  lookup (txt "Manufacturer") slave = Some (txt "ABB") /\ lookup (txt "Medium") slave = Some (txt "Water").
Proof. exact long_slave_example. Qed.
Example C81_unread_example :
  bytes_ok ex_unknown_air /\ addressed ex_unknown_air ex_link [0x00; 1; 2] /\ (forall u, ~ app_meaning [0x00; 1; 2] u).
Proof. exact unread_example. Qed.
Example C81_link_example : exists t u out slave,
  bytes_ok ex_sealed_air /\ addressed ex_sealed_air ex_link (0x7A :: t) /\
  transport (0x7A :: t) (Some 0x55) (Some 0) (Some (0, 0x05)) /\ app_meaning (0x7A :: t) u /\
  render_from_bytes ex_env ex_powi ex_sealed_air None = Ok out /\ document out = Some (slave, []) /\
  lookup (txt "Id") slave = Some (txt "12345678") /\ lookup (txt "Signature") slave = Some (txt "0500").
Proof. exact link_slave_example. Qed.

(** the product is that of libmbus' table *)
Example C81_product_example : product (txt "KAM") 0x08 4 12345678 (txt "Kamstrup Multical 601") /\
  (forall name, ~ product (txt "KAM") 0x09 4 12345678 name) /\ product (txt "SBC") 0 2 19000001 (txt "Saia-Burgess ALE3").
Proof. exact product_example. Qed.

(** C82 as stated fails on the wire: without a key, the ciphertext is read as records *)
Theorem C82_no_ciphertext_refuted : forall env powi, exists data payload u out slave id fields,
  bytes_ok data /\ message data payload None /\ protected payload /\ app_meaning payload u /\
  render_from_bytes env powi data None = Ok out /\ document out = Some (slave, [(id, fields)]) /\
  lookup (txt "Value") fields = Some (txt "0.119000").
Proof. exact wired_leak. Qed.
Print Assumptions C82_no_ciphertext_refuted.
(** ... it holds for wireless frames *)
Theorem C82_no_ciphertext_partial : forall env powi data payload id u,
  bytes_ok data -> message data payload (Some id) -> protected payload -> app_meaning payload u ->
  exists out slave, render_from_bytes env powi data None = Ok out /\ document out = Some (slave, []).
Proof. exact protected_air. Qed.
Print Assumptions C82_no_ciphertext_partial.
(** ... while on the wire every message with a long header is shown as if it were in clear *)
Theorem C82_wired_partial : forall env powi data ci i0 i1 i2 i3 m0 m1 v dv acc st c0 c1 block u,
  bytes_ok data -> message data ([ci; i0; i1; i2; i3; m0; m1; v; dv; acc; st; c0; c1] ++ block) None ->
  ci = 0x72 \/ ci = 0x76 -> app_meaning ([ci; i0; i1; i2; i3; m0; m1; v; dv; acc; st; c0; c1] ++ block) u ->
  exists slave, shown_xml (env_config env) powi block slave (render_from_bytes env powi data None).
Proof. exact protected_wired. Qed.
Print Assumptions C82_wired_partial.
Example C82_example : exists u id,
  bytes_ok ex_sealed_air /\ message ex_sealed_air (ex_sealed ex_short_head) (Some id) /\ protected (ex_sealed ex_short_head) /\
  app_meaning (ex_sealed ex_short_head) u.
Proof. exact protected_example. Qed.

(** with the right key, a sealed message has an element for each record that was sealed *)
Theorem C83_sealed_records : forall env powi enc data link plain cipher key,
  bytes_ok data -> bytes_ok plain -> addressed data link cipher -> sealed (enc key) link plain cipher ->
  inverse_cipher enc (env_aes env) key -> List.length key = 16%nat ->
  exists head block clear slave,
    cipher = head ++ block /\ plain = head ++ clear /\ len clear = len block /\ encrypted_message cipher block /\
    shown_xml (env_config env) powi clear slave (render_from_bytes env powi data (Some key)).
Proof. exact sealed_xml. Qed.
Print Assumptions C83_sealed_records.
Example C83_example : exists out slave id fields,
  bytes_ok ex_sealed_air /\ bytes_ok (ex_plain ex_short_head) /\ addressed ex_sealed_air ex_link (ex_sealed ex_short_head) /\
  sealed (toy ex_key) ex_link (ex_plain ex_short_head) (ex_sealed ex_short_head) /\
  inverse_cipher toy (env_aes ex_env) ex_key /\ List.length ex_key = 16%nat /\
  render_from_bytes ex_env ex_powi ex_sealed_air (Some ex_key) = Ok out /\ document out = Some (slave, [(id, fields)]).
Proof. exact sealed_xml_example. Qed.

(** the conversion fails for the reasons given only *)
Theorem C84_errors : forall env powi data key e, bytes_ok data -> render_from_bytes env powi data key = Err e ->
  (e = XUnsupportedWired /\ exists fr, wired_meaning data fr /\
     forall f a ci t u, fr = LongFrame f a (ci :: t) -> In ci [0x72; 0x73; 0x76; 0x77] -> ~ app_meaning (ci :: t) u) \/
  (exists x, e = XNotAFrame x /\ ~ readable data) \/
  ((e = XPayloadLength \/ exists d, e = XDecryption d) /\ key <> None).
Proof. exact xml_error_cases. Qed.
Print Assumptions C84_errors.
Example C84_example : exists e, bytes_ok [1; 2; 3] /\ render_from_bytes ex_env ex_powi [1; 2; 3] None = Err (XNotAFrame e) /\ ~ readable [1; 2; 3].
Proof. exact not_a_frame_example. Qed.

(** the conversion can panic *)
Theorem C85_never_panics_refuted : forall env powi, exists data,
  bytes_ok data /\ readable data /\ is_panic (render_from_bytes env powi data None).
Proof. exact xml_panic_refuted. Qed.
Print Assumptions C85_never_panics_refuted.
(** ... only for the known causes *)
Theorem C85_panics_partial : forall env powi data key, bytes_ok data -> (forall k, key = Some k -> cipher_of_bytes (env_aes env) k) ->
  is_panic (render_from_bytes env powi data key) ->
  (overflow_checks (env_config env) = true /\ get data 0 = Some 0x68 /\ 4 <= len data <= 5) \/
  (exists bef suf, taken (env_aes env) data key (bef ++ suf) /\ panic_cause (env_config env) suf).
Proof. exact xml_panic. Qed.
Print Assumptions C85_panics_partial.
Example C85_panics_example : exists data, bytes_ok data /\ is_panic (render_from_bytes ex_env ex_powi data None) /\
  is_panic (render_from_bytes ex_env ex_powi [0x68; 0; 0; 0x68] None).
Proof. exact xml_panics_example. Qed.

(** C86 as stated fails for the codes 0D and 0E, which are exchanged *)
Theorem C86_units_refuted : forall env powi, exists data out slave fields fields',
  bytes_ok data /\ message data (ex_fixed 0x0E) None /\ render_from_bytes env powi data None = Ok out /\
  document out = Some (slave, [(txt "0", fields); (txt "1", fields')]) /\ counter_unit 0x0E (txt "MJ") /\
  lookup (txt "Unit") fields = Some (txt "100 kJ").
Proof. exact fixed_refuted. Qed.
Print Assumptions C86_units_refuted.
(** ... and if the status says that the counters are binary (bit 0 in the standard and in the library, bit 7 in libmbus): they are
    read as decimals, 16 is shown as 10, and 10 is refused *)
Theorem C86_binary_refuted : forall env powi, exists data data' out slave fields fields' e u,
  bytes_ok data /\ message data (ex_binary 0x10) None /\ app_meaning (ex_binary 0x10) u /\
  (exists n acc st dtu c1 c2, u = FixedDataStructure n acc st dtu c1 c2 /\ N.testbit st 0 = true /\ N.testbit st 7 = true) /\
  twos_complement [0x10; 0; 0; 0] = 16%Z /\ render_from_bytes env powi data None = Ok out /\
  document out = Some (slave, [(txt "0", fields); (txt "1", fields')]) /\
  lookup (txt "Value") fields = Some (txt "10") /\
  bytes_ok data' /\ message data' (ex_binary 0x0A) None /\ twos_complement [0x0A; 0; 0; 0] = 10%Z /\
  render_from_bytes env powi data' None = Err e.
Proof. exact binary_refuted. Qed.
Print Assumptions C86_binary_refuted.
(** ... a fixed data structure is shown as its two counters, with the units of the other codes *)
Theorem C86_fixed_partial : forall env powi data payload id ci i0 i1 i2 i3 acc st d u a0 a1 a2 a3 b0 b1 b2 b3 rest n n1 n2 key,
  bytes_ok data -> payload = [ci; i0; i1; i2; i3; acc; st; d; u; a0; a1; a2; a3; b0; b1; b2; b3] ++ rest ->
  message data payload id -> ci = 0x73 \/ ci = 0x77 ->
  bcd_number [i0; i1; i2; i3] n -> bcd_number [a0; a1; a2; a3] n1 -> bcd_number [b0; b1; b2; b3] n2 ->
  exists out number access status f0 f1,
    render_from_bytes env powi data key = Ok out /\
    document out = Some ([ (txt "Id", number); (txt "Medium", nth (N.to_nat (d / 64 + 4 * (u / 64))) counter_media []);
                           (txt "AccessNumber", access); (txt "Status", status) ],
                         [ (txt "0", f0); (txt "1", f1) ]) /\
    written number n /\ written access acc /\ compact status [st] /\
    counter_record (fun code => code <> 0x0D /\ code <> 0x0E) st d n1 f0 /\
    counter_record (fun code => code <> 0x0D /\ code <> 0x0E) st u n2 f1.
Proof. exact fixed_xml. Qed.
Print Assumptions C86_fixed_partial.
Example C86_example : exists n n1 n2 out slave fields fields',
  bytes_ok (long_frame (ex_fixed 0x05)) /\ message (long_frame (ex_fixed 0x05)) (ex_fixed 0x05) None /\
  bcd_number [0x78; 0x56; 0x34; 0x12] n /\ bcd_number [0x45; 0x23; 0x01; 0] n1 /\ bcd_number [0x10; 0; 0; 0] n2 /\
  render_from_bytes ex_env ex_powi (long_frame (ex_fixed 0x05)) None = Ok out /\
  document out = Some (slave, [(txt "0", fields); (txt "1", fields')]) /\
  fields = [(txt "Function", txt "Stored value"); (txt "Unit", txt "kWh"); (txt "Value", txt "12345")].
Proof. exact fixed_example. Qed.

(** the function of a value is that of bits 4 and 5 of its DIF, in the data information and in
    the XML *)
Theorem C87_function : forall cf data hdr r powi i id fields,
  bytes_ok data -> data_record_parse cf data hdr = Ok r -> record_element (render_variable_record powi i r) = Some (id, fields) ->
  fields <> [] ->
  exists di t, ph_data_information (drh_processed (dr_header r)) = Some di /\ lookup (txt "Function") fields = Some t /\
  let dif := dib_dif (rh_dib (drh_raw (dr_header r))) in
  (dif = 0x0F -> t = txt "Manufacturer specific") /\ (dif = 0x1F -> t = txt "More records follow") /\
  (dif <> 0x0F -> dif <> 0x1F -> function_name (dif / 16 mod 4) (di_function_field di) t).
Proof. exact xml_function. Qed.
Print Assumptions C87_function.
Example C87_example : exists r id fields di,
  bytes_ok [0x21; 0x13; 5] /\ data_record_parse debug [0x21; 0x13; 5] None = Ok r /\
  record_element (render_variable_record ex_powi 0 r) = Some (id, fields) /\
  ph_data_information (drh_processed (dr_header r)) = Some di /\ di_function_field di = MinimumValue /\
  lookup (txt "Function") fields = Some (txt "Minimum value").
Proof. exact function_example. Qed.

(** C88 as stated fails for averaging and actuality durations, which have no unit *)
Theorem C88_primary_table_refuted : forall cf, exists row h,
  primary 0x71 row 0 /\ vr_units row = [{| u_name := UMinute; u_exponent := 1 |}] /\
  header_of cf [0x01; 0x71] [5] h 0x01 0x71 /\ option_map vi_units (ph_value_information (drh_processed h)) = Some [].
Proof. exact duration_refuted. Qed.
Print Assumptions C88_primary_table_refuted.
(** ... all other primary VIFs have the quantity, the power of ten and the unit of the standard;
    durations the quantity and the power of ten *)
Theorem C88_primary_table_partial : forall cf head rest h dif vif row n, header_of cf head rest h dif vif -> primary vif row n ->
  exists units, ph_value_information (drh_processed h) =
    Some {| vi_decimal_offset_exponent := 0; vi_labels := [vr_label row]; vi_decimal_scale_exponent := primary_scale row n; vi_units := units |} /\
    (~ duration row -> units = vr_units row) /\ (duration row -> units = []).
Proof. exact native_information. Qed.
Print Assumptions C88_primary_table_partial.
Example C88_example : exists h,
  header_of debug [0x01; 0x13] [5] h 0x01 0x13 /\
  primary 0x13 (row 0x10 8 (-6) LVolume [(UMeter, 3%Z)] (txt "Volume") (txt "m^3") 1) 3.
Proof. exact table_example. Qed.

(** C89 as stated fails for values below a millionth *)
Theorem C89_values_refuted : forall cf powi, exists h row r id fields,
  header_of cf [0x01; 0x40] [4] h 0x01 0x40 /\ primary 0x40 row 0 /\ primary_scale row 0 = (-7)%Z /\
  data_record_parse cf ([0x01; 0x40] ++ [4]) None = Ok r /\ record_element (render_variable_record powi 0 r) = Some (id, fields) /\
  lookup (txt "Value") fields = Some (txt "0.000000").
Proof. exact small_refuted. Qed.
Print Assumptions C89_values_refuted.
(** ... integers and decimals of fixed length with a primary VIF have its quantity and unit, and
    are exact as far as six digits after the point and 53 bits go *)
Theorem C89_integers_partial : forall cf head rest hdr h dif vif row n w r powi i id fields,
  header_of cf head rest h dif vif -> primary vif row n -> ~ date_vif vif -> integer_width (dif mod 16) = Some w ->
  data_record_parse cf (head ++ rest) hdr = Ok r -> record_element (render_variable_record powi i r) = Some (id, fields) ->
  exists body rest', rest = body ++ rest' /\ len body = w /\ xml_number fields row n (twos_complement body).
Proof. exact xml_integer. Qed.
Print Assumptions C89_integers_partial.
Theorem C89_decimals_partial : forall cf head rest hdr h dif vif row n w r powi i id fields,
  header_of cf head rest h dif vif -> primary vif row n -> ~ date_vif vif -> bcd_width (dif mod 16) = Some w ->
  data_record_parse cf (head ++ rest) hdr = Ok r -> record_element (render_variable_record powi i r) = Some (id, fields) ->
  exists body rest', rest = body ++ rest' /\ len body = w /\ all_decimal body /\
    xml_number fields row n (Z.of_N (FloatSpec.decimal (nibbles body))).
Proof. exact xml_bcd. Qed.
Print Assumptions C89_decimals_partial.
(** the range of the two theorems above has all integers of four bytes with scales from -6 to 6 *)
Theorem C89_range : forall z e, (- 2 ^ 31 <= z < 2 ^ 31)%Z -> (-6 <= e <= 6)%Z -> six_digits z e.
Proof. exact four_bytes_exact. Qed.
Print Assumptions C89_range.
Example C89_example : exists h r id fields,
  header_of debug [0x04; 0x13] [0xFE; 0xFF; 0xFF; 0xFF] h 0x04 0x13 /\
  primary 0x13 (row 0x10 8 (-6) LVolume [(UMeter, 3%Z)] (txt "Volume") (txt "m^3") 1) 3 /\
  ~ date_vif 0x13 /\ integer_width (0x04 mod 16) = Some 4 /\
  data_record_parse debug ([0x04; 0x13] ++ [0xFE; 0xFF; 0xFF; 0xFF]) None = Ok r /\
  record_element (render_variable_record ex_powi 0 r) = Some (id, fields) /\
  six_digits (-2) (-3) /\ lookup (txt "Value") fields = Some (txt "-0.002000").
Proof. exact xml_integer_example. Qed.
Example C89_decimal_example : exists h r id fields,
  header_of debug [0x0C; 0x13] [0x45; 0x23; 0x01; 0] h 0x0C 0x13 /\
  primary 0x13 (row 0x10 8 (-6) LVolume [(UMeter, 3%Z)] (txt "Volume") (txt "m^3") 1) 3 /\
  bcd_width (0x0C mod 16) = Some 4 /\
  data_record_parse debug ([0x0C; 0x13] ++ [0x45; 0x23; 0x01; 0]) None = Ok r /\
  record_element (render_variable_record ex_powi 0 r) = Some (id, fields) /\
  six_digits 12345 (-3) /\ lookup (txt "Value") fields = Some (txt "12.345000").
Proof. exact xml_bcd_example. Qed.
(** whatever the size, the value shown is the one transmitted up to its 2^51-th part, rounded to the nearest number
    with six digits after the point *)
Theorem C89_integers_close : forall cf head rest hdr h dif vif row n w r powi i id fields,
  header_of cf head rest h dif vif -> primary vif row n -> ~ date_vif vif -> integer_width (dif mod 16) = Some w ->
  data_record_parse cf (head ++ rest) hdr = Ok r -> record_element (render_variable_record powi i r) = Some (id, fields) ->
  exists body rest', rest = body ++ rest' /\ len body = w /\ close_number fields row n (IZR (twos_complement body)).
Proof. exact integer_close_xml. Qed.
Print Assumptions C89_integers_close.
Theorem C89_decimals_close : forall cf head rest hdr h dif vif row n w r powi i id fields,
  header_of cf head rest h dif vif -> primary vif row n -> ~ date_vif vif -> bcd_width (dif mod 16) = Some w ->
  data_record_parse cf (head ++ rest) hdr = Ok r -> record_element (render_variable_record powi i r) = Some (id, fields) ->
  exists body rest', rest = body ++ rest' /\ len body = w /\ all_decimal body /\
    close_number fields row n (IZR (Z.of_N (FloatSpec.decimal (nibbles body)))).
Proof. exact bcd_close_xml. Qed.
Print Assumptions C89_decimals_close.
Theorem C89_reals_close : forall cf head rest hdr h dif vif row n r powi i id fields,
  header_of cf head rest h dif vif -> primary vif row n -> ~ date_vif vif -> dif mod 16 = 5 ->
  data_record_parse cf (head ++ rest) hdr = Ok r -> record_element (render_variable_record powi i r) = Some (id, fields) ->
  exists body rest', rest = body ++ rest' /\ len body = 4 /\ close_single fields row n (Bits.b32_of_bits (Z.of_N (le_number body))).
Proof. exact real_close_xml. Qed.
Print Assumptions C89_reals_close.
Example C89_close_example : exists h r id fields,
  header_of debug [0x05; 0x13] [0x00; 0x00; 0xC0; 0x3F] h 0x05 0x13 /\
  primary 0x13 (row 0x10 8 (-6) LVolume [(UMeter, 3%Z)] (txt "Volume") (txt "m^3") 1) 3 /\ ~ date_vif 0x13 /\
  data_record_parse debug ([0x05; 0x13] ++ [0x00; 0x00; 0xC0; 0x3F]) None = Ok r /\
  record_element (render_variable_record ex_powi 0 r) = Some (id, fields) /\
  lookup (txt "Value") fields = Some (txt "0.001500").
Proof. exact real_close_example. Qed.
