(** Witnesses and examples for Props/Rscada.v. *)
From Coq Require Import List NArith ZArith QArith Lia Bool String.
Import ListNotations.
From Verif Require Import Model.Base Model.Text Model.Core Model.Wired Model.Wireless Model.F64 Model.DataInfo Model.ValueInfo Model.Record Model.Decrypt
  Model.UserData Model.Hex Model.Decimal Model.MbusData Model.Show Model.Output Model.Rscada
  Spec.CoreSpec Spec.TextSpec Spec.FloatSpec Spec.CrcSpec Spec.WiredSpec Spec.WirelessSpec Spec.DecryptSpec Spec.RecordSpec Spec.AppSpec
  Spec.AnnotateSpec Spec.MbusSpec Spec.OutputSpec Spec.VifSpec
  Proof.BaseFacts Proof.WiredFacts Proof.WirelessFacts Proof.FormatAProps Proof.AppFacts Proof.HexFacts Proof.AnnotateProps Proof.MbusFacts Proof.MbusProps
  Proof.ScaledFacts Proof.ShowFacts Proof.OutputFacts Proof.OutputRecords Proof.OutputFrames Proof.OutputMore Proof.OutputValues Proof.OutputProps
  Proof.VifFacts Spec.XmlSpec Spec.ProductSpec Spec.RscadaSpec Proof.XmlFacts Proof.RscadaFacts Proof.ProductFacts Proof.RscadaMessages Proof.RscadaErrors Proof.RscadaRecords Proof.RscadaValues.
Open Scope N_scope.

(** any powers of ten will do for the examples: they are not used *)
Definition ex_powi (e : Z) : f64 := f64_of_Z 1.

Lemma readable_example : exists out slave es,
  bytes_ok ex_wired_clear /\ render_from_bytes ex_env ex_powi ex_wired_clear None = Ok out /\ document out = Some (slave, es) /\
  lookup (txt "Id") slave = Some (txt "12345678") /\ map fst es = [txt "0"; txt "1"] /\
  map (fun e => lookup (txt "Quantity") (snd e)) es = [Some (txt "Volume"); Some (txt "Error flags")].
Proof. do 3 eexists. split; [lit|]. split; [vm_compute; reflexivity|]. split; [vm_compute; reflexivity|]. repeat split. Qed.

Lemma unsupported_example : exists u,
  bytes_ok (long_frame [0x78; 0x01; 0x13; 5]) /\ message (long_frame [0x78; 0x01; 0x13; 5]) [0x78; 0x01; 0x13; 5] None /\
  app_meaning [0x78; 0x01; 0x13; 5] u /\ ~ In 0x78 [0x72; 0x73; 0x76; 0x77].
Proof.
  eexists. split; [lit|]. split; [apply long_message|]. split; [apply app_lit; [lit|vm_compute; reflexivity]|].
  cbn. intros [K|[K|[K|[K|[]]]]]; discriminate K.
Qed.
Lemma long_slave_example : exists t u out slave es,
  bytes_ok ex_wired_clear /\ addressed ex_wired_clear [] ([0x72; 0x78; 0x56; 0x34; 0x12; 0x42; 0x04; 1; 7; 9; 0; 0; 0] ++ t) /\
  app_meaning ([0x72; 0x78; 0x56; 0x34; 0x12; 0x42; 0x04; 1; 7; 9; 0; 0; 0] ++ t) u /\
  render_from_bytes ex_env ex_powi ex_wired_clear None = Ok out /\ document out = Some (slave, es) /\
  lookup (txt "Manufacturer") slave = Some (txt "ABB") /\ lookup (txt "Medium") slave = Some (txt "Water").
Proof.
  exists ex_clear_block. do 4 eexists. split; [lit|]. split; [apply long_addressed|]. split; [apply app_lit; [lit|vm_compute; reflexivity]|].
  split; [vm_compute; reflexivity|]. split; [vm_compute; reflexivity|]. split; reflexivity.
Qed.
Lemma link_slave_example : exists t u out slave,
  bytes_ok ex_sealed_air /\ addressed ex_sealed_air ex_link (0x7A :: t) /\
  transport (0x7A :: t) (Some 0x55) (Some 0) (Some (0, 0x05)) /\ app_meaning (0x7A :: t) u /\
  render_from_bytes ex_env ex_powi ex_sealed_air None = Ok out /\ document out = Some (slave, []) /\
  lookup (txt "Id") slave = Some (txt "12345678") /\ lookup (txt "Signature") slave = Some (txt "0500").
Proof.
  destruct sealed_example as (d & B & _ & A & _). do 4 eexists. split; [exact B|]. split; [exact A|].
  split; [apply (TransShort 0x7A 0x55 0 0 0x05); now left|].
  split; [apply app_lit; [lit|vm_compute; reflexivity]|].
  split; [vm_compute; reflexivity|]. split; [vm_compute; reflexivity|]. split; reflexivity.
Qed.
Definition ex_unknown_air : list N := [12; 0x44] ++ ex_link ++ [0x00; 1; 2].
Lemma unread_example :
  bytes_ok ex_unknown_air /\ addressed ex_unknown_air ex_link [0x00; 1; 2] /\ (forall u, ~ app_meaning [0x00; 1; 2] u).
Proof.
  assert (B : bytes_ok ex_unknown_air) by lit.
  assert (H : exists fr, wireless_try_from ex_unknown_air = Ok fr) by (eexists; vm_compute; reflexivity).
  destruct H as [fr H]. assert (Wd : wf_data fr = [0x00; 1; 2]) by (vm_compute in H; apply Ok_inj in H; subst fr; reflexivity).
  split; [exact B|]. split.
  { rewrite <- Wd. apply (AddrWireless _ 12 0x44 ex_link [0x00; 1; 2] fr); [reflexivity| | |].
    - eapply not_wired_lit. vm_compute. reflexivity.
    - left; split; [reflexivity|eapply no_first_crc_lit; [exact B|reflexivity|reflexivity|vm_compute; discriminate]].
    - now apply wireless_ok_iff. }
  intros u A. apply dispatch_exact in A; [|lit]. vm_compute in A. discriminate A.
Qed.
Lemma protected_example : exists u id,
  bytes_ok ex_sealed_air /\ message ex_sealed_air (ex_sealed ex_short_head) (Some id) /\ protected (ex_sealed ex_short_head) /\
  app_meaning (ex_sealed ex_short_head) u.
Proof.
  destruct sealed_example as (d & B & _ & A & _).
  assert (H : exists fr, wireless_try_from ex_sealed_air = Ok fr) by (eexists; vm_compute; reflexivity).
  destruct H as [fr H]. assert (Wd : wf_data fr = ex_sealed ex_short_head) by (vm_compute in H; apply Ok_inj in H; subst fr; reflexivity).
  do 2 eexists. split; [exact B|]. split.
  { rewrite <- Wd. apply (MsgWireless _ ex_sealed_air fr).
    - eapply not_wired_lit. vm_compute. reflexivity.
    - left; split; [reflexivity|eapply no_first_crc_lit; [exact B|reflexivity|reflexivity|vm_compute; discriminate]].
    - now apply wireless_ok_iff. }
  split; [eapply ProtTransport, (EncShort 0x7A 0x55 0 0 0x05); [now left|discriminate]|].
  apply app_lit; [lit|vm_compute; reflexivity].
Qed.

(** on the wire, the encrypted data of a message with a long header are shown as records *)
Definition ex_secret : list N := [0x72; 0x78; 0x56; 0x34; 0x12; 0x42; 0x04; 1; 7; 9; 0; 0x10; 5] ++ [0x01; 0x13; 0x77].
Lemma wired_leak env powi : exists data payload u out slave id fields,
  bytes_ok data /\ message data payload None /\ protected payload /\ app_meaning payload u /\
  render_from_bytes env powi data None = Ok out /\ document out = Some (slave, [(id, fields)]) /\
  lookup (txt "Value") fields = Some (txt "0.119000").
Proof.
  exists (long_frame ex_secret), ex_secret. do 5 eexists. split; [lit|]. split; [apply long_message|].
  split; [eapply ProtTransport, (EncLong 0x72); [now left|discriminate]|].
  split; [apply app_lit; [lit|vm_compute; reflexivity]|].
  destruct env as [[[] []] ? ? ? ?]; (split; [vm_compute; reflexivity|]); (split; [vm_compute; reflexivity|]); reflexivity.
Qed.
Lemma sealed_xml_example : exists out slave id fields,
  bytes_ok ex_sealed_air /\ bytes_ok (ex_plain ex_short_head) /\ addressed ex_sealed_air ex_link (ex_sealed ex_short_head) /\
  sealed (toy ex_key) ex_link (ex_plain ex_short_head) (ex_sealed ex_short_head) /\
  inverse_cipher toy (env_aes ex_env) ex_key /\ length ex_key = 16%nat /\
  render_from_bytes ex_env ex_powi ex_sealed_air (Some ex_key) = Ok out /\ document out = Some (slave, [(id, fields)]).
Proof.
  destruct sealed_example as (d & B & B' & A & S & I & L & _). do 4 eexists.
  split; [exact B|]. split; [exact B'|]. split; [exact A|]. split; [exact S|]. split; [exact I|]. split; [exact L|].
  split; [vm_compute; reflexivity|]. vm_compute. reflexivity.
Qed.
Lemma xml_panic_refuted env powi : exists data, bytes_ok data /\ readable data /\ is_panic (render_from_bytes env powi data None).
Proof.
  exists (long_frame ([0x72; 0x78; 0x56; 0x34; 0x12; 0x42; 0x04; 1; 7; 9; 0; 0; 0] ++ [0x01; 0x7D; 0])). split; [lit|].
  split; [apply (ReadWired _ (LongFrame (RspUd false false) (Primary 1) ([0x72; 0x78; 0x56; 0x34; 0x12; 0x42; 0x04; 1; 7; 9; 0; 0; 0] ++ [0x01; 0x7D; 0])));
    apply WLong; [cbn; auto 20|cbn; lia|discriminate]|].
  destruct env as [[[] []] ? ? ? ?]; eexists; vm_compute; reflexivity.
Qed.
Lemma xml_panics_example : exists data, bytes_ok data /\ is_panic (render_from_bytes ex_env ex_powi data None) /\
  is_panic (render_from_bytes ex_env ex_powi [0x68; 0; 0; 0x68] None).
Proof.
  destruct (xml_panic_refuted ex_env ex_powi) as (data & B & _ & P). exists data. split; [exact B|]. split; [exact P|].
  eexists. vm_compute. reflexivity.
Qed.
Lemma not_a_frame_example : exists e, bytes_ok [1; 2; 3] /\ render_from_bytes ex_env ex_powi [1; 2; 3] None = Err (XNotAFrame e) /\ ~ readable [1; 2; 3].
Proof. eexists. split; [lit|]. split; [vm_compute; reflexivity|]. destruct frames_example as (e & fr & _ & _ & _ & _ & K & _). exact K. Qed.

(** a meter with the fixed data structure: kWh, litres; and one that counts megajoules *)
Definition ex_fixed (unit1 : N) : list N := [0x73; 0x78; 0x56; 0x34; 0x12; 9; 0x40; unit1; 0x29; 0x45; 0x23; 0x01; 0; 0x10; 0; 0; 0].
Lemma fixed_example : exists n n1 n2 out slave fields fields',
  bytes_ok (long_frame (ex_fixed 0x05)) /\ message (long_frame (ex_fixed 0x05)) (ex_fixed 0x05) None /\
  bcd_number [0x78; 0x56; 0x34; 0x12] n /\ bcd_number [0x45; 0x23; 0x01; 0] n1 /\ bcd_number [0x10; 0; 0; 0] n2 /\
  render_from_bytes ex_env ex_powi (long_frame (ex_fixed 0x05)) None = Ok out /\
  document out = Some (slave, [(txt "0", fields); (txt "1", fields')]) /\
  fields = [(txt "Function", txt "Stored value"); (txt "Unit", txt "kWh"); (txt "Value", txt "12345")].
Proof.
  do 7 eexists. split; [lit|]. split; [apply long_message|].
  split; [exists [8; 7; 6; 5; 4; 3; 2; 1]; split; [cbn [spells]; lia|reflexivity]|].
  split; [exists [5; 4; 3; 2; 1; 0; 0; 0]; split; [cbn [spells]; lia|reflexivity]|].
  split; [exists [0; 1; 0; 0; 0; 0; 0; 0]; split; [cbn [spells]; lia|reflexivity]|].
  split; [vm_compute; reflexivity|]. split; [vm_compute; reflexivity|]. reflexivity.
Qed.
Lemma fixed_refuted env powi : exists data out slave fields fields',
  bytes_ok data /\ message data (ex_fixed 0x0E) None /\ render_from_bytes env powi data None = Ok out /\
  document out = Some (slave, [(txt "0", fields); (txt "1", fields')]) /\ counter_unit 0x0E (txt "MJ") /\
  lookup (txt "Unit") fields = Some (txt "100 kJ").
Proof.
  exists (long_frame (ex_fixed 0x0E)). do 4 eexists. split; [lit|]. split; [apply long_message|].
  destruct env as [[[] []] ? ? ? ?];
  (split; [vm_compute; reflexivity|]); (split; [vm_compute; reflexivity|]); (split; [apply CuOne; cbn; auto 10|]); reflexivity.
Qed.

(** counters declared as binary numbers: 16 and 32 *)
Definition ex_binary (b : N) : list N := [0x73; 0x78; 0x56; 0x34; 0x12; 9; 0x81; 0x29; 0x29; b; 0; 0; 0; 0x20; 0; 0; 0].
Lemma binary_refuted env powi : exists data data' out slave fields fields' e u,
  bytes_ok data /\ message data (ex_binary 0x10) None /\ app_meaning (ex_binary 0x10) u /\
  (exists n acc st dtu c1 c2, u = FixedDataStructure n acc st dtu c1 c2 /\ N.testbit st 0 = true /\ N.testbit st 7 = true) /\
  twos_complement [0x10; 0; 0; 0] = 16%Z /\ render_from_bytes env powi data None = Ok out /\
  document out = Some (slave, [(txt "0", fields); (txt "1", fields')]) /\
  lookup (txt "Value") fields = Some (txt "10") /\
  bytes_ok data' /\ message data' (ex_binary 0x0A) None /\ twos_complement [0x0A; 0; 0; 0] = 10%Z /\
  render_from_bytes env powi data' None = Err e.
Proof.
  assert (U : exists u, user_data_try_from (ex_binary 0x10) = Ok u) by (eexists; vm_compute; reflexivity).
  destruct U as (u & U).
  exists (long_frame (ex_binary 0x10)), (long_frame (ex_binary 0x0A)). do 5 eexists. exists u. split; [lit|]. split; [apply long_message|].
  split; [now apply dispatch_exact; [lit|]|].
  split; [vm_compute in U; apply Ok_inj in U; subst u; do 6 eexists; split; [reflexivity|split; reflexivity]|].
  destruct env as [[[] []] ? ? ? ?];
  (split; [reflexivity|]); (split; [vm_compute; reflexivity|]); (split; [vm_compute; reflexivity|]); (split; [reflexivity|]);
  (split; [lit|]); (split; [apply long_message|]); (split; [reflexivity|]); vm_compute; reflexivity.
Qed.

(** storage number 2, with the storage bits in a DIFE *)
Definition ex_storage : list N := [0x81; 0x01; 0x13; 5].
Lemma storage_refuted cf powi : exists data r id fields di,
  bytes_ok data /\ data_record_parse cf data None = Ok r /\ record_element (render_variable_record powi 0 r) = Some (id, fields) /\
  ph_data_information (drh_processed (dr_header r)) = Some di /\ di_storage_number di = 32 /\
  lookup (txt "StorageNumber") fields = Some (txt "2").
Proof.
  exists ex_storage.
  destruct cf as [[] []]; do 4 eexists; (split; [lit|]); (split; [vm_compute; reflexivity|]); (split; [vm_compute; reflexivity|]);
  (split; [reflexivity|]); (split; [reflexivity|]); reflexivity.
Qed.
Lemma numbers_example : exists r id fields di,
  bytes_ok [0xC1; 0x50; 0x13; 5] /\ data_record_parse debug [0xC1; 0x50; 0x13; 5] None = Ok r /\
  record_element (render_variable_record ex_powi 0 r) = Some (id, fields) /\
  ph_data_information (drh_processed (dr_header r)) = Some di /\ di_storage_number di = 1 /\ di_tariff di = 1 /\ di_device di = 1 /\
  lookup (txt "StorageNumber") fields = Some (txt "1") /\ lookup (txt "Tariff") fields = Some (txt "1") /\
  lookup (txt "Device") fields = Some (txt "1").
Proof.
  do 4 eexists. split; [lit|]. split; [vm_compute; reflexivity|]. split; [vm_compute; reflexivity|]. repeat split.
Qed.
Lemma function_example : exists r id fields di,
  bytes_ok [0x21; 0x13; 5] /\ data_record_parse debug [0x21; 0x13; 5] None = Ok r /\
  record_element (render_variable_record ex_powi 0 r) = Some (id, fields) /\
  ph_data_information (drh_processed (dr_header r)) = Some di /\ di_function_field di = MinimumValue /\
  lookup (txt "Function") fields = Some (txt "Minimum value").
Proof. do 4 eexists. split; [lit|]. split; [vm_compute; reflexivity|]. split; [vm_compute; reflexivity|]. repeat split. Qed.

Lemma in_row first : existsb (fun r => vr_first r =? first) primary_rows = true ->
  exists r, In r primary_rows /\ vr_first r = first.
Proof. intros H. apply existsb_exists in H. destruct H as (r & I & E). apply N.eqb_eq in E. eauto. Qed.
(** averaging duration in minutes: no unit *)
Lemma duration_refuted cf : exists row h,
  primary 0x71 row 0 /\ vr_units row = [{| u_name := UMinute; u_exponent := 1 |}] /\
  header_of cf [0x01; 0x71] [5] h 0x01 0x71 /\ option_map vi_units (ph_value_information (drh_processed h)) = Some [].
Proof.
  exists (row 0x71 1 0 LAveragingDuration [(UMinute, 1%Z)] (txt "Averaging Duration") (txt "s") 60).
  destruct cf as [[] []]; eexists; (split; [split; [cbn; auto 40|split; [cbn; lia|reflexivity]]|]); (split; [reflexivity|]);
  (split; [head|]); reflexivity.
Qed.
Lemma volume_row : primary 0x13 (row 0x10 8 (-6) LVolume [(UMeter, 3%Z)] (txt "Volume") (txt "m^3") 1) 3.
Proof. split; [cbn; auto 40|]. split; [cbn; lia|reflexivity]. Qed.
Lemma table_example : exists h,
  header_of debug [0x01; 0x13] [5] h 0x01 0x13 /\
  primary 0x13 (row 0x10 8 (-6) LVolume [(UMeter, 3%Z)] (txt "Volume") (txt "m^3") 1) 3.
Proof. eexists. split; [head|apply volume_row]. Qed.
Lemma xml_integer_example : exists h r id fields,
  header_of debug [0x04; 0x13] [0xFE; 0xFF; 0xFF; 0xFF] h 0x04 0x13 /\
  primary 0x13 (row 0x10 8 (-6) LVolume [(UMeter, 3%Z)] (txt "Volume") (txt "m^3") 1) 3 /\
  ~ date_vif 0x13 /\ integer_width (0x04 mod 16) = Some 4 /\
  data_record_parse debug ([0x04; 0x13] ++ [0xFE; 0xFF; 0xFF; 0xFF]) None = Ok r /\
  record_element (render_variable_record ex_powi 0 r) = Some (id, fields) /\
  six_digits (-2) (-3) /\ lookup (txt "Value") fields = Some (txt "-0.002000").
Proof.
  do 4 eexists. split; [head|]. split; [apply volume_row|]. split; [intros [K|K]; discriminate K|]. split; [reflexivity|].
  split; [vm_compute; reflexivity|]. split; [vm_compute; reflexivity|]. split; [repeat split; cbn; lia|]. vm_compute. reflexivity.
Qed.
Lemma xml_bcd_example : exists h r id fields,
  header_of debug [0x0C; 0x13] [0x45; 0x23; 0x01; 0] h 0x0C 0x13 /\
  primary 0x13 (row 0x10 8 (-6) LVolume [(UMeter, 3%Z)] (txt "Volume") (txt "m^3") 1) 3 /\
  bcd_width (0x0C mod 16) = Some 4 /\
  data_record_parse debug ([0x0C; 0x13] ++ [0x45; 0x23; 0x01; 0]) None = Ok r /\
  record_element (render_variable_record ex_powi 0 r) = Some (id, fields) /\
  six_digits 12345 (-3) /\ lookup (txt "Value") fields = Some (txt "12.345000").
Proof.
  do 4 eexists. split; [head|]. split; [apply volume_row|]. split; [reflexivity|].
  split; [vm_compute; reflexivity|]. split; [vm_compute; reflexivity|]. split; [repeat split; cbn; lia|]. vm_compute. reflexivity.
Qed.
(** four tenths of a millilitre per minute are shown as nothing *)
Lemma small_refuted cf powi : exists h row r id fields,
  header_of cf [0x01; 0x40] [4] h 0x01 0x40 /\ primary 0x40 row 0 /\ primary_scale row 0 = (-7)%Z /\
  data_record_parse cf ([0x01; 0x40] ++ [4]) None = Ok r /\ record_element (render_variable_record powi 0 r) = Some (id, fields) /\
  lookup (txt "Value") fields = Some (txt "0.000000").
Proof.
  destruct cf as [[] []]; eexists; exists (row 0x40 8 (-7) LVolumeFlow [(UMeter, 3%Z); (UMinute, (-1)%Z)] (txt "Volume flow") (txt "m^3/min") 1);
  do 3 eexists; (split; [head|]); (split; [split; [cbn; auto 40|split; [cbn; lia|reflexivity]]|]); (split; [reflexivity|]);
  (split; [vm_compute; reflexivity|]); (split; [vm_compute; reflexivity|]); vm_compute; reflexivity.
Qed.
(** every integer of at most four bytes with a scale from -6 to 6 is shown exactly *)
Lemma four_bytes_exact z e : (- 2 ^ 31 <= z < 2 ^ 31)%Z -> (-6 <= e <= 6)%Z -> six_digits z e.
Proof.
  intros Hz He. split; [lia|]. split; intros K.
  - assert (10 ^ 1 <= 10 ^ (- e))%Z by (apply Z.pow_le_mono_r; lia). lia.
  - assert (10 ^ e <= 10 ^ 6)%Z by (apply Z.pow_le_mono_r; lia). assert (0 < 10 ^ e)%Z by (apply Z.pow_pos_nonneg; lia).
    rewrite Z.abs_mul, (Z.abs_eq (10 ^ e)) by lia. nia.
Qed.
Lemma scales_example : exists vi unit_text y quantity,
  value_information_try_from {| vib_vif := 0x13; vib_vifes := None; vib_plaintext := None |} = Ok vi /\
  vib_unit_normalize ex_powi 0x13 [] None (f64_of_Z 5) = Some (unit_text, y, quantity) /\ vi_decimal_scale_exponent vi = (-3)%Z.
Proof. do 4 eexists. split; [vm_compute; reflexivity|]. split; [vm_compute; reflexivity|]. reflexivity. Qed.

Lemma real_close_example : exists h r id fields,
  header_of debug [0x05; 0x13] [0x00; 0x00; 0xC0; 0x3F] h 0x05 0x13 /\
  primary 0x13 (row 0x10 8 (-6) LVolume [(UMeter, 3%Z)] (txt "Volume") (txt "m^3") 1) 3 /\ ~ date_vif 0x13 /\
  data_record_parse debug ([0x05; 0x13] ++ [0x00; 0x00; 0xC0; 0x3F]) None = Ok r /\
  record_element (render_variable_record ex_powi 0 r) = Some (id, fields) /\
  lookup (txt "Value") fields = Some (txt "0.001500").
Proof.
  do 4 eexists. split; [head|]. split; [apply volume_row|]. split; [unfold date_vif; cbn; intros [K|K]; discriminate K|].
  split; [vm_compute; reflexivity|]. split; [vm_compute; reflexivity|]. vm_compute. reflexivity.
Qed.
Lemma product_example : product (txt "KAM") 0x08 4 12345678 (txt "Kamstrup Multical 601") /\
  (forall name, ~ product (txt "KAM") 0x09 4 12345678 name) /\ product (txt "SBC") 0 2 19000001 (txt "Saia-Burgess ALE3").
Proof.
  split; [|split].
  - eapply product_rules; [vm_compute; reflexivity|]. eexists. split; [right; left; reflexivity|]. cbn. lia.
  - intros name P. eapply product_rules in P; [|vm_compute; reflexivity]. destruct P as (r & Hin & Hf).
    destruct Hin as [E|[E|[]]]; injection E as <- <-; cbn in Hf; lia.
  - eapply product_rules; [vm_compute; reflexivity|]. eexists. split; [right; left; reflexivity|]. reflexivity.
Qed.
