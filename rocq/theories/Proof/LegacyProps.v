(** Witnesses and examples for Props/Legacy.v. *)
From Coq Require Import List NArith ZArith Lia Bool String.
Import ListNotations.
From Verif Require Import Model.Base Model.Text Model.Core Model.Wired Model.Wireless Model.F64 Model.DataInfo Model.ValueInfo Model.Record Model.Decrypt
  Model.UserData Model.Hex Model.Annotate Model.MbusData Model.Show Model.Escape Model.Output Model.Format Model.Render Model.Manufacturers Model.Legacy Model.Serialize
  Spec.CoreSpec Spec.TextSpec Spec.FormatSpec Spec.WiredSpec Spec.WirelessSpec Spec.DecryptSpec Spec.RecordSpec Spec.VifSpec Spec.AppSpec
  Spec.AnnotateSpec Spec.MbusSpec Spec.OutputSpec Spec.DetailSpec Spec.RenderSpec Spec.LegacySpec Spec.CsvSpec Spec.JsonSpec Spec.JsonViewSpec Spec.SerializeSpec
  Proof.BaseFacts Proof.TextFacts Proof.WiredFacts Proof.WirelessFacts Proof.AppFacts Proof.FormatAProps Proof.AnnotateProps Proof.MbusProps Proof.OutputProps
  Proof.HexFacts Proof.RscadaProps Proof.FormatProps Proof.DetailProps Proof.LegacyFacts Proof.LegacyRecords Proof.LegacyValues Proof.SerializeFacts Proof.ViewFacts.
Open Scope N_scope.
Open Scope list_scope.

Definition ex_display (f : f64) : text := txt "1.5".
Definition ex_legacy : legacy_renderers := {|
  lr_display := ex_display; lr_number := ex_display; lr_yaml := fun _ => txt "{}"; lr_frame_message := fun _ => txt "not a frame";
  lr_message := fun _ => txt "message"; lr_debug := fun t => [34] ++ t ++ [34] |}.

Definition sealed_head : list N := [0x72; 0x78; 0x56; 0x34; 0x12; 0x42; 0x04; 1; 7; 9; 0; 0; 5].
Lemma sealed_head_encrypted block : encrypted_message (sealed_head ++ block) block.
Proof. apply (EncLong 0x72); [now left|discriminate]. Qed.

(** encrypted bytes that look like a record *)
Definition ex_lookalike : list N := [0x01; 0x13; 5] ++ repeat 0x2F 13.
Lemma json_refuted env display : exists data payload block o rs,
  bytes_ok data /\ message data payload None /\ encrypted_message payload block /\
  parse_frame_bytes env display data None = Ok (Some o) /\ fs_decrypted (po_summary o) = false /\
  po_records o = Some rs /\ rs <> [] /\ records_all (env_config env) block None = Some (map Ok rs).
Proof.
  destruct env as [[[] []] ? ? ? ?].
  all: exists (long_frame (sealed_head ++ ex_lookalike)), (sealed_head ++ ex_lookalike), ex_lookalike; do 2 eexists.
  all: split; [lit|]; split; [apply long_message|]; split; [apply sealed_head_encrypted|].
  all: (split; [vm_compute; reflexivity|]); (split; [reflexivity|]); (split; [reflexivity|]); (split; [discriminate|]); vm_compute; reflexivity.
Qed.
Definition ex_crash : list N := [0x01; 0x7D; 5] ++ repeat 0x2F 13.
Lemma crash_refuted env display : exists data payload block d,
  bytes_ok data /\ message data payload None /\ encrypted_message payload block /\
  decode_bytes env data None false = Ok d /\ is_panic (parse_frame_bytes env display data None).
Proof.
  destruct env as [[[] []] ? ? ? ?].
  all: exists (long_frame (sealed_head ++ ex_crash)), (sealed_head ++ ex_crash), ex_crash; eexists.
  all: split; [lit|]; split; [apply long_message|]; split; [apply sealed_head_encrypted|].
  all: (split; [vm_compute; reflexivity|]); eexists; vm_compute; reflexivity.
Qed.
(** an extended link layer for encrypted sessions *)
Definition ex_session : list N := [0x8D; 0x20; 7; 0; 0; 0; 0x20; 0; 0] ++ [0x01; 0x13; 5].
Lemma session_refuted env display : exists data payload u d o,
  bytes_ok data /\ message data payload None /\ protected payload /\ app_meaning payload u /\
  decode_bytes env data None false = Ok d /\ do_records d = [] /\ to_statuses (do_transport d) = [] /\
  parse_frame_bytes env display data None = Ok (Some o) /\ fs_encrypted (po_summary o) = false /\
  fs_records (po_summary o) <> [] /\ fs_status (po_summary o) <> None.
Proof.
  destruct env as [[[] []] ? ? ? ?].
  all: exists (long_frame ex_session), ex_session; do 3 eexists; split; [lit|]; split; [apply long_message|].
  all: split; [apply (ProtEllII 0x20 7 0 0 0 0x20 0 0)|]; split; [apply app_lit; [lit|vm_compute; reflexivity]|].
  all: (split; [vm_compute; reflexivity|]); (split; [reflexivity|]); (split; [reflexivity|]);
    (split; [vm_compute; reflexivity|]); (split; [reflexivity|]); split; discriminate.
Qed.
Lemma secret_example : exists u o,
  bytes_ok ex_wired_encrypted /\ message ex_wired_encrypted ex_encrypted_message None /\
  encrypted_message ex_encrypted_message (repeat 0x2F 16) /\ app_meaning ex_encrypted_message u /\
  parse_frame_bytes ex_env ex_display ex_wired_encrypted None = Ok (Some o) /\
  fs_encrypted_payload_hex (po_summary o) = Some (txt "2F2F2F2F2F2F2F2F2F2F2F2F2F2F2F2F").
Proof.
  do 2 eexists. split; [lit|]. split; [apply long_message|]. split; [exact (proj2 (proj2 encrypted_example))|].
  split; [apply app_lit; [lit|vm_compute; reflexivity]|]. split; [vm_compute; reflexivity|]. vm_compute. reflexivity.
Qed.

(** a record cut short leaves no trace in the summary *)
Definition clear_head : list N := [0x72; 0x78; 0x56; 0x34; 0x12; 0x42; 0x04; 1; 7; 9; 0; 0; 0].
Lemma truncation_refuted env display : exists data data' d d' o o',
  bytes_ok data /\ bytes_ok data' /\
  decode_bytes env data None false = Ok d /\ do_decode_state d = txt "complete" /\
  decode_bytes env data' None false = Ok d' /\ do_decode_state d' = txt "partial" /\
  parse_frame_bytes env display data None = Ok (Some o) /\ parse_frame_bytes env display data' None = Ok (Some o') /\
  po_summary o = po_summary o'.
Proof.
  destruct env as [[[] []] ? ? ? ?].
  all: exists (long_frame (clear_head ++ [0x01; 0x13; 5])), (long_frame (clear_head ++ [0x01; 0x13; 5; 0x04; 0x13; 1])); do 4 eexists.
  all: split; [lit|]; split; [lit|].
  all: (split; [vm_compute; reflexivity|]); (split; [reflexivity|]); (split; [vm_compute; reflexivity|]); (split; [reflexivity|]);
    (split; [vm_compute; reflexivity|]); (split; [vm_compute; reflexivity|]); reflexivity.
Qed.
Lemma same_records_example : exists u d o,
  bytes_ok ex_wired_clear /\ message ex_wired_clear ex_clear_message None /\ in_clear ex_clear_message ex_clear_block /\
  app_meaning ex_clear_message u /\ decode_bytes ex_env ex_wired_clear None false = Ok d /\ length (do_records d) = 2%nat /\
  parse_frame_bytes ex_env ex_display ex_wired_clear None = Ok (Some o) /\ length (fs_records (po_summary o)) = 2%nat.
Proof.
  destruct clear_example as (u & d & H1 & H2 & H3 & H4 & H5 & H6 & _). exists u, d. eexists.
  repeat (split; [assumption|]). split; [vm_compute; reflexivity|]. vm_compute. reflexivity.
Qed.
Lemma same_sealed_example : exists d o,
  bytes_ok ex_sealed_air /\ addressed ex_sealed_air ex_link (ex_sealed ex_short_head) /\
  sealed (toy ex_key) ex_link (ex_plain ex_short_head) (ex_sealed ex_short_head) /\
  decode_bytes ex_env ex_sealed_air (Some ex_key) false = Ok d /\ length (do_records d) = 1%nat /\
  parse_frame_bytes ex_env ex_display ex_sealed_air (Some ex_key) = Ok (Some o) /\ length (fs_records (po_summary o)) = 1%nat.
Proof.
  destruct sealed_example as (d & H1 & _ & H3 & H4 & _ & _ & H7 & H8). exists d. eexists.
  repeat (split; [assumption|]). split; [vm_compute; reflexivity|]. vm_compute. reflexivity.
Qed.
Lemma accepts_example :
  parse_frame_bytes ex_env ex_display [1; 2; 3] None = Ok None /\ (exists e, decode_bytes ex_env [1; 2; 3] None false = Err e) /\
  exists o, parse_frame_bytes ex_env ex_display ex_wired_clear None = Ok (Some o).
Proof. split; [vm_compute; reflexivity|]. split; [eexists; vm_compute; reflexivity|]. eexists. vm_compute. reflexivity. Qed.
Lemma meter_shown env display data payload id u key key' enrich d o :
  bytes_ok data -> message data payload id -> app_meaning payload u ->
  decode_bytes env data key enrich = Ok d -> parse_frame_bytes env display data key' = Ok (Some o) ->
  (forall x, do_identity d = Some x -> id_source x <> txt "application.fixed" -> same_meter env x (po_summary o)) /\
  (do_identity d = None -> fs_identification_number (po_summary o) = None /\ fs_manufacturer (po_summary o) = None /\
     fs_version (po_summary o) = None /\ fs_device_type (po_summary o) = None) /\
  same_transport d (po_summary o).
Proof. intros B M A. apply (legacy_meter env display data payload id (Some u) None key key' enrich d o B M). left. eauto. Qed.
Lemma number_shown env display data payload id u key key' enrich d o :
  bytes_ok data -> message data payload id -> app_meaning payload u ->
  decode_bytes env data key enrich = Ok d -> parse_frame_bytes env display data key' = Ok (Some o) ->
  forall x, do_identity d = Some x -> fs_identification_number (po_summary o) = id_id x.
Proof. intros B M A. apply (legacy_number env display data payload id (Some u) None key key' enrich d o B M). left. eauto. Qed.
Lemma fixed_refuted : forall env display, exists data payload d o x,
  bytes_ok data /\ message data payload None /\ decode_bytes env data None false = Ok d /\ parse_frame_bytes env display data None = Ok (Some o) /\
  do_identity d = Some x /\ id_device_type x <> None /\ fs_device_type (po_summary o) = None.
Proof.
  intros env display. exists (long_frame DetailProps.ex_fixed), DetailProps.ex_fixed. destruct env as [[[] []] ? ? ? ?].
  all: do 3 eexists; split; [lit|]; split; [apply long_message|]; split; [vm_compute; reflexivity|]; split; [vm_compute; reflexivity|].
  all: split; [vm_compute; reflexivity|]; split; [discriminate|vm_compute; reflexivity].
Qed.
Lemma access_refuted : forall env display, exists data payload d o source access,
  bytes_ok data /\ message data payload None /\ decode_bytes env data None false = Ok d /\ parse_frame_bytes env display data None = Ok (Some o) /\
  to_access_numbers (do_transport d) = [(source, access)] /\ fs_access_number (po_summary o) = None.
Proof.
  intros env display. exists (long_frame [0x8C; 0x20; 7; 0x78; 0x01; 0x13; 5]), [0x8C; 0x20; 7; 0x78; 0x01; 0x13; 5]. destruct env as [[[] []] ? ? ? ?].
  all: do 4 eexists; split; [lit|]; split; [apply long_message|]; split; [vm_compute; reflexivity|]; split; [vm_compute; reflexivity|].
  all: split; vm_compute; reflexivity.
Qed.
Lemma older_air_example : exists fr o l c rest,
  bytes_ok ex_air_encoded /\ not_wired ex_air_encoded /\ received ex_air_encoded ex_air /\ wireless_meaning ex_air fr /\ ex_air = l :: c :: rest /\
  parse_frame_bytes ex_env ex_display ex_air_encoded None = Ok (Some o) /\ fs_function (po_summary o) = Some (txt "SndNr").
Proof.
  destruct air_example as (fr & B & _ & F & W & _ & _ & N & _). exists fr. do 4 eexists. split; [exact B|]. split; [exact N|]. split; [right; exact F|].
  split; [exact W|]. split; [reflexivity|]. split; vm_compute; reflexivity.
Qed.
Lemma meter_example : exists u d o x,
  bytes_ok ex_wired_clear /\ message ex_wired_clear ex_clear_message None /\ app_meaning ex_clear_message u /\
  decode_bytes ex_env ex_wired_clear None false = Ok d /\ parse_frame_bytes ex_env ex_display ex_wired_clear None = Ok (Some o) /\
  do_identity d = Some x /\ id_source x <> txt "application.fixed" /\
  fs_identification_number (po_summary o) = Some (txt "12345678") /\ fs_access_number (po_summary o) = Some 9 /\
  fs_function (po_summary o) = Some (txt "RspUd (ACD: false, DFC: false)") /\ fs_frame_type (po_summary o) = txt "LongFrame".
Proof.
  destruct clear_example as (u & d & H1 & H2 & _ & H4 & H5 & _). exists u, d. do 2 eexists.
  split; [exact H1|]. split; [exact H2|]. split; [exact H4|]. split; [exact H5|]. split; [vm_compute; reflexivity|].
  vm_compute in H5. apply Ok_inj in H5. subst d. split; [reflexivity|]. split; [discriminate|].
  repeat (split; [vm_compute; reflexivity|]). vm_compute. reflexivity.
Qed.

(** ** The registry, the wide CSV, records *)
Lemma registry_example : lookup_manufacturer (txt "KAM") =
  Some (txt "Kamstrup A/S", txt "kamstrup.com", txt "Energy and water metering (Denmark)") /\ lookup_manufacturer (txt "XXX") = None.
Proof. split; vm_compute; reflexivity. Qed.
Lemma wide_example : exists o headers row,
  parse_frame_output ex_env (lr_display ex_legacy) (hex_string ex_wired_clear) None = Ok (Some o) /\
  (exists t, serialize_mbus_data ex_env ex_renderers ex_legacy (hex_string ex_wired_clear) (txt "csv-wide") None = Ok t /\
     reads_only t [headers; row]) /\
  column headers row (txt "Access Number") (txt "9") /\
  column headers row (txt "DataPoint1_Value") (txt "(1.5)e-3[m" ++ [0xB3] ++ txt "](Volume)").
Proof.
  assert (E : exists o, parse_frame_output ex_env (lr_display ex_legacy) (hex_string ex_wired_clear) None = Ok (Some o) /\
    fs_access_number (po_summary o) = Some 9 /\
    option_map rs_display (nth_error (fs_records (po_summary o)) 0) = Some (txt "(1.5)e-3[m" ++ [0xB3] ++ txt "](Volume)")).
  { eexists. split; [vm_compute; reflexivity|]. split; vm_compute; reflexivity. }
  destruct E as (o & E & E1 & E2). destruct (serialize_wide ex_env ex_renderers ex_legacy _ _ _ E) as (h & r & S & _ & _ & C).
  exists o, h, r. split; [exact E|]. split; [exact S|]. split.
  - apply C. change (txt "9") with (given (option_map dec (Some 9)) []). rewrite <- E1. constructor.
  - apply C. destruct (nth_error _ _) as [x|] eqn:En; [|discriminate]. assert (E3 : rs_display x = txt "(1.5)e-3[m" ++ [0xB3] ++ txt "](Volume)") by (change (Some (rs_display x) = Some (txt "(1.5)e-3[m" ++ [0xB3] ++ txt "](Volume)")) in E2; congruence).
    rewrite <- E3. exact (WcValue _ 0 _ En).
Qed.
Lemma old_record_example : exists h r x,
  header_of debug [0x04; 0x13] [1; 0; 0; 0] h 0x04 0x13 /\
  primary 0x13 (row 0x10 8 (-6) LVolume [(UMeter, 3%Z)] (txt "Volume") (txt "m^3") 1) 3 /\
  data_record_parse debug ([0x04; 0x13] ++ [1; 0; 0; 0]) None = Ok r /\ d_value (dr_data r) = Some (Number x) /\
  rs_display (summarize_record ex_display r) = txt "(1.5)e-3[m" ++ [0xB3] ++ txt "](Volume)".
Proof.
  do 3 eexists. split; [head|]. split; [apply volume_row|]. split; [vm_compute; reflexivity|]. split; vm_compute; reflexivity.
Qed.

(** ** The chart *)
Fixpoint starts (p t : text) : bool :=
  match p, t with
  | [], _ => true
  | c :: p', d :: t' => (c =? d) && starts p' t'
  | _ :: _, [] => false
  end.
Fixpoint infix (p t : text) : bool := starts p t || match t with [] => false | _ :: t' => infix p t' end.
Lemma starts_app p t : starts p (p ++ t) = true.
Proof. induction p as [|c p IH]; [reflexivity|]. cbn. now rewrite N.eqb_refl. Qed.
Lemma infix_app p pre post : infix p (pre ++ p ++ post) = true.
Proof.
  induction pre as [|c pre IH]; cbn [app].
  - destruct (p ++ post) as [|x y] eqn:E; cbn [infix]; rewrite <- E, starts_app; reflexivity.
  - cbn [infix]. rewrite IH. apply orb_true_r.
Qed.
Lemma starts_split p : forall t, starts p t = true -> exists post, t = p ++ post.
Proof.
  induction p as [|c p IH]; intros t H; [now exists t|]. destruct t as [|d t]; [discriminate H|]. cbn in H.
  apply andb_prop in H as [H1 H2]. apply N.eqb_eq in H1. subst d. destruct (IH _ H2) as (post & ->). now exists post.
Qed.
Lemma infix_split p : forall t, infix p t = true -> exists pre post, t = pre ++ p ++ post.
Proof.
  induction t as [|c t IH]; intros H; cbn [infix] in H; apply orb_prop in H as [H|H]; try discriminate H.
  - apply starts_split in H as (post & E). exists [], post. exact E.
  - apply starts_split in H as (post & E). exists [], post. exact E.
  - destruct (IH H) as (pre & post & ->). exists (c :: pre), post. reflexivity.
Qed.
Lemma chart_group_refuted : exists env display input t pre post,
  parse_to_mermaid env display input = Ok t /\ t = pre ++ txt "DEV_SG --> REC_SG" ++ post /\
  forall pre' post', t <> pre' ++ txt "subgraph DEV_SG" ++ post'.
Proof.
  exists ex_env, ex_display, (hex_string (long_frame [0x78; 0x01; 0x13; 5])).
  assert (E : exists t, parse_to_mermaid ex_env ex_display (hex_string (long_frame [0x78; 0x01; 0x13; 5])) = Ok t /\
    infix (txt "DEV_SG --> REC_SG") t = true /\ infix (txt "subgraph DEV_SG") t = false).
  { eexists. split; [vm_compute; reflexivity|]. split; vm_compute; reflexivity. }
  destruct E as (t & E & E1 & E2). apply infix_split in E1 as (pre & post & E1). exists t, pre, post. split; [exact E|]. split; [exact E1|].
  intros pre' post' K. rewrite K, infix_app in E2. discriminate E2.
Qed.
(** a line of the chart that is nothing but the text of a record *)
Lemma chart_line_refuted : exists env display input data text pre post,
  clean_and_convert input = data /\ message data ([0x78; 0x0D; 0x78; 3] ++ text) None /\
  parse_to_mermaid env display input = Ok (pre ++ [10] ++ txt "A" ++ [10] ++ post).
Proof.
  exists ex_env, ex_display, (hex_string (long_frame ([0x78; 0x0D; 0x78; 3] ++ [10; 65; 10]))), (long_frame ([0x78; 0x0D; 0x78; 3] ++ [10; 65; 10])), [10; 65; 10].
  assert (E : exists t, parse_to_mermaid ex_env ex_display (hex_string (long_frame ([0x78; 0x0D; 0x78; 3] ++ [10; 65; 10]))) = Ok t /\
    infix ([10] ++ txt "A" ++ [10]) t = true).
  { eexists. split; [vm_compute; reflexivity|]. vm_compute; reflexivity. }
  destruct E as (t & E & E1). apply infix_split in E1 as (pre & post & E1). exists pre, post. split; [vm_compute; reflexivity|].
  split; [apply long_message|]. rewrite E, E1. reflexivity.
Qed.
Lemma chart_secret_refuted : exists env display input data payload block rs before nodes rest,
  clean_and_convert input = data /\ message data payload None /\ encrypted_message payload block /\
  records_all (env_config env) block None = Some (map Ok rs) /\ rs <> [] /\
  parse_to_mermaid env display input = Ok (before ++ nodes ++ rest) /\ old_nodes display 0 rs nodes.
Proof.
  exists ex_env, ex_display, (hex_string (long_frame (sealed_head ++ ex_lookalike))), (long_frame (sealed_head ++ ex_lookalike)),
    (sealed_head ++ ex_lookalike), ex_lookalike.
  assert (R : exists r, records_all debug ex_lookalike None = Some [Ok r] /\
    rs_display (summarize_record ex_display r) = txt "(1.5)e-3[m" ++ [0xB3] ++ txt "](Volume" ++ txt ")").
  { eexists. split; vm_compute; reflexivity. }
  destruct R as (r & R & Er). exists [r].
  set (node := txt "        R" ++ dec 0 ++ txt "[" ++ [34] ++ legacy_mermaid_escape (txt "(1.5)e-3[m" ++ [0xB3] ++ txt "](Volume" ++ txt ")") ++ [34] ++ txt "]" ++ [10] ++ []).
  assert (E : exists t, parse_to_mermaid ex_env ex_display (hex_string (long_frame (sealed_head ++ ex_lookalike))) = Ok t /\ infix node t = true).
  { eexists. split; [vm_compute; reflexivity|]. vm_compute; reflexivity. }
  destruct E as (t & E & E1). apply infix_split in E1 as (pre & post & E1). exists pre, node, post.
  split; [vm_compute; reflexivity|]. split; [apply long_message|]. split; [apply sealed_head_encrypted|].
  split; [exact R|]. split; [discriminate|]. split; [rewrite E; f_equal; exact E1|].
  apply OnNext; [left; exact Er|constructor].
Qed.
Lemma chart_example : exists u rs,
  clean_and_convert (hex_string ex_wired_clear) = ex_wired_clear /\ message ex_wired_clear ex_clear_message None /\
  in_clear ex_clear_message ex_clear_block /\ app_meaning ex_clear_message u /\
  records_all debug ex_clear_block None = Some (map Ok rs) /\ length rs = 2%nat.
Proof.
  destruct clear_example as (u & d & _ & H2 & H3 & H4 & _). exists u.
  assert (R : exists r1 r2, records_all debug ex_clear_block None = Some (map Ok [r1; r2])) by (do 2 eexists; vm_compute; reflexivity).
  destruct R as (r1 & r2 & R). exists [r1; r2]. split; [vm_compute; reflexivity|]. auto.
Qed.

(** ** The text interface *)
Lemma text_interface_example :
  stripped (txt " YAML ") (txt "YAML") /\ In ("yaml"%string, FYaml) format_names /\ spells_word (txt "YAML") (txt "yaml") /\
  hex_input (hex_string ex_wired_clear) ex_wired_clear /\
  serialize_mbus_data ex_env ex_renderers ex_legacy (hex_string ex_wired_clear) (txt " YAML ") None = Ok (txt "{}") /\
  serialize_mbus_data ex_env ex_renderers ex_legacy (txt "68 06") (txt "yaml") None = 
    Ok (txt "Error [frame.invalid]: data is not a valid wired or wireless M-Bus frame (wired: not a frame; wireless: not a frame)") /\
  serialize_mbus_data ex_env ex_renderers ex_legacy (txt "68 06") (txt "html") None =
    Ok (txt "Error [format.unsupported]: unsupported output format ""html""; expected table, json, yaml, csv, mermaid, xml, annotated, or annotated-text") /\
  serialize_mbus_data ex_env ex_renderers ex_legacy (txt "68 0G") (txt "csv") None =
    Ok (txt "Error [input.invalid_hex]: invalid hexadecimal input at character 3: message").
Proof.
  split. { exact (trim_stripped (txt " YAML ")). }
  split; [cbn; auto 20|]. split; [repeat constructor; cbn; lia|].
  split. { apply decode_hex_exact. vm_compute. reflexivity. }
  repeat (split; [vm_compute; reflexivity|]). vm_compute. reflexivity.
Qed.

(** ** The decrypted view *)
(** a frame that ends with a CRC over the whole frame *)
Lemma view_wireless_refuted : exists env rn l c link plain cipher crc block fr data key display t v segs segs0,
  data = [l; c] ++ link ++ cipher ++ crc /\ bytes_ok data /\ List.length link = 8%nat /\ not_wired data /\ received data data /\
  wireless_meaning data fr /\ wf_data fr = cipher /\
  sealed (toy key) link plain cipher /\ encrypted_message plain block /\ inverse_cipher toy (env_aes env) key /\ List.length key = 16%nat /\
  render_annotated_bytes env rn data (Some key) = Ok t /\ only_value t v /\ says_annotated display segs (Some (data, segs0)) v /\
  forall tail, display <> [l; c] ++ link ++ plain ++ tail.
Proof.
  assert (B : bytes_ok ex_crc_air) by (apply bytes_lit; vm_compute; reflexivity).
  assert (H : exists fr, wireless_try_from ex_crc_air = Ok fr) by (eexists; vm_compute; reflexivity).
  destruct H as [fr H].
  assert (D : exists d, decrypted_hexview debug toy ex_crc_air ex_key = Ok (Some d) /\
    (forall tail, d <> [50; 0x44] ++ ex_link ++ ex_plain ex_short_head ++ tail) /\
    exists ds, annotate_frame debug d = Ok ds /\ exists s, replace_encrypted debug ds d = Ok s).
  { eexists. split; [vm_compute; reflexivity|]. split.
    - intros tail E. apply (f_equal (firstn 16)) in E. vm_compute in E. discriminate E.
    - eexists. split; [vm_compute; reflexivity|]. eexists. vm_compute. reflexivity. }
  destruct D as (d & D1 & D2 & ds & D3 & s & D4).
  assert (A : exists segs0, annotate_frame debug ex_crc_air = Ok segs0) by (eexists; vm_compute; reflexivity).
  destruct A as (sg & A).
  pose proof (annotated_view ex_env ex_renderers ex_legacy ex_crc_air (hex_string ex_crc_air) ex_key d sg A D1
    ltac:(vm_compute; reflexivity) ds D3) as V.
  change (env_config ex_env) with debug in V. rewrite D4 in V. destruct V as ((t & v & l & l0 & V1 & V2 & V3 & _) & _).
  eexists ex_env, ex_renderers, 50, 0x44, ex_link, (ex_plain ex_short_head), (ex_sealed ex_short_head), _, _, fr, ex_crc_air, ex_key, d, t, v, l, l0.
  split; [unfold ex_crc_air, with_crc; rewrite <- !app_assoc; reflexivity|]. split; [exact B|]. split; [reflexivity|].
  split; [eapply not_wired_lit; vm_compute; reflexivity|].
  split; [left; split; [reflexivity|eapply no_first_crc_lit; [exact B|reflexivity|reflexivity|vm_compute; discriminate]]|].
  split; [now apply wireless_ok_iff|]. split; [vm_compute in H; apply Ok_inj in H; subst fr; reflexivity|].
  split; [apply ex_sealed_short|]. split; [apply (EncShort 0x7A 0x55 0 0 5); [now left|discriminate]|].
  split; [exact toy_inverse|]. split; [reflexivity|]. split; [exact V1|]. split; [exact V2|]. split; [exact V3|exact D2].
Qed.
Lemma view_example : exists segs0 segs,
  sealed (toy ex_key) [] (ex_plain ex_long_head) (ex_sealed ex_long_head) /\
  encrypted_message (ex_plain ex_long_head) (concat ex_blocks ++ [1; 2]) /\
  wired_meaning (long_frame (ex_sealed ex_long_head)) (LongFrame (RspUd false false) (Primary 1) (ex_sealed ex_long_head)) /\
  clean_and_convert (hex_string (long_frame (ex_sealed ex_long_head))) = long_frame (ex_sealed ex_long_head) /\
  annotate_frame debug (long_frame (ex_sealed ex_long_head)) = Ok segs0 /\
  (exists t v l l0, render_annotated_bytes ex_env ex_renderers (long_frame (ex_sealed ex_long_head)) (Some ex_key) = Ok t /\ only_value t v /\
     says_annotated (long_frame (ex_plain ex_long_head)) l (Some (long_frame (ex_sealed ex_long_head), l0)) v /\ map fst l = segs /\ map fst l0 = segs0) /\
  map s_kind (group segs 0) = [KDif; KVif; KDataPayload].
Proof.
  assert (W : wired_meaning (long_frame (ex_sealed ex_long_head)) (LongFrame (RspUd false false) (Primary 1) (ex_sealed ex_long_head)))
    by (apply WLong; [cbn; auto 20|cbn; lia|discriminate]).
  assert (S1 : exists segs0, annotate_frame debug (long_frame (ex_sealed ex_long_head)) = Ok segs0) by (eexists; vm_compute; reflexivity).
  assert (S2 : exists segs, (s <- annotate_frame debug (long_frame (ex_plain ex_long_head)) ;; replace_encrypted debug s (long_frame (ex_plain ex_long_head))) = Ok segs /\
    map s_kind (group segs 0) = [KDif; KVif; KDataPayload]) by (eexists; split; vm_compute; reflexivity).
  destruct S1 as (segs0 & S1). destruct S2 as (segs & S2 & S3). exists segs0, segs.
  split; [apply ex_sealed_long|]. split; [apply (EncLong 0x72 0x78 0x56 0x34 0x12 0x24 0x40 1 7 0x55 0 0 5); [now left|discriminate]|].
  split; [exact W|]. split; [vm_compute; reflexivity|]. split; [exact S1|]. split; [|exact S3].
  apply bind_ok in S2 as (s & S2 & S4).
  pose proof (annotated_view ex_env ex_renderers ex_legacy (long_frame (ex_sealed ex_long_head)) (hex_string (long_frame (ex_sealed ex_long_head))) ex_key
    (long_frame (ex_plain ex_long_head)) segs0 S1) as V.
  specialize (V ltac:(vm_compute; reflexivity) ltac:(vm_compute; reflexivity) s S2). change (env_config ex_env) with debug in V. rewrite S4 in V. apply V.
Qed.
