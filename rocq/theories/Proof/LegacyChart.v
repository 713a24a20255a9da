(** The boxes of the older chart. *)
From Coq Require Import List NArith ZArith Lia Bool String.
Import ListNotations.
From Verif Require Import Model.Base Model.Text Model.Core Model.F64 Model.DataInfo Model.ValueInfo Model.Record Model.Wired Model.Wireless Model.UserData Model.Hex Model.MbusData Model.Show Model.Escape Model.Output Model.Legacy
  Spec.CoreSpec Spec.TextSpec Spec.CrcSpec Spec.WiredSpec Spec.WirelessSpec Spec.AppSpec Spec.AnnotateSpec Spec.MbusSpec Spec.OutputSpec Spec.LegacySpec Spec.LegacyJsonSpec Spec.ChartSpec
  Proof.BaseFacts Proof.ShowFacts Proof.WiredFacts Proof.WirelessFacts Proof.AppFacts Proof.MbusFacts Proof.OutputFacts Proof.HexFacts Proof.LegacyRecords Proof.LegacyValues Proof.AnnotateProps Proof.OutputProps Proof.LegacyProps.
Open Scope N_scope.
Open Scope list_scope.

Lemma boxed_inside t name label : inside (chart_node name label) t -> boxed t name label.
Proof.
  intros (b & r & ->). exists b, r. unfold chart_node, chart_line. change (repeat 32 (4 * 2)) with (txt "        ").
  change (txt "[""") with (txt "[" ++ [34]). change (txt """]") with ([34] ++ txt "]"). now rewrite <- !app_assoc.
Qed.
Lemma inside_trans a b c : inside a b -> inside b c -> inside a c.
Proof. intros (x & y & ->) (z & w & ->). exists (z ++ x), (y ++ w). now rewrite <- !app_assoc. Qed.
Lemma device_name d name : In (d, name) device_names -> txt name = debug_device_type d /\ legacy_mermaid_escape (debug_device_type d) = debug_device_type d.
Proof.
  intros H. unfold device_names in H. cbn [In] in H.
  repeat (destruct H as [H|H]; [injection H as <- <-; split; vm_compute; reflexivity|]). destruct H.
Qed.
Lemma no_user_data cf data m : mbus_wired_try_from cf data = Ok m -> (forall f a p, md_frame m <> LongFrame f a p) -> md_user_data m = None.
Proof.
  unfold mbus_wired_try_from. intros H N. apply bind_ok in H as (fr & _ & H).
  destruct fr as [c|f ad|f ad p|f ad p]; try (apply Ok_inj in H; subst m; reflexivity).
  all: unfold with_application in H; cbn [wired_payload] in H;
    try (destruct (user_data_try_from p); try discriminate H); apply Ok_inj in H; subst m; cbn in *; try reflexivity; destruct (N f ad p eq_refl).
Qed.
Ltac box := apply boxed_inside; find_inside.

Lemma device_boxes env h device styles : chart_device env h = (device, styles) ->
  let mfr := match lh_manufacturer h with
             | Ok m => show_manufacturer m
             | Err e => txt "Error: " ++ env_application_message env e
             | Panic _ => []
             end in
  inside (chart_node (txt "DEV1") (txt "ID: " ++ legacy_mermaid_escape (show_identification (lh_identification_number h)))) device /\
  inside (chart_node (txt "DEV2") (txt "Manufacturer: " ++ legacy_mermaid_escape mfr)) device /\
  inside (chart_node (txt "DEV3") (txt "Version: " ++ dec (lh_version h))) device /\
  inside (chart_node (txt "DEV4") (txt "Device Type: " ++ legacy_mermaid_escape (debug_device_type (lh_device_type h)))) device /\
  inside (chart_node (txt "DEV5") (txt "Access Number: " ++ dec (sh_access_number (lh_short_tpl_header h)))) device /\
  inside (chart_node (txt "DEV6") (txt "Status: " ++ legacy_mermaid_escape (show_status (sh_status (lh_short_tpl_header h))))) device /\
  forall name website description, env_registry env mfr = Some (name, website, description) ->
    inside (chart_node (txt "DEV7") (txt "Name: " ++ legacy_mermaid_escape name)) device /\
    inside (chart_node (txt "DEV8") (txt "Website: " ++ legacy_mermaid_escape website)) device /\
    inside (chart_node (txt "DEV9") (legacy_mermaid_escape description)) device.
Proof.
  unfold chart_device. cbv zeta. set (mfr := match lh_manufacturer h with Ok _ => _ | _ => _ end). 
  destruct (env_registry env mfr) as [[[n w] d]|]; cbn [app List.length seq map combine concat];
    change (txt "DEV" ++ dec (N.of_nat 1)) with (txt "DEV1"); change (txt "DEV" ++ dec (N.of_nat 2)) with (txt "DEV2");
    change (txt "DEV" ++ dec (N.of_nat 3)) with (txt "DEV3"); change (txt "DEV" ++ dec (N.of_nat 4)) with (txt "DEV4");
    change (txt "DEV" ++ dec (N.of_nat 5)) with (txt "DEV5"); change (txt "DEV" ++ dec (N.of_nat 6)) with (txt "DEV6");
    change (txt "DEV" ++ dec (N.of_nat 7)) with (txt "DEV7"); change (txt "DEV" ++ dec (N.of_nat 8)) with (txt "DEV8");
    change (txt "DEV" ++ dec (N.of_nat 9)) with (txt "DEV9");
    destruct (mermaid_centered_chains _ 4 (txt "DP")) as [chains pads]; intros E; apply (f_equal fst) in E; cbn [fst] in E; subst device.
  all: do 6 (split; [find_inside|]); intros name website description K; try discriminate K.
  injection K as <- <- <-. repeat split; find_inside.
Qed.
Lemma wired_boxes env display input data fr key o t : clean_and_convert input = data -> bytes_ok data -> wired_meaning data fr ->
  parse_frame_bytes env display data key = Ok (Some o) -> parse_to_mermaid env display input = Ok t ->
  shows_frame t (po_summary o) /\ shows_meter t (po_summary o).
Proof.
  intros Hc B W Hs Ht. destruct (wired_data_total (env_config env) data fr B W) as (m & Em & Ef).
  unfold parse_to_mermaid in Ht. rewrite Hc, Em in Ht.
  unfold parse_frame_bytes in Hs. rewrite Em in Hs. apply bind_ok in Hs as ([r dd] & _ & Hs).
  apply bind_ok in Hs as (s' & Hs & H). apply bind_ok in H as (o' & Ho & H). apply Ok_inj in H. injection H as ->. apply parsed_summary in Ho. rewrite Ho. clear Ho.
  unfold summarize_wired in Hs. apply finalize_header in Hs. destruct Hs as (_ & F2 & F3 & F4 & F5 & F6 & F7 & _ & F9 & F10).
  unfold shows_frame, shows_meter. rewrite F2, F3, F4, F5, F6, F7, F9, F10. clear F2 F3 F4 F5 F6 F7 F9 F10.
  edestruct (apply_header env) as (_ & G2 & G3). rewrite G2, G3. clear G2 G3.
  assert (NU : (forall f a p, md_frame m <> LongFrame f a p) -> md_user_data m = None) by (intros N; exact (no_user_data _ _ _ Em N)).
  unfold wired_chart in Ht. destruct (md_frame m) as [c|f ad|f ad p|f ad p] eqn:Em'.
  4: idtac.
  all: try (rewrite NU by (intros; discriminate); apply Ok_inj in Ht; subst t; split; [split; intros x Hx; cbn in Hx; try discriminate Hx; injection Hx as <-; box|intros v Hv; discriminate Hv]).
  all: destruct (mermaid_centered_chains [txt "FTYPE"; txt "FUNC"; txt "ADDR"] 4 (txt "FP")) as [chains pads].
  all: destruct (match md_user_data m with Some (VariableLong _ h _) => chart_device env h | _ => ([], []) end) as [device dstyles] eqn:Ed.
  all: apply bind_ok in Ht as ([records rstyles] & _ & Ht); apply Ok_inj in Ht; subst t.
  all: split; [split; intros x Hx; cbn in Hx; injection Hx as <-; box|].
  all: destruct (md_user_data m) as [[]|]; try (intros v Hv; discriminate Hv).
  all: intros v Hv; cbn in Hv; injection Hv as <-.
  destruct (device_boxes env h device dstyles Ed) as (D1 & D2 & D3 & D4 & D5 & D6 & D7).
  do 5 eexists. do 5 (split; [reflexivity|]).
  assert (I : forall n l, inside (chart_node n l) device -> boxed (txt "flowchart TD" ++
       [10] ++ chart_subgraph (txt "FRAME_SG") (txt "Frame Header") ++ chart_node (txt "FTYPE") (txt "Long Frame") ++
       chart_node (txt "FUNC") (txt "Function: " ++ legacy_mermaid_escape (show_function f)) ++
       chart_node (txt "ADDR") (txt "Address: " ++ legacy_mermaid_escape (show_address ad)) ++
       chains ++ chart_line 1 (txt "end") ++ device ++ records ++ pads ++ chart_style (txt "FRAME_SG") frame_group_style ++
       chart_style (txt "FTYPE") frame_style ++ chart_style (txt "FUNC") frame_style ++
       chart_style (txt "ADDR") frame_style ++ dstyles ++ rstyles) n l).
  { intros n l K. apply boxed_inside. apply (inside_trans _ device _ K). find_inside. }
  split; [exact (I _ _ D1)|]. split; [exact (I _ _ D2)|]. split; [exact (I _ _ D3)|].
  split; [intros name N; destruct (device_name _ _ N) as [-> E]; rewrite E in D4; exact (I _ _ D4)|].
  split; [exact (I _ _ D5)|]. split; [exact (I _ _ D6)|].
  intros name website description K. destruct (D7 _ _ _ K) as (D8 & D9 & D10). auto.
Qed.

Lemma control_word w fr : wireless_meaning w fr ->
  let label := txt "Function: " ++ match wf_function fr with Some f => txt "Some(" ++ debug_function f ++ txt ")" | None => txt "None" end in
  (forall word, In (wf_control_field fr, word) function_words -> label = txt "Function: Some(" ++ txt word ++ txt ")") /\
  (~ In (wf_control_field fr) (map fst function_words) -> label = txt "Function: None").
Proof.
  intros (l & c & m0 & m1 & i0 & i1 & i2 & i3 & v & d & ci & rest & _ & _ & -> & F & _) label. subst label. split.
  - intros word N. unfold function_words in N. cbn [In] in N.
    repeat (destruct N as [N|N]; [injection N as <- <-; rewrite (proj2 (F _) ltac:(unfold function_codes; cbn [In]; tauto)); reflexivity|]).
    destruct N.
  - intros N. destruct (wf_function fr) as [f|]; [|reflexivity]. pose proof (proj1 (F f) eq_refl) as K. apply (in_map fst) in K. cbn in K, N. tauto.
Qed.

Lemma wireless_boxes env display input data w fr t : clean_and_convert input = data -> bytes_ok data -> not_wired data -> received data w ->
  wireless_meaning w fr -> parse_to_mermaid env display input = Ok t ->
  shows_control t (wf_control_field fr) /\ shows_sender t (env_registry env) (wf_manufacturer_id fr).
Proof.
  intros Hc B W R Wm Ht. destruct (control_word _ _ Wm) as [Cw Cn]. pose proof (received_bytes _ _ B R) as Bw.
  pose proof (wireless_payload_ok _ _ Bw Wm) as Bp.
  pose proof (wireless_len _ _ Wm) as L. pose proof (received_len _ _ R) as L'.
  destruct (not_wired_error (env_config env) data W) as [e' Ee]; [lia|].
  destruct (received_frame data w fr B Bw R Wm) as (r & out & Es & En).
  destruct (with_application_total (E := mbus_error) fr (wf_data fr) Bp) as (m & Em).
  assert (Ef : md_frame m = fr) by (unfold with_application in Em; destruct (user_data_try_from (wf_data fr)); try discriminate Em; apply Ok_inj in Em; subst m; reflexivity).
  unfold parse_to_mermaid in Ht. rewrite Hc in Ht. unfold mbus_wired_try_from in Ht. rewrite Ee in Ht. cbn [map_err bind] in Ht. rewrite Es in Ht. cbn [bind] in Ht. rewrite En in Ht.
  unfold mbus_wireless_try_from in Ht. rewrite (proj2 (wireless_ok_iff _ _ Bw) Wm) in Ht. cbn [map_err bind] in Ht. rewrite Em in Ht.
  unfold wireless_chart in Ht. cbv zeta in Ht. rewrite Ef in Ht. apply bind_ok in Ht as ([records rstyles] & _ & Ht). apply Ok_inj in Ht. subst t.
  split.
  { split; [intros word N; rewrite (Cw _ N)|intros N; rewrite (Cn N)]; box. }
  unfold shows_sender.
  split; [box|]. split; [box|].
  split; [intros name N; destruct (device_name _ _ N) as [-> _]; box|].
  split; [box|]. intros name website description K. rewrite K. repeat split; box.
Qed.

Lemma boxes_example : exists fr o t,
  clean_and_convert (hex_string ex_wired_clear) = ex_wired_clear /\ bytes_ok ex_wired_clear /\ wired_meaning ex_wired_clear fr /\
  parse_frame_bytes ex_env ex_display ex_wired_clear None = Ok (Some o) /\ parse_to_mermaid ex_env ex_display (hex_string ex_wired_clear) = Ok t /\
  fs_function (po_summary o) <> None /\ fs_version (po_summary o) = Some 1.
Proof.
  destruct meter_example as (u & d & o & x & B & M & _ & _ & P & _). inversion M as [data' f a payload' W E1 E2 E3|]; subst.
  exists (LongFrame f a ex_clear_message), o. eexists. split; [vm_compute; reflexivity|]. split; [exact B|]. split; [exact W|]. split; [exact P|].
  split; [vm_compute; reflexivity|]. vm_compute in P. injection P as <-. split; [discriminate|reflexivity].
Qed.
Lemma sender_example : exists fr t,
  clean_and_convert (hex_string ex_air_encoded) = ex_air_encoded /\ bytes_ok ex_air_encoded /\ not_wired ex_air_encoded /\ received ex_air_encoded ex_air /\
  wireless_meaning ex_air fr /\ parse_to_mermaid ex_env ex_display (hex_string ex_air_encoded) = Ok t /\ mi_version (wf_manufacturer_id fr) = 1.
Proof.
  destruct older_air_example as (fr & _ & _ & _ & _ & B & N & R & W & _). exists fr. eexists.
  split; [vm_compute; reflexivity|]. split; [exact B|]. split; [exact N|]. split; [exact R|]. split; [exact W|]. split; [vm_compute; reflexivity|].
  assert (Bw : bytes_ok ex_air) by exact (received_bytes _ _ B R). apply (wireless_ok_iff _ _ Bw) in W. vm_compute in W. injection W as <-. reflexivity.
Qed.
