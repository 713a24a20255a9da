(** The older outputs compared with the newer ones. *)
From Coq Require Import List NArith ZArith Lia Bool String.
Import ListNotations.
From Verif Require Import Model.Base Model.Text Model.Core Model.Wired Model.Wireless Model.F64 Model.DataInfo Model.ValueInfo Model.Record Model.Decrypt
  Model.UserData Model.Hex Model.MbusData Model.Show Model.Output Model.Render Model.Legacy
  Spec.CoreSpec Spec.TextSpec Spec.CrcSpec Spec.WiredSpec Spec.WirelessSpec Spec.DecryptSpec Spec.RecordSpec Spec.AppSpec
  Spec.AnnotateSpec Spec.MbusSpec Spec.OutputSpec Spec.DetailSpec Spec.LegacySpec
  Proof.BaseFacts Proof.WiredFacts Proof.CoreFacts Proof.WirelessFacts Proof.FormatAFacts Proof.FormatAProps Proof.AnnotateApp Proof.AppFacts Proof.HexFacts Proof.MbusFacts Proof.TextFacts Proof.ShowFacts
  Proof.RecordFacts Proof.IterFacts
  Proof.OutputFacts Proof.OutputRecords Proof.OutputFrames Proof.OutputMore Proof.DetailFacts.
Open Scope N_scope.
Open Scope list_scope.

(** ** The summary of a message *)
Definition block_of (u : option user_data_block) : option data_records :=
  match u with Some u => option_map (fun b => records_new b None) (variable_block u) | None => None end.
Lemma with_application_block {E F} (fr : F) payload u e : bytes_ok payload -> app_result payload u e ->
  exists m, with_application (E := E) fr payload = Ok m /\ md_frame m = fr /\ md_user_data m = u /\ md_data_records m = block_of u.
Proof.
  intros B [(x & A & -> & ->)|(x & A & -> & ->)].
  - apply dispatch_exact in A; [|exact B]. unfold with_application. rewrite A.
    eexists. split; [reflexivity|]. do 2 (split; [reflexivity|]). cbn. apply block_records_variable.
  - unfold with_application. rewrite A. eexists. split; [reflexivity|]. do 2 (split; [reflexivity|]). reflexivity.
Qed.

(** what the summary says before the message is looked at *)
Inductive begins (env : environment) (data payload : list N) : option manufacturer_id -> Legacy.frame_summary -> Prop :=
| BeginsWired f a : wired_meaning data (LongFrame f a payload) ->
    begins env data payload None (new_summary (txt "LongFrame") (Some (show_function f)) (Some (show_address a)) None None None None)
| BeginsWireless fr id : wf_manufacturer_id fr = id ->
    begins env data payload (Some id)
      (new_summary (txt "Wireless") (match wf_function fr with Some f => Some (show_function f) | None => None end) None
        (Some (show_identification (mi_identification_number id)))
        (Some (summarize_manufacturer env (show_manufacturer (mi_manufacturer_code id))))
        (Some (mi_version id)) (Some (show_device_type (mi_device_type id)))).

Lemma legacy_message env display data payload id u e :
  bytes_ok data -> message data payload id -> app_result payload u e ->
  exists s0 fr, begins env data payload id s0 /\ forall key,
    parse_frame_bytes env display data key =
      ('(records, decrypted) <- decrypt_records env u (block_of u) id key ;;
       s <- finalize_summary env display (apply_user_data_summary env s0 u) records u (legacy_is_encrypted u) decrypted ;;
       o <- build_parsed (env_config env) fr u s records ;;
       Ok (Some o)).
Proof.
  intros B M A. destruct M as [data f a payload W|data w fr W R Wm].
  - pose proof (wired_payload_ok _ _ _ _ B W) as Bp.
    destruct (with_application_block (E := mbus_error) (LongFrame f a payload) payload u e Bp A) as (m & E & Ef & Eu & Er).
    assert (Ew : mbus_wired_try_from (env_config env) data = Ok m).
    { unfold mbus_wired_try_from. rewrite (proj2 (wired_ok_iff (env_config env) _ _) W). cbn [map_err bind]. exact E. }
    do 2 eexists. split; [exact (BeginsWired env data payload f a W)|]. intros key. unfold parse_frame_bytes.
    rewrite Ew, Eu, Er. destruct (decrypt_records env u (block_of u) None key) as [[r d]| |]; cbn [bind]; [|reflexivity|reflexivity].
    unfold summarize_wired. rewrite Ef, Eu. reflexivity.
  - pose proof (received_bytes _ _ B R) as Bw.
    pose proof (wireless_payload_ok _ _ Bw Wm) as Bp.
    destruct (with_application_block (E := mbus_error) fr (wf_data fr) u e Bp A) as (m & E & Ef & Eu & Er).
    pose proof (wireless_len _ _ Wm) as L. pose proof (received_len _ _ R) as L'.
    destruct (not_wired_error (env_config env) data W) as [e' Ew]; [lia|].
    destruct (received_frame data w fr B Bw R Wm) as (r & out & Es & En).
    do 2 eexists. split; [exact (BeginsWireless env data (wf_data fr) fr _ eq_refl)|]. intros key. unfold parse_frame_bytes.
    unfold mbus_wired_try_from. rewrite Ew. cbn [map_err bind]. rewrite Es. cbn [bind]. rewrite En.
    unfold mbus_wireless_try_from. rewrite (proj2 (wireless_ok_iff _ _ Bw) Wm). cbn [map_err bind]. rewrite E, Eu, Er, Ef.
    destruct (decrypt_records env u (block_of u) (Some (wf_manufacturer_id fr)) key) as [[r' d]| |]; cbn [bind]; [|reflexivity|reflexivity].
    unfold summarize_wireless. rewrite Ef, Eu. reflexivity.
Qed.

Lemma begins_blank env data payload id s0 : begins env data payload id s0 -> fs_records s0 = [] /\ fs_encrypted_payload_hex s0 = None.
Proof. intros []; split; reflexivity. Qed.
Lemma apply_keeps env s u : fs_records (apply_user_data_summary env s u) = fs_records s /\
  fs_encrypted_payload_hex (apply_user_data_summary env s u) = fs_encrypted_payload_hex s.
Proof. destruct u as [[]|]; split; reflexivity. Qed.

(** ** Records *)
Lemma same_shown display i r : same_record (record_output i r) (summarize_record display r).
Proof.
  unfold same_record, summarize_record, record_output. cbv zeta. cbn [rs_header_hex rs_data_hex rs_data_information ro_header_hex ro_data_hex ro_storage_number ro_function].
  split; [reflexivity|]. split; [reflexivity|].
  destruct (ph_data_information (drh_processed (dr_header r))) as [x|]; [right|left; reflexivity].
  unfold show_data_information. do 2 eexists. split; [reflexivity|].
  destruct (di_data_field_coding x) eqn:E; try (left; destruct (di_function_field x); cbn; tauto).
  right. eexists. cbn [show_coding]. reflexivity.
Qed.
Lemma flatten_end rs x :
  flatten_items (map Ok rs ++ end_items x) = match x with EPanic p => Panic p | _ => Ok rs end.
Proof.
  induction rs as [|r rs IH]; [destruct x; reflexivity|]. cbn [map app flatten_items]. rewrite IH. destruct x; reflexivity.
Qed.
Lemma same_outs display rs : forall i, Forall2 same_record (outs_of i rs) (map (summarize_record display) rs).
Proof. induction rs as [|r rs IH]; intros i; [constructor|]. cbn [outs_of map]. constructor; [apply same_shown|apply IH]. Qed.

Lemma summaries_of cf display data hdr rs x : records_all cf data hdr = Some (map Ok rs ++ end_items x) ->
  record_summaries cf display (records_new data hdr) =
  match x with EPanic p => Panic p | _ => Ok (map (summarize_record display) rs) end.
Proof.
  intros H. unfold record_summaries, flatten_records. unfold records_all in H. cbn [rs_data records_new]. rewrite H, flatten_end.
  destruct x; reflexivity.
Qed.
Lemma collect_end rs x :
  collect_result (map Ok rs ++ end_items x) = match x with EDone => Ok rs | EErr e => Err e | EPanic p => Panic p end.
Proof.
  induction rs as [|r rs IH]; [destruct x; reflexivity|]. cbn [map app collect_result]. rewrite IH. destruct x; reflexivity.
Qed.
Lemma parsed_of cf fr u s data hdr rs x : records_all cf data hdr = Some (map Ok rs ++ end_items x) ->
  build_parsed cf fr u s (Some (records_new data hdr)) =
  match x with
  | EDone => Ok {| po_summary := s; po_records := Some rs; po_frame := fr; po_user_data := u |}
  | EErr _ => Ok {| po_summary := s; po_records := Some []; po_frame := fr; po_user_data := u |}
  | EPanic p => Panic p
  end.
Proof.
  intros H. unfold build_parsed, records_to_vec. cbn [rs_data rs_header records_new]. rewrite H, collect_end.
  destruct x; reflexivity.
Qed.
Lemma parsed_cases cf fr u s records : of_block records ->
  (exists o, build_parsed cf fr u s records = Ok o /\ po_summary o = s) \/ (exists p, build_parsed cf fr u s records = Panic p).
Proof.
  intros [->|(block & hdr & ->)]; [left; eexists; split; reflexivity|].
  destruct (records_all_decodes cf block hdr) as (l & E & D). destruct (decodes_shape _ _ _ _ D) as (rs & x & ->).
  rewrite (parsed_of cf fr u s block hdr rs x E). destruct x; eauto.
Qed.
Lemma parsed_summary cf fr u s records o : build_parsed cf fr u s records = Ok o -> po_summary o = s.
Proof.
  unfold build_parsed. destruct records as [r|]; intros H; [|apply Ok_inj in H; now subst o].
  destruct (records_to_vec cf (rs_data r) (rs_header r)) as [[l|e|p]|]; try discriminate H. apply Ok_inj in H. now subst o.
Qed.
Lemma summaries_answer cf display data hdr : record_summaries cf display (records_new data hdr) <> Err tt.
Proof.
  destruct (records_all_decodes cf data hdr) as (l & E & D). destruct (decodes_shape _ _ _ _ D) as (rs & x & ->).
  rewrite (summaries_of cf display data hdr rs x E). destruct x; discriminate.
Qed.

(** ** Encryption *)
Lemma legacy_encrypted p block u : encrypted_message p block -> bytes_ok p -> app_meaning p u ->
  legacy_is_encrypted (Some u) = true /\ variable_data_block (Some u) = Some block.
Proof.
  intros H B A. destruct (encrypted_fields p block H B u A) as [_ [(ell & h & -> & M)|(ell & h & -> & M)]]; cbn; split; try reflexivity.
  - rewrite no_encryption_short in M. unfold long_is_encrypted. now destruct (short_is_encrypted (lh_short_tpl_header h)).
  - rewrite no_encryption_short in M. now destruct (short_is_encrypted h).
Qed.
Lemma legacy_clear p block u : in_clear p block -> bytes_ok p -> app_meaning p u ->
  legacy_is_encrypted (Some u) = false /\ variable_block u = Some block.
Proof.
  intros H B A. destruct (clear_fields p block H B u A) as (V & mode & S & K). split; [|exact V].
  destruct u as [| |ell h b|ell h b|ell b]; cbn in V; try discriminate V; cbn [security_fields legacy_is_encrypted] in *.
  - unfold long_is_encrypted. rewrite no_encryption_short in S. destruct (short_is_encrypted (lh_short_tpl_header h)); [discriminate S|reflexivity].
  - rewrite no_encryption_short in S. rewrite K in S. cbn [andb] in S. destruct (short_is_encrypted h); [discriminate S|reflexivity].
  - reflexivity.
Qed.
Lemma hex_same data : legacy_hex_string data = hex_string data.
Proof. unfold legacy_hex_string, hex_string. rewrite flat_map_concat_map. reflexivity. Qed.

Lemma decrypt_clear env u records id key : legacy_is_encrypted u = false -> decrypt_records env u records id key = Ok (records, false).
Proof. intros H. unfold decrypt_records. rewrite H. reflexivity. Qed.
Lemma decrypt_keyless env u records id : decrypt_records env u records id None = Ok (records, false).
Proof. unfold decrypt_records. destruct (negb _); reflexivity. Qed.
Lemma decrypt_keeps env u records id key r : decrypt_records env u records id key = Ok (r, true) -> key <> None.
Proof. intros H ->. rewrite decrypt_keyless in H. discriminate. Qed.

Lemma legacy_secret env display data payload id block u key :
  bytes_ok data -> message data payload id -> encrypted_message payload block -> app_meaning payload u ->
  (forall o, parse_frame_bytes env display data key = Ok (Some o) ->
     fs_encrypted (po_summary o) = true /\ (fs_decrypted (po_summary o) = true -> key <> None) /\
     (fs_decrypted (po_summary o) = false ->
        fs_records (po_summary o) = [] /\ fs_encrypted_payload_hex (po_summary o) = Some (hex_string block))) /\
  (key = None ->
     (exists o, parse_frame_bytes env display data key = Ok (Some o) /\ fs_decrypted (po_summary o) = false) \/
     (exists rs p, parse_frame_bytes env display data key = Panic p /\
        records_all (env_config env) block None = Some (map Ok rs ++ [Panic p]))).
Proof.
  intros B M En A. pose proof (message_bytes _ _ _ B M) as Bp.
  destruct (legacy_message env display data payload id (Some u) None B M) as (s0 & fr0 & H0 & E); [left; eauto|]. rewrite E.
  destruct (legacy_encrypted _ _ _ En Bp A) as [Le Lb].
  destruct (begins_blank _ _ _ _ _ H0) as [R0 P0]. destruct (apply_keeps env s0 (Some u)) as [R1 P1]. rewrite R0 in R1. rewrite P0 in P1.
  set (s1 := apply_user_data_summary env s0 (Some u)) in *. clearbody s1.
  split.
  - intros o H. apply bind_ok in H as ([r d] & Hd & H). apply bind_ok in H as (s & Hs & H). apply bind_ok in H as (o' & Ho & H).
    apply Ok_inj in H. injection H as ->. rewrite (parsed_summary _ _ _ _ _ _ Ho).
    unfold finalize_summary in Hs. rewrite Le, Lb in Hs. cbn [andb] in Hs. destruct d; cbn [negb] in Hs.
    + assert (K := decrypt_keeps _ _ _ _ _ _ Hd). destruct r as [r|].
      * apply bind_ok in Hs as (rs & _ & Hs). apply Ok_inj in Hs. subst s. cbn. split; [reflexivity|]. split; [auto|discriminate].
      * apply Ok_inj in Hs. subst s. cbn. split; [reflexivity|]. split; [auto|discriminate].
    + apply Ok_inj in Hs. subst s. cbn. split; [reflexivity|]. split; [discriminate|]. rewrite hex_same. auto.
  - intros ->. rewrite decrypt_keyless. cbn [bind]. unfold finalize_summary. rewrite Le. cbn [andb negb bind].
    assert (Vb : variable_block u = Some block) by (destruct u; cbn in Lb |- *; congruence).
    cbn [block_of]. rewrite Vb. cbn [option_map].
    destruct (records_all_decodes (env_config env) block None) as (l & El & D). destruct (decodes_shape _ _ _ _ D) as (rs & x & ->).
    rewrite (parsed_of _ _ _ _ _ _ rs x El). destruct x; cbn [bind].
    + left. eexists. split; reflexivity.
    + left. eexists. split; reflexivity.
    + right. exists rs, p. split; [reflexivity|exact El].
Qed.

Lemma legacy_clear_records env display data payload id block u key enrich :
  bytes_ok data -> message data payload id -> in_clear payload block -> app_meaning payload u ->
  same_listing (decode_bytes env data key enrich) (parse_frame_bytes env display data key) /\
  (forall o, parse_frame_bytes env display data key = Ok (Some o) ->
     fs_encrypted (po_summary o) = false /\ fs_decrypted (po_summary o) = false /\ fs_encrypted_payload_hex (po_summary o) = None).
Proof.
  intros B M C A. pose proof (message_bytes _ _ _ B M) as Bp.
  destruct (clear_records env data payload id block u key enrich B M C A) as [Sh _].
  destruct (legacy_message env display data payload id (Some u) None B M) as (s0 & fr0 & H0 & E); [left; eauto|]. rewrite E.
  destruct (legacy_clear _ _ _ C Bp A) as [Le Lb]. rewrite (decrypt_clear _ _ _ _ _ Le). cbn [bind].
  destruct (begins_blank _ _ _ _ _ H0) as [R0 P0]. destruct (apply_keeps env s0 (Some u)) as [R1 P1]. rewrite R0 in R1. rewrite P0 in P1.
  set (s1 := apply_user_data_summary env s0 (Some u)) in *. clearbody s1.
  unfold finalize_summary. rewrite Le. cbn [andb block_of]. rewrite Lb. cbn [option_map].
  split.
  - destruct Sh as [rs d Hr Hl St _|rs e d pos skips Hr Hl St _ _|rs p Hr].
    + rewrite <- (app_nil_r (map Ok rs)) in Hr. rewrite (summaries_of _ display _ _ rs EDone Hr). cbn [bind].
      rewrite (parsed_of _ _ _ _ _ _ rs EDone Hr). cbn [bind same_listing fs_records po_summary po_records].
      split; [rewrite (proj1 (listed_outs _ _ _) Hl); apply same_outs|]. exists rs. split; [reflexivity|]. split; [auto|]. intros N. destruct (N St).
    + rewrite (summaries_of _ display _ _ rs (EErr e) Hr). cbn [bind].
      rewrite (parsed_of _ _ _ _ _ _ rs (EErr e) Hr). cbn [bind same_listing fs_records po_summary po_records].
      split; [rewrite (proj1 (listed_outs _ _ _) Hl); apply same_outs|]. exists []. split; [reflexivity|]. split; [|auto].
      intros N. rewrite St in N. discriminate N.
    + rewrite (summaries_of _ display _ _ rs (EPanic p) Hr). reflexivity.
  - intros o H. apply bind_ok in H as (s' & Hs & H). apply bind_ok in H as (o' & Ho & H). apply Ok_inj in H. injection H as ->.
    rewrite (parsed_summary _ _ _ _ _ _ Ho).
    apply bind_ok in Hs as (rs & _ & Hs). apply Ok_inj in Hs. subst s'. cbn. auto.
Qed.

(** the messages of frames fit the buffer of 256 bytes *)
Lemma message_fits data payload id : bytes_ok data -> message data payload id -> len payload <= 256.
Proof.
  intros B M. destruct M as [data f a payload W|data w fr W R Wm].
  - inversion W; subst. assert (len payload + 2 < 256) by (unfold long_layout in B; bytes_split B; assumption). lia.
  - pose proof (received_bytes _ _ B R) as Bw. destruct (wireless_meaning_length _ _ Bw Wm) as [_ H].
    destruct Wm as (l & c & m0 & m1 & i0 & i1 & i2 & i3 & v & d & ci & rest & E & _ & _ & _ & _ & P).
    rewrite E in H. rewrite len_app in H.
    destruct P as [(hi & lo & Ep & _)|[-> _]]; [rewrite Ep in H; rewrite len_app in H|]; lia.
Qed.

Lemma legacy_sealed_records env display enc data link plain cipher key enrich :
  bytes_ok data -> bytes_ok plain -> addressed data link cipher -> sealed (enc key) link plain cipher ->
  inverse_cipher enc (env_aes env) key -> length key = 16%nat ->
  same_listing (decode_bytes env data (Some key) enrich) (parse_frame_bytes env display data (Some key)) /\
  (forall o, parse_frame_bytes env display data (Some key) = Ok (Some o) ->
     fs_encrypted (po_summary o) = true /\ fs_decrypted (po_summary o) = true).
Proof.
  intros B Bpl Ad S Hinv Hk. destruct (sealed_records env enc data link plain cipher key enrich B Bpl Ad S Hinv Hk) as (head & block & clear & Ec & Ep & Lb & En & Sh & _).
  destruct (addressed_message _ _ _ B Ad) as (Bl & id & M & Hid).
  pose proof (message_bytes _ _ _ B M) as Bc. pose proof (message_fits _ _ _ B M) as Lc.
  destruct (sealed_meaning _ _ _ _ S Bc) as [u A]. pose proof (proj2 (dispatch_exact _ _ Bc) A) as T.
  destruct (with_key_sealed_in enc (env_aes env) link plain cipher u id key (repeat 0 256) S)
    as (head' & block' & clear' & out & Ec' & Ep' & Lb' & Nb & Vb & Ku & Ed); try assumption.
  { intros m0 m1 i0 i1 i2 i3 v d id' El Hi. eapply Hid; [exact El|exact Hi|]. destruct S; cbn [app]; eauto. }
  destruct (legacy_encrypted _ _ _ En Bc A) as [Le Lv].
  assert (Eb : block' = block /\ clear' = clear).
  { assert (block' = block) by (destruct u; cbn in Vb, Lv; congruence). subst block'. split; [reflexivity|].
    rewrite Ec in Ec'. apply app_inv_tail in Ec'. subst head'. rewrite Ep in Ep'. apply app_inv_head in Ep'. congruence. }
  destruct Eb as [-> ->]. clear Ec' Ep' Lb'.
  destruct (legacy_message env display data cipher id (Some u) None B M) as (s0 & fr0 & H0 & E); [left; eauto|]. rewrite E.
  set (s1 := apply_user_data_summary env s0 (Some u)). clearbody s1.
  assert (R : exists hdr, decrypt_records env (Some u) (block_of (Some u)) id (Some key) = Ok (Some (records_new clear hdr), true) /\
     records_all (env_config env) clear hdr = records_all (env_config env) clear None).
  { unfold decrypt_records. rewrite Le. cbn [negb]. rewrite Ed. cbn [bind]. rewrite <- Lb, get_to_app.
    destruct Ku as [(h & -> & K & _)|(h & -> & K)].
    - eexists. split; [reflexivity|]. now apply records_without_header.
    - destruct id as [id|]; [eexists; split; reflexivity|]. exfalso. cbn in Ed. rewrite K in Ed. discriminate Ed. }
  destruct R as (hdr & -> & R). cbn [bind]. unfold finalize_summary. rewrite Le. cbn [andb negb].
  split.
  - destruct Sh as [rs d Hr Hl St _|rs e d pos skips Hr Hl St _ _|rs p Hr]; rewrite <- R in Hr.
    + rewrite <- (app_nil_r (map Ok rs)) in Hr. rewrite (summaries_of _ display _ _ rs EDone Hr). cbn [bind].
      rewrite (parsed_of _ _ _ _ _ _ rs EDone Hr). cbn [bind same_listing fs_records po_summary po_records].
      split; [rewrite (proj1 (listed_outs _ _ _) Hl); apply same_outs|]. exists rs. split; [reflexivity|]. split; [auto|]. intros N. destruct (N St).
    + rewrite (summaries_of _ display _ _ rs (EErr e) Hr). cbn [bind].
      rewrite (parsed_of _ _ _ _ _ _ rs (EErr e) Hr). cbn [bind same_listing fs_records po_summary po_records].
      split; [rewrite (proj1 (listed_outs _ _ _) Hl); apply same_outs|]. exists []. split; [reflexivity|]. split; [|auto].
      intros N. rewrite St in N. discriminate N.
    + rewrite (summaries_of _ display _ _ rs (EPanic p) Hr). reflexivity.
  - intros o H. apply bind_ok in H as (s' & Hs & H). apply bind_ok in H as (o' & Ho & H). apply Ok_inj in H. injection H as ->.
    rewrite (parsed_summary _ _ _ _ _ _ Ho).
    apply bind_ok in Hs as (rs & _ & Hs). apply Ok_inj in Hs. subst s'. cbn. auto.
Qed.

(** ** Acceptance *)
Lemma decrypt_records_form env u records id key r d : decrypt_records env u records id key = Ok (r, d) ->
  r = records \/ exists data hdr, r = Some (records_new data hdr).
Proof.
  unfold decrypt_records. intros H. destruct (negb (legacy_is_encrypted u)); [injection H as <- _; auto|].
  destruct key as [key|]; [|injection H as <- _; auto]. destruct u as [u|]; [|injection H as <- _; auto].
  destruct (decrypt_variable_data_with_key (env_aes env) u id key (repeat 0 256)) as [res buffer].
  apply bind_ok in H as ([n|] & _ & H); [|injection H as <- _; auto].
  destruct (get_to buffer n); [|injection H as <- _; auto].
  destruct u; try (injection H as <- _; eauto; fail); destruct id; injection H as <- _; eauto.
Qed.

Lemma decrypt_with_key_answer aes u id key out o : decrypt_variable_data_with_key aes u id key out <> (Err tt, o).
Proof.
  assert (K : forall r : outcome decryption_error N * list N,
    match r with (Ok n, out) => (Ok (Some n), out) | (Err _, out) => (Ok None, out) | (Panic p, out) => (Panic p, out) end
      <> (@Err unit (option N) tt, o)).
  { intros [[x|e|p] o'] H; inversion H. }
  unfold decrypt_variable_data_with_key. destruct u as [?|? ? ? ? ? ?|ell h b|ell h b|ell b]; try discriminate.
  - destruct (negb _); [discriminate|]. destruct (lh_manufacturer h); try discriminate. destruct (one_key _ _ _); try discriminate. apply K.
  - destruct (negb _); [discriminate|]. destruct id; [|discriminate]. destruct (one_key _ _ _); try discriminate. apply K.
Qed.
Lemma decrypt_records_answer env u records id key : decrypt_records env u records id key <> Err tt.
Proof.
  unfold decrypt_records. destruct (negb _); [discriminate|]. destruct key as [key|]; [|discriminate]. destruct u as [u|]; [|discriminate].
  destruct (decrypt_variable_data_with_key (env_aes env) u id key (repeat 0 256)) as [[r|[]|p] o] eqn:E; cbn [bind].
  - destruct r as [n|]; [|discriminate]. destruct (get_to o n); [|discriminate]. destruct u, id; discriminate.
  - destruct (decrypt_with_key_answer _ _ _ _ _ _ E).
  - discriminate.
Qed.

(** a summary is made, or reading a record panics *)
Lemma finalize_cases env display s records u encrypted decrypted : of_block records ->
  (exists s', finalize_summary env display s records u encrypted decrypted = Ok s') \/
  (exists p, finalize_summary env display s records u encrypted decrypted = Panic p).
Proof.
  intros Ob. unfold finalize_summary. destruct (encrypted && negb decrypted); [left; eauto|].
  destruct Ob as [->|(block & hdr & ->)]; [left; eauto|].
  destruct (record_summaries (env_config env) display (records_new block hdr)) as [rs|[]|p] eqn:E; cbn [bind]; eauto.
  destruct (summaries_answer _ _ _ _ E).
Qed.
Definition no_security : security_context :=
  {| sc_encrypted := false; sc_mode := None; sc_ell_encrypted := false; sc_decrypted := false; sc_key_supplied := false; sc_decrypted_payload := None |}.
Lemma decrypted_ob env u records id key r d : of_block records -> decrypt_records env u records id key = Ok (r, d) -> of_block r.
Proof. intros Ob H. destruct (decrypt_records_form _ _ _ _ _ _ _ H) as [->|(x & hdr & ->)]; [exact Ob|]. right. eauto. Qed.

(** what follows the reading of a frame gives a summary, or panics *)
Lemma summary_cases env display fr u s0 records id key : of_block records ->
  let r := ('(rs, decrypted) <- decrypt_records env u records id key ;;
            s <- finalize_summary env display s0 rs u (legacy_is_encrypted u) decrypted ;;
            o <- build_parsed (env_config env) fr u s rs ;; Ok (Some o)) in
  (exists s, r = Ok (Some s)) \/ (exists p, r = Panic p).
Proof.
  intros Ob r. subst r. destruct (decrypt_records env u records id key) as [[rs d]|[]|p] eqn:E; cbn [bind]; eauto.
  - pose proof (decrypted_ob _ _ _ _ _ _ _ Ob E) as Ob'.
    destruct (finalize_cases env display s0 rs u (legacy_is_encrypted u) d Ob') as [(s & H)|(p & H)]; rewrite H; cbn [bind]; eauto.
    destruct (parsed_cases (env_config env) fr u s rs Ob') as [(o & K & _)|(p & K)]; rewrite K; cbn [bind]; eauto.
  - destruct (decrypt_records_answer _ _ _ _ _ E).
Qed.

(** the older outputs accept what the newer ones accept *)
Lemma legacy_accepts env display data key enrich : bytes_ok data ->
  parse_frame_bytes env display data key <> Err tt /\
  (parse_frame_bytes env display data key = Ok None <->
   data = [] \/ exists a b, decode_bytes env data key enrich = Err (OInvalidFrame a b)).
Proof.
  intros B. destruct data as [|b data].
  { split; [vm_compute; discriminate|]. split; [auto|]. intros _. destruct (env_config env) as [[] []]; vm_compute; reflexivity. }
  unfold parse_frame_bytes, decode_bytes.
  destruct (mbus_wired_try_from (env_config env) (b :: data)) as [m|we|q] eqn:Em.
  - pose proof (wired_of_block _ _ _ no_security Em) as Ob. unfold shown_records in Ob. cbn [no_security sc_decrypted_payload sc_encrypted] in Ob.
    match goal with |- ?x <> _ /\ _ => assert (K : (exists s, x = Ok (Some s)) \/ (exists p, x = Panic p)) end.
    { unfold summarize_wired. apply (summary_cases env display _ (md_user_data m) _ (md_data_records m) None key Ob). }
    split; [destruct K as [(s & ->)|(p & ->)]; discriminate|].
    split; [intros H; exfalso; destruct K as [(s & K)|(p & K)]; rewrite K in H; discriminate H|].
    intros [H|(x & y & H)]; [discriminate H|]. exfalso.
    destruct (prepare_cases (env_aes env) (md_user_data m) None key) as [(sc & E)|(code & E & _)]; rewrite E in H; cbn [bind] in H; [|discriminate H].
    unfold build_wired_output in H. pose proof (wired_of_block _ _ _ sc Em) as K'.
    destruct (md_frame m);
      (edestruct build_output_cases as [(d & K2)|(bl & hd & it & p & K2 & _)]; [exact K'|rewrite K2 in H; discriminate H..]).
  - assert (Es : exists s out, strip_format_a_crcs (b :: data) (repeat 0 512) = Ok (s, out)).
    { destruct (strip_cases (b :: data) (repeat 0 512) B) as [(E & _)|(? & ? & ? & ? & ? & _ & _ & _ & _ & _ & E)]; eauto. }
    destruct Es as (s & out & Es). rewrite Es. cbn [map_err bind].
    destruct (mbus_wireless_try_from _) as [m|x|p] eqn:Em2.
    + pose proof (wireless_of_block _ _ no_security Em2) as Ob. unfold shown_records in Ob. cbn [no_security sc_decrypted_payload sc_encrypted] in Ob.
      match goal with |- ?x <> _ /\ _ => assert (K : (exists s, x = Ok (Some s)) \/ (exists p, x = Panic p)) end.
      { unfold summarize_wireless. apply (summary_cases env display _ (md_user_data m) _ (md_data_records m) _ key Ob). }
      split; [destruct K as [(s' & ->)|(p & ->)]; discriminate|].
      split; [intros H; exfalso; destruct K as [(s' & K)|(p & K)]; rewrite K in H; discriminate H|].
      intros [H|(x & y & H)]; [discriminate H|]. exfalso.
      destruct (prepare_cases (env_aes env) (md_user_data m) (Some (wf_manufacturer_id (md_frame m))) key) as [(sc & E)|(code & E & _)]; rewrite E in H; cbn [bind] in H; [|discriminate H].
      unfold build_wireless_output in H. pose proof (wireless_of_block _ _ sc Em2) as K'.
      edestruct build_output_cases as [(d & K2)|(bl & hd & it & p & K2 & _)]; [exact K'|rewrite K2 in H; discriminate H..].
    + split; [discriminate|]. split; [intros _; right; eauto|reflexivity].
    + split; [discriminate|]. split; [discriminate|]. intros [H|(? & ? & H)]; discriminate H.
  - split; [discriminate|]. split; [discriminate|]. intros [H|(? & ? & H)]; discriminate H.
Qed.

(** ** The meter *)
Lemma finalize_header env display s records u encrypted decrypted s' :
  finalize_summary env display s records u encrypted decrypted = Ok s' ->
  fs_frame_type s' = fs_frame_type s /\ fs_function s' = fs_function s /\ fs_address s' = fs_address s /\
  fs_identification_number s' = fs_identification_number s /\ fs_manufacturer s' = fs_manufacturer s /\
  fs_access_number s' = fs_access_number s /\ fs_status s' = fs_status s /\ fs_security_mode s' = fs_security_mode s /\
  fs_version s' = fs_version s /\ fs_device_type s' = fs_device_type s.
Proof.
  unfold finalize_summary. destruct (encrypted && negb decrypted).
  - intros H. apply Ok_inj in H. subst s'. cbn. repeat split.
  - destruct records as [r|]; intros H; [apply bind_ok in H as (rs & _ & H)|]; apply Ok_inj in H; subst s'; cbn; repeat split.
Qed.

Lemma apply_header env s u : fs_frame_type (apply_user_data_summary env s u) = fs_frame_type s /\
  fs_function (apply_user_data_summary env s u) = fs_function s /\ fs_address (apply_user_data_summary env s u) = fs_address s.
Proof. destruct u as [[]|]; repeat split. Qed.

Lemma legacy_meter env display data payload id u e key key' enrich d o :
  bytes_ok data -> message data payload id -> app_result payload u e ->
  decode_bytes env data key enrich = Ok d -> parse_frame_bytes env display data key' = Ok (Some o) ->
  let s := po_summary o in
  (forall x, do_identity d = Some x -> id_source x <> txt "application.fixed" -> same_meter env x s) /\
  (do_identity d = None -> fs_identification_number s = None /\ fs_manufacturer s = None /\ fs_version s = None /\ fs_device_type s = None) /\
  same_transport d s.
Proof.
  intros B M A Hd Hs s. destruct (message_identity env data payload id u e key enrich d B M A Hd) as [Ei _].
  destruct (message_fields env data payload id u e key enrich d B M A Hd) as (Et & Em & _ & _).
  destruct (legacy_message env display data payload id u e B M A) as (s0 & fr0 & H0 & E). rewrite E in Hs. clear E.
  apply bind_ok in Hs as ([r dd] & _ & Hs). apply bind_ok in Hs as (s' & Hs & H). apply bind_ok in H as (o' & Ho & H). apply Ok_inj in H. injection H as ->.
  apply parsed_summary in Ho. subst s. rewrite Ho. apply finalize_header in Hs. destruct Hs as (_ & _ & _ & F1 & F2 & F3 & F4 & F5 & F6 & F7).
  unfold same_meter, same_transport. rewrite Ei, Et, Em, F1, F2, F3, F4, F5, F6, F7. clear F1 F2 F3 F4 F5 F6 F7 Ei Et Em.
  destruct u as [[x|n acc st dt c1 c2|ell h b|ell h b|ell b]|]; cbn [apply_user_data_summary meter_and_transport fst snd
     fs_identification_number fs_manufacturer fs_access_number fs_status fs_security_mode fs_version fs_device_type security_fields].
  - split; [|split; [|split; [|split]]].
    + intros x' Hx _. destruct H0 as [f a W|fr i Hi]; [discriminate Hx|]. injection Hx as <-. cbn.
      repeat split. eexists. split; [reflexivity|]. split; [reflexivity|]. intros code Hc. injection Hc as <-. reflexivity.
    + destruct H0; [auto|discriminate].
    + intros ? ? [].
    + intros ? ? ? [].
    + discriminate.
  - split; [|split; [|split; [|split]]].
    + intros x' Hx K. injection Hx as <-. destruct (K eq_refl).
    + discriminate.
    + intros ? ? [H|[]] _. injection H as <- <-. reflexivity.
    + intros ? ? ? [H|[]]. injection H as <- <- <-. reflexivity.
    + discriminate.
  - split; [|split; [|split; [|split]]].
    + intros x' Hx _. injection Hx as <-. cbn. repeat split. eexists. split; [reflexivity|]. split; [reflexivity|].
      intros code Hc. destruct (lh_manufacturer h); [|discriminate Hc..]. injection Hc as <-. reflexivity.
    + discriminate.
    + intros ? ? [H|[]] _. injection H as <- <-. reflexivity.
    + intros ? ? ? [H|[]]. injection H as <- <- <-. reflexivity.
    + intros mode Hm. injection Hm as <-. reflexivity.
  - split; [|split; [|split; [|split]]].
    + intros x' Hx _. destruct H0 as [f a W|fr i Hi]; [discriminate Hx|]. injection Hx as <-. cbn.
      repeat split. eexists. split; [reflexivity|]. split; [reflexivity|]. intros code Hc. injection Hc as <-. reflexivity.
    + destruct H0; [auto|discriminate].
    + intros source access H N. destruct (ell_has_encryption ell && _).
      * destruct ell as [el|]; [|destruct H]. destruct H as [H|[]]. injection H as <- _. destruct (N eq_refl).
      * destruct H as [H|[]]. injection H as <- <-. reflexivity.
    + intros source raw status H. destruct (ell_has_encryption ell && _); [destruct H|]. destruct H as [H|[]]. injection H as <- <- <-. reflexivity.
    + intros mode H. destruct (ell_has_encryption ell && _); cbn in H; [discriminate H|]. injection H as <-. reflexivity.
  - split; [|split; [|split; [|split]]].
    + intros x' Hx _. destruct H0 as [f a W|fr i Hi]; [discriminate Hx|]. injection Hx as <-. cbn.
      repeat split. eexists. split; [reflexivity|]. split; [reflexivity|]. intros code Hc. injection Hc as <-. reflexivity.
    + destruct H0; [auto|discriminate].
    + intros source access H N. destruct ell as [el|]; [|destruct H]. destruct H as [H|[]]. injection H as <- _. destruct (N eq_refl).
    + intros ? ? ? [].
    + discriminate.
  - split; [|split; [|split; [|split]]].
    + intros x' Hx _. destruct H0 as [f a W|fr i Hi]; [discriminate Hx|]. injection Hx as <-. cbn.
      repeat split. eexists. split; [reflexivity|]. split; [reflexivity|]. intros code Hc. injection Hc as <-. reflexivity.
    + destruct H0; [auto|discriminate].
    + intros ? ? [].
    + intros ? ? ? [].
    + discriminate.
Qed.

Lemma old_function_of c f : In (c, f) function_codes -> In (c, show_function f) old_function_texts.
Proof.
  unfold function_codes, old_function_texts. intros H. cbn [In] in H |- *.
  repeat match type of H with _ \/ _ => destruct H as [H|H] end; try (injection H as <- <-; vm_compute; tauto). destruct H.
Qed.
Lemma legacy_frame env display data fr key o : bytes_ok data -> wired_meaning data fr ->
  parse_frame_bytes env display data key = Ok (Some o) ->
  old_frame data (fs_frame_type (po_summary o)) (fs_function (po_summary o)) (fs_address (po_summary o)).
Proof.
  intros B W Hs. destruct (wired_data_total (env_config env) data fr B W) as (m & Em & Ef).
  unfold parse_frame_bytes in Hs. rewrite Em in Hs. apply bind_ok in Hs as ([r dd] & _ & Hs).
  apply bind_ok in Hs as (s' & Hs & H). apply bind_ok in H as (o' & Ho & H). apply Ok_inj in H. injection H as ->. apply parsed_summary in Ho. rewrite Ho.
  unfold summarize_wired in Hs.
  apply finalize_header in Hs. destruct Hs as (F1 & F2 & F3 & _). rewrite F1, F2, F3.
  rewrite Ef. edestruct apply_header as (G1 & G2 & G3). rewrite G1, G2, G3. clear F1 F2 F3 G1 G2 G3.
  destruct W as [rest|c a f ad Hf Ha|x c a f ad payload Hf Ha Hc|x a f ad payload Hf Ha]; cbn [new_summary fs_frame_type fs_function fs_address].
  - constructor.
  - apply OfShort; [now apply old_function_of|now apply address_text_of].
  - assert (K := OfLong x c a (show_function f) (show_address ad) payload (old_function_of _ _ Hf) (address_text_of _ _ Ha)).
    rewrite (proj2 (N.eqb_neq _ _) Hc) in K. exact K.
  - exact (OfLong x 0x53 a (show_function f) (show_address ad) payload (old_function_of _ _ Hf) (address_text_of _ _ Ha)).
Qed.
(** only the identification number of a fixed data structure is shown by both *)
Lemma legacy_number env display data payload id u e key key' enrich d o :
  bytes_ok data -> message data payload id -> app_result payload u e ->
  decode_bytes env data key enrich = Ok d -> parse_frame_bytes env display data key' = Ok (Some o) ->
  forall x, do_identity d = Some x -> fs_identification_number (po_summary o) = id_id x.
Proof.
  intros B M A Hd Hs. destruct (message_identity env data payload id u e key enrich d B M A Hd) as [Ei _].
  destruct (legacy_message env display data payload id u e B M A) as (s0 & fr0 & H0 & E). rewrite E in Hs. clear E.
  apply bind_ok in Hs as ([r dd] & _ & Hs). apply bind_ok in Hs as (s' & Hs & H). apply bind_ok in H as (o' & Ho & H). apply Ok_inj in H. injection H as ->.
  apply parsed_summary in Ho. rewrite Ho. apply finalize_header in Hs. destruct Hs as (_ & _ & _ & F1 & _).
  rewrite Ei, F1. clear F1 Ei.
  destruct u as [[x|n acc st dt c1 c2|ell h b|ell h b|ell b]|]; cbn [apply_user_data_summary meter_and_transport fst snd fs_identification_number]; intros x' Hx.
  2,3: injection Hx as <-; reflexivity.
  all: destruct H0 as [f a W|fr i Hi]; [discriminate Hx|]; injection Hx as <-; reflexivity.
Qed.
(** a wireless frame *)
Lemma legacy_air env display data w fr l c rest key o : bytes_ok data -> not_wired data -> received data w -> wireless_meaning w fr ->
  w = l :: c :: rest -> parse_frame_bytes env display data key = Ok (Some o) ->
  fs_frame_type (po_summary o) = txt "Wireless" /\ fs_address (po_summary o) = None /\
  forall t, fs_function (po_summary o) = Some t <-> In (c, t) old_function_texts.
Proof.
  intros B W R Wm Ew Hs. pose proof (received_bytes _ _ B R) as Bw.
  pose proof (wireless_payload_ok _ _ Bw Wm) as Bp.
  pose proof (wireless_len _ _ Wm) as L. pose proof (received_len _ _ R) as L'.
  destruct (not_wired_error (env_config env) data W) as [e' Ee]; [lia|].
  destruct (received_frame data w fr B Bw R Wm) as (r & out & Es & En).
  destruct (with_application_total (E := mbus_error) fr (wf_data fr) Bp) as (m & Em).
  assert (Ef : md_frame m = fr) by (unfold with_application in Em; destruct (user_data_try_from (wf_data fr)); try discriminate Em; apply Ok_inj in Em; subst m; reflexivity).
  unfold parse_frame_bytes in Hs. unfold mbus_wired_try_from in Hs. rewrite Ee in Hs. cbn [map_err bind] in Hs. rewrite Es in Hs. cbn [bind] in Hs. rewrite En in Hs.
  unfold mbus_wireless_try_from in Hs. rewrite (proj2 (wireless_ok_iff _ _ Bw) Wm) in Hs. cbn [map_err bind] in Hs. rewrite Em in Hs.
  apply bind_ok in Hs as ([rr dd] & _ & Hs).
  apply bind_ok in Hs as (s' & Hs & H). apply bind_ok in H as (o' & Ho & H). apply Ok_inj in H. injection H as ->. apply parsed_summary in Ho. rewrite Ho.
  unfold summarize_wireless in Hs. apply finalize_header in Hs. destruct Hs as (F1 & F2 & F3 & _). rewrite F1, F2, F3.
  rewrite Ef. edestruct apply_header as (G1 & G2 & G3). rewrite G1, G2, G3. clear F1 F2 F3 G1 G2 G3.
  cbn [new_summary fs_frame_type fs_function fs_address]. split; [reflexivity|]. split; [reflexivity|].
  destruct Wm as (l0 & c0 & m0 & m1 & i0 & i1 & i2 & i3 & v & dv & ci & rs & E1 & _ & _ & Hf & _). rewrite E1 in Ew. injection Ew as <- <- _.
  intros t. split.
  - destruct (wf_function fr) as [f|] eqn:Eq; [|discriminate]. intros H. injection H as <-. apply old_function_of. now apply Hf.
  - intros H. assert (K : exists f, In (c0, f) function_codes /\ t = show_function f).
    { unfold old_function_texts in H. cbn [In] in H.
      repeat match type of H with _ \/ _ => destruct H as [H|H] end; try (injection H as <- <-); try destruct H.
      1: exists (SndNk false). 2: exists SndNr. 3: exists (SndUd false). 4: exists (SndUd true). 5: exists (ReqUd2 false). 6: exists (ReqUd2 true).
      7: exists (ReqUd1 false). 8: exists (ReqUd1 true). 9: exists (RspUd false false). 10: exists (RspUd false true). 11: exists (RspUd true false). 12: exists (RspUd true true).
      all: split; [unfold function_codes; cbn [In]; tauto|reflexivity]. }
    destruct K as (f & K & ->). apply Hf in K. rewrite K. reflexivity.
Qed.
