(** Facts about the details shown with a decoded frame. *)
From Coq Require Import String List NArith ZArith Lia Bool.
Import ListNotations.
From Verif Require Import Model.Base Model.Text Model.Core Model.Wired Model.Wireless Model.DataInfo Model.ValueInfo Model.Record Model.Decrypt
  Model.UserData Model.Hex Model.MbusData Model.Show Model.Output
  Spec.CoreSpec Spec.TextSpec Spec.CrcSpec Spec.WiredSpec Spec.WirelessSpec Spec.DecryptSpec Spec.RecordSpec Spec.AppSpec Spec.AnnotateSpec Spec.MbusSpec
  Spec.VifSpec Spec.OutputSpec Spec.DetailSpec
  Proof.BaseFacts Proof.TextFacts Proof.CoreFacts Proof.RecordFacts Proof.WiredFacts Proof.WiredProps Proof.WirelessFacts Proof.FormatAFacts Proof.FormatAProps Proof.IterFacts Proof.PanicFacts
  Proof.AppFacts Proof.AppDecrypt Proof.HexFacts Proof.ShowFacts Proof.AnnotateApp Proof.MbusFacts Proof.OutputFacts Proof.OutputRecords Proof.OutputFrames Proof.OutputMore.
Open Scope N_scope.

(** ** Texts *)
Lemma status_words st : st < 256 -> show_status st = status_text st.
Proof.
  intros H. apply text_eqb_ok.
  exact (sweep256 (fun st => text_eqb (show_status st) (status_text st)) ltac:(vm_compute; reflexivity) st H).
Qed.
Lemma hex4_string c0 c1 : c0 < 256 -> hex4 (c0 + 256 * c1) = hex_string [c1; c0].
Proof.
  intros H. unfold hex4. replace ((c0 + 256 * c1) / 256) with c1 by lia. replace ((c0 + 256 * c1) mod 256) with c0 by lia.
  rewrite !hex2_string. change [c1; c0] with ([c1] ++ [c0]). now rewrite hex_string_app.
Qed.
Lemma mode_text raw : mode_name ((raw / 256) mod 32) (show_security_mode (configuration_security_mode raw)).
Proof.
  assert (E : configuration_security_mode raw = security_mode_from_bits ((raw / 256) mod 32)).
  { unfold configuration_security_mode. now rewrite land_31, shiftr_8. }
  rewrite E. assert (L : (raw / 256) mod 32 < 32) by lia. revert L. generalize ((raw / 256) mod 32). clear. intros m L.
  destruct (N.ltb_spec m 16) as [H|H].
  - apply ModeNamed. assert (K : match nth_error mode_names (N.to_nat m) with
                                 | Some t => text_eqb t (show_security_mode (security_mode_from_bits m)) | None => false end = true).
    { apply (sweep 16 (fun m => match nth_error mode_names (N.to_nat m) with
                                | Some t => text_eqb t (show_security_mode (security_mode_from_bits m)) | None => false end)); [vm_compute; reflexivity|exact H]. }
    destruct (nth_error mode_names (N.to_nat m)) as [t|]; [|discriminate]. apply text_eqb_ok in K. now rewrite K.
  - assert (K : (m <? 16) || (match security_mode_from_bits m with ReservedHigher k => k =? m | _ => false end) = true).
    { apply (sweep 32 (fun m => (m <? 16) || (match security_mode_from_bits m with ReservedHigher k => k =? m | _ => false end))); [vm_compute; reflexivity|exact L]. }
    rewrite (proj2 (N.ltb_ge m 16) H) in K. cbn [orb] in K. destruct (security_mode_from_bits m); try discriminate K.
    apply N.eqb_eq in K. subst mode. cbn [show_security_mode]. apply ModeNumber; [lia|].
    destruct (dec_text m) as (D1 & D2 & D3 & D4). exists (dec m). rewrite D4. repeat split; auto.
Qed.

(** ** What is before the data of a message *)
Definition attach (o : option (N * N)) (u : user_data_block) : user_data_block :=
  match o, u with
  | Some (cc, acc), VariableShort _ h block => VariableShort (Some (ell_i cc acc)) h block
  | Some (cc, acc), VariableNone _ block => VariableNone (Some (ell_i cc acc)) block
  | _, u => u
  end.
Definition takes_ell (u : user_data_block) : Prop :=
  match u with VariableShort _ _ _ | VariableNone _ _ => True | _ => False end.
Lemma meaning_opened payload u : app_meaning payload u ->
  exists o inner v, opened payload o inner /\ app_meaning inner v /\ hd_error inner <> Some 0x8C /\ u = attach o v /\
    (o = None \/ takes_ell v).
Proof.
  induction 1 as [b rest f E|ci i0 i1 i2 i3 m0 m1 v d acc st c0 c1 block h C Hh|ci i0 i1 i2 i3 acc st d u a0 a1 a2 a3 b0 b1 b2 b3 rest id n1 n2 C A1 A2 A3
    |block|ci acc st c0 c1 block C|x acc st c0 c1 block|cc acc rest v u' A IH W|cc acc s0 s1 s2 s3 p0 p1 block|cc acc m0 m1 a0 a1 a2 a3 a4 a5 s0 s1 s2 s3 p0 p1 block];
    try (exists None; do 2 eexists; split; [apply OpenNone|split; [econstructor; eassumption|split; [cbn; intros K; injection K; lia|split; [reflexivity|now left]]]]; fail);
    try (exists None; do 2 eexists; split; [apply OpenNone|split; [constructor|split; [cbn; intros K; injection K; lia|split; [reflexivity|now left]]]]; fail).
  destruct IH as (o & inner & v' & O & A' & Hd & -> & T).
  exists (Some (cc, acc)), inner, v'. split; [exact (OpenEll cc acc rest o inner O)|]. split; [exact A'|]. split; [exact Hd|].
  destruct v'; destruct o as [[oc oa]|]; cbn [attach] in W; inversion W; subst; cbn [attach takes_ell]; auto.
Qed.

Lemma build_fields env pr fr o nm st pl u rs ae id sc en d : build_output env pr fr o nm st pl u rs ae id sc en = Ok d ->
  do_frame d = fr /\ do_protocol d = pr /\ do_transport d = snd (meter_and_transport u id) /\
  so_mode (do_security d) = option_map show_security_mode (sc_mode sc) /\
  so_mode_code (do_security d) = option_map security_mode_to_bits (sc_mode sc) /\
  so_key_supplied (do_security d) = sc_key_supplied sc /\
  do_raw d = {| rw_input := None; rw_original_frame_hex := hex_string o; rw_normalized_frame_hex := hex_string nm;
                rw_byte_length := len o; rw_format_a_crc_stripped := st; rw_payload_hex := option_map hex_string pl |} /\
  do_enrichment d = (if en then and_then (and_then (do_identity d) id_manufacturer_code) (env_registry env) else None).
Proof.
  unfold build_output. intros H. apply bind_ok in H as ((outs & re) & _ & H).
  destruct (meter_and_transport u id) as [[? ?] ?]. apply Ok_inj in H. subst d. repeat split; cbn.
Qed.
Lemma prepare_fields aes u id key sc : prepare_security aes u id key = Ok sc ->
  sc_encrypted sc = fst (fst (security_fields u)) /\ sc_mode sc = snd (fst (security_fields u)) /\ sc_ell_encrypted sc = snd (security_fields u) /\
  (sc_key_supplied sc = is_some key) /\ (sc_decrypted sc = fst (fst (security_fields u)) && is_some key).
Proof.
  unfold prepare_security. destruct (security_fields u) as [[en mode] el]. destruct en; cbn [negb fst snd andb].
  2: { intros H. apply Ok_inj in H. subst sc. repeat split. }
  destruct key as [key|]; [|intros H; apply Ok_inj in H; subst sc; repeat split].
  destruct (el && negb (is_some mode)); [discriminate|]. intros H. apply bind_ok in H as (block & _ & H).
  destruct (decrypt_user_data _ _ _ _ _) as [res out]. apply bind_ok in H as (n & _ & H). apply bind_ok in H as (dd & _ & H).
  apply Ok_inj in H. subst sc. repeat split.
Qed.
Lemma message_fields env data payload id u e key enrich d : bytes_ok data -> message data payload id -> app_result payload u e ->
  decode_bytes env data key enrich = Ok d ->
  do_transport d = snd (meter_and_transport u id) /\
  so_mode (do_security d) = option_map show_security_mode (snd (fst (security_fields u))) /\
  so_mode_code (do_security d) = option_map security_mode_to_bits (snd (fst (security_fields u))) /\
  so_key_supplied (do_security d) = is_some key.
Proof.
  intros B M A H. destruct (decode_message env data payload id u e B M A) as (pr & fr & nm & st & E). rewrite E in H.
  apply bind_ok in H as (sc & Hs & H). apply build_fields in H as (_ & _ & H1 & H2 & H3 & H4 & _).
  apply prepare_fields in Hs as (_ & K2 & _ & K4 & _). rewrite <- K2, <- K4. auto.
Qed.
Lemma opened_bytes payload o inner : opened payload o inner -> bytes_ok payload -> bytes_ok inner.
Proof. induction 1 as [|cc acc rest o inner H IH]; intros B; [exact B|]. apply IH. cbn [app] in B. now bytes_split B. Qed.

(** the message, seen from outside *)
Lemma transport_details payload u id : bytes_ok payload -> app_meaning payload u -> ~ nested_session payload ->
  transport_shown payload (snd (meter_and_transport (Some u) id)) /\
  exists m, has_mode payload m /\
    option_map security_mode_to_bits (snd (fst (security_fields (Some u)))) = m /\
    match m with
    | Some m => exists t, option_map show_security_mode (snd (fst (security_fields (Some u)))) = Some t /\ mode_name m t
    | None => snd (fst (security_fields (Some u))) = None
    end.
Proof.
  intros B A N. apply meaning_opened in A as (o & inner & v & O & A & Hd & -> & T).
  pose proof (opened_bytes _ _ _ O B) as Bi.
  assert (Md : forall c0 c1, c0 < 256 -> exists t,
    option_map show_security_mode (Some (configuration_security_mode (c0 + 256 * c1))) = Some t /\ mode_name (c1 mod 32) t).
  { intros c0 c1 H. pose proof (mode_text (c0 + 256 * c1)) as Mt. replace ((c0 + 256 * c1) / 256) with c1 in Mt by lia. cbn [option_map]. eauto. }
  assert (Mb : forall c0 c1, c0 < 256 -> security_mode_to_bits (configuration_security_mode (c0 + 256 * c1)) = c1 mod 32).
  { intros c0 c1 H. rewrite configuration_mode. f_equal. lia. }
  assert (Sh : forall kind source acc st c0 c1 ell, st < 256 -> c0 < 256 ->
    short_transport kind source (short_header acc st c0 c1) ell = header_shown kind source acc st c0 c1 ell).
  { intros. unfold short_transport, short_header, header_shown. cbn [sh_access_number sh_status sh_configuration_field].
    now rewrite status_words, hex4_string, hex2_string. }
  assert (Fin : forall head acc st c0 c1 block, opened payload o (head ++ block) -> short_head head acc st c0 c1 -> st < 256 -> c0 < 256 ->
    v = VariableShort None (short_header acc st c0 c1) block ->
    transport_shown payload (snd (meter_and_transport (Some (attach o v)) id)) /\
    exists m, has_mode payload m /\
      option_map security_mode_to_bits (snd (fst (security_fields (Some (attach o v))))) = m /\
      match m with
      | Some m => exists t, option_map show_security_mode (snd (fst (security_fields (Some (attach o v))))) = Some t /\ mode_name m t
      | None => snd (fst (security_fields (Some (attach o v)))) = None
      end).
  { intros head acc st c0 c1 block O' S Hst Hc0 ->.
    assert (E : attach o (VariableShort None (short_header acc st c0 c1) block)
                = VariableShort (match o with Some (cc, acc) => Some (ell_i cc acc) | None => None end) (short_header acc st c0 c1) block)
      by (destruct o as [[cc a]|]; reflexivity).
    rewrite E. cbn [meter_and_transport security_fields].
    assert (E2 : ell_has_encryption (match o with Some (cc, acc) => Some (ell_i cc acc) | None => None end) = false)
      by (destruct o as [[cc a]|]; reflexivity).
    rewrite E2. cbn [andb snd fst]. split.
    - rewrite Sh by assumption.
      assert (E3 : (match (match o with Some (cc, acc) => Some (ell_i cc acc) | None => None end) with Some e => Some (ell_output e) | None => None end)
                   = plain_ell o).
      { destruct o as [[cc a]|]; [|reflexivity]. unfold plain_ell. now rewrite <- hex2_string. }
      rewrite E3. eapply TSShort; eassumption.
    - exists (Some (c1 mod 32)). split; [eapply ModeShort; eassumption|]. cbn [short_header sh_configuration_field]. split.
      + cbn [option_map]. now rewrite Mb.
      + now apply Md. }
  inversion A as [b rest f E|ci i0 i1 i2 i3 m0 m1 ve d acc st c0 c1 block h C Hh|ci i0 i1 i2 i3 acc st d u a0 a1 a2 a3 b0 b1 b2 b3 rest i n1 n2 C A1 A2 A3
    |block|ci acc st c0 c1 block C|x acc st c0 c1 block|cc acc rest v' u' A' W|cc acc s0 s1 s2 s3 p0 p1 block|cc acc m0 m1 a0 a1 a2 a3 a4 a5 s0 s1 s2 s3 p0 p1 block]; subst.
  (* reset *)
  - destruct T as [->|[]]. inversion O; subst.
    cbn. split; [apply TSReset|]. exists None. split; [eapply ModeNone; [apply OpenNone|cbn; auto]|]. split; reflexivity.
  (* long *)
  - destruct T as [->|[]]. inversion O; subst.
    destruct Hh as (_ & _ & _ & _ & Hs & _). cbn [attach meter_and_transport snd security_fields fst option_map]. rewrite Hs.
    cbn [app] in B. bytes_split B. split.
    + rewrite Sh by assumption. now apply TSLong.
    + exists (Some (c1 mod 32)). split; [now eapply ModeLong|]. cbn [sh_configuration_field short_header]. rewrite Mb by assumption.
      split; [reflexivity|]. now apply Md.
  (* fixed *)
  - destruct T as [->|[]]. inversion O; subst. cbn [app] in B. bytes_split B.
    cbn [attach meter_and_transport snd security_fields fst option_map]. split.
    + rewrite status_words, hex2_string by assumption.
      change (ci :: i0 :: i1 :: i2 :: i3 :: acc :: st :: d :: u :: a0 :: a1 :: a2 :: a3 :: b0 :: b1 :: b2 :: b3 :: rest)
        with ([ci; i0; i1; i2; i3; acc; st] ++ (d :: u :: a0 :: a1 :: a2 :: a3 :: b0 :: b1 :: b2 :: b3 :: rest)).
      now apply TSFixed.
    + exists None. split; [eapply ModeNone; [apply OpenNone|destruct C; subst; cbn; auto]|]. split; reflexivity.
  (* none *)
  - assert (E : snd (fst (security_fields (Some (attach o (VariableNone None block))))) = None) by (destruct o as [[cc a]|]; reflexivity).
    split.
    + destruct o as [[cc a]|]; cbn [attach meter_and_transport snd].
      * unfold ell_output, ell_i. cbn -[hex2 hex4 hex_string txt]. rewrite !hex2_string. eapply TSEll; eassumption.
      * inversion O; subst. apply TSNone.
    + exists None. split; [eapply ModeNone; [exact O|cbn; auto]|]. rewrite E. split; reflexivity.
  (* short *)
  - cbn [app] in Bi. bytes_split Bi.
    apply (Fin [ci; acc; st; c0; c1] acc st c0 c1 block); auto. now constructor.
  - cbn [app] in Bi. bytes_split Bi.
    apply (Fin [0xA0; x; acc; st; c0; c1] acc st c0 c1 block); auto. constructor.
  - exfalso. apply Hd. reflexivity.
  (* sessions *)
  - destruct o as [[cc' acc']|].
    + exfalso. apply N. exists cc', acc', 0x8D. eexists. split; [exact O|now left].
    + inversion O; subst. cbn [app] in B. bytes_split B. split.
      * unfold attach. cbn [meter_and_transport snd]. unfold ell_output. cbn -[hex2 hex4 hex_string txt N.mul N.add]. rewrite hex4_string, hex2_string by assumption.
        change (0x8D :: cc :: acc :: s0 :: s1 :: s2 :: s3 :: p0 :: p1 :: block) with ([0x8D; cc; acc; s0; s1; s2; s3; p0; p1] ++ block).
        apply TSSession.
      * exists None. split; [apply ModeSession; now left|]. split; reflexivity.
  - destruct o as [[cc' acc']|].
    + exfalso. apply N. exists cc', acc', 0x8E. eexists. split; [exact O|now right].
    + inversion O; subst. cbn [app] in B. bytes_split B. split.
      * unfold attach. cbn [meter_and_transport snd]. unfold ell_output. cbn -[hex2 hex4 hex_string txt N.mul N.add]. rewrite !hex4_string, hex2_string by assumption.
        change (0x8E :: cc :: acc :: m0 :: m1 :: a0 :: a1 :: a2 :: a3 :: a4 :: a5 :: s0 :: s1 :: s2 :: s3 :: p0 :: p1 :: block)
          with ([0x8E; cc; acc; m0; m1; a0; a1; a2; a3; a4; a5; s0; s1; s2; s3; p0; p1] ++ block).
        apply TSSessionTo.
      * exists None. split; [apply ModeSession; now right|]. split; reflexivity.
Qed.

(** ** The frame *)
Lemma function_text_of c f : In (c, f) function_codes -> In (c, frame_function_name f) function_texts.
Proof.
  unfold function_codes, function_texts. intros H. cbn [In] in H |- *.
  repeat match type of H with _ \/ _ => destruct H as [H|H] end; try (injection H as <- <-; vm_compute; tauto). destruct H.
Qed.
Lemma function_text_inv c t : In (c, t) function_texts -> exists f, In (c, f) function_codes /\ t = frame_function_name f.
Proof.
  unfold function_texts, function_codes. intros H. cbn [In] in H.
  repeat match type of H with _ \/ _ => destruct H as [H|H] end; try (injection H as <- <-; eexists; split; [cbn [In]; eauto 16|reflexivity]). destruct H.
Qed.
Lemma address_text_of a ad : address_code a ad -> address_text a (show_address ad).
Proof.
  unfold address_code, address_text. intros H. destruct ad as [|p| |r]; [subst a; reflexivity| |subst a; reflexivity|destruct r; subst a; reflexivity].
  destruct H as (-> & H0 & H1 & H2 & H3). rewrite !(proj2 (N.eqb_neq _ _)) by assumption.
  exists (dec p). split; [|reflexivity]. destruct (dec_text p) as (D1 & D2 & D3 & D4). exists (dec p). rewrite D4. repeat split; auto.
Qed.
Lemma wired_details env data fr key enrich d : bytes_ok data -> wired_meaning data fr -> decode_bytes env data key enrich = Ok d ->
  do_protocol d = txt "wired" /\ exists payload, frame_shown data (do_frame d) payload /\ do_raw d = raw_shown data data false payload.
Proof.
  intros B W H. unfold decode_bytes in H. destruct data as [|b data]; [discriminate H|].
  destruct (wired_data_total (env_config env) _ _ B W) as (m & Em & Ef). rewrite Em in H.
  apply bind_ok in H as (sc & _ & H). unfold build_wired_output in H. rewrite Ef in H. clear Ef Em.
  inversion W as [rest|c a f ad If Ia|x c a f ad p If Ia Nc|x a f ad p If Ia]; subst; apply build_fields in H as (H1 & H2 & _ & _ & _ & _ & H3 & _);
    rewrite H1, H2, H3; split; try reflexivity; eexists; (split; [|reflexivity]).
  - apply FSSingle.
  - apply FSShort; [now apply function_text_of|now apply address_text_of].
  - pose proof (FSLong x c a _ _ p (function_text_of _ _ If) (address_text_of _ _ Ia)) as K. rewrite (proj2 (N.eqb_neq _ _) Nc) in K. exact K.
  - exact (FSLong x 0x53 a _ _ p (function_text_of _ _ If) (address_text_of _ _ Ia)).
Qed.
Lemma wireless_details env data w fr key enrich d : bytes_ok data -> not_wired data -> received data w -> wireless_meaning w fr ->
  decode_bytes env data key enrich = Ok d ->
  do_protocol d = txt "wireless" /\
  (exists c, nth_error w 1 = Some c /\ fo_control_field (do_frame d) = Some (hex_string [c]) /\
     forall t, fo_function (do_frame d) = Some t <-> In (c, t) function_texts) /\
  fo_kind (do_frame d) = txt "wireless" /\ fo_address (do_frame d) = None /\
  exists stripped, (stripped = true <-> data <> w) /\ do_raw d = raw_shown data w stripped (Some (wf_data fr)).
Proof.
  intros B W R Wm H. pose proof (received_bytes _ _ B R) as Bw. pose proof (wireless_payload_ok _ _ Bw Wm) as Bp.
  destruct (with_application_total (E := mbus_error) fr (wf_data fr) Bp) as [m E].
  pose proof (wireless_len _ _ Wm) as L. pose proof (received_len _ _ R) as L'.
  destruct (not_wired_error (env_config env) data W) as [e' Ew]; [lia|].
  destruct (received_frame data w fr B Bw R Wm) as (r & out & Es & En).
  unfold decode_bytes in H. destruct data as [|b data]; [discriminate H|].
  unfold mbus_wired_try_from in H. rewrite Ew in H. cbn [map_err bind] in H. rewrite Es in H. cbn [map_err bind] in H. rewrite En in H.
  unfold mbus_wireless_try_from in H. rewrite (proj2 (wireless_ok_iff _ _ Bw) Wm) in H. cbn [map_err bind] in H. rewrite E in H.
  apply bind_ok in H as (sc & _ & H). unfold build_wireless_output in H.
  assert (Ef : md_frame m = fr) by (destruct (with_application_layers _ _ _ Bp E) as [K _]; exact K). rewrite Ef in H.
  apply build_fields in H as (H1 & H2 & _ & _ & _ & _ & H3 & _). rewrite H1, H2, H3. cbn [fo_kind fo_address fo_control_field fo_function].
  split; [reflexivity|]. split; [|split; [reflexivity|split; [reflexivity|]]].
  - destruct Wm as (l & c & m0 & m1 & i0 & i1 & i2 & i3 & v & dd & ci & rest & -> & _ & <- & Hf & _).
    exists (wf_control_field fr). split; [reflexivity|]. split; [now rewrite hex2_string|]. intros t. split.
    + destruct (wf_function fr) as [f|]; [|discriminate]. intros K. injection K as <-. apply function_text_of. now apply Hf.
    + intros K. apply function_text_inv in K as (f & K & ->). apply Hf in K. now rewrite K.
  - eexists. split; [|reflexivity]. split.
    + intros K Q. rewrite <- Q, N.eqb_refl in K. discriminate K.
    + intros K. apply Bool.negb_true_iff, N.eqb_neq. intros Q. apply K. destruct R as [[R _]|R]; [exact R|]. exfalso.
      destruct R as [head hi lo content enc _ _ R]. apply format_a_rest_le in R. rewrite !len_app in Q. change (len [hi; lo]) with 2 in Q. lia.
Qed.
