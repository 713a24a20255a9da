(** Facts about decoding frames for display (Model/Output.v). *)
From Coq Require Import List NArith ZArith Lia Bool String.
Import ListNotations.
From Verif Require Import Model.Base Model.Text Model.Core Model.Wired Model.Wireless Model.DataInfo Model.ValueInfo Model.Record Model.Decrypt
  Model.UserData Model.Hex Model.MbusData Model.Show Model.Output
  Spec.CoreSpec Spec.CrcSpec Spec.WiredSpec Spec.WirelessSpec Spec.DecryptSpec Spec.RecordSpec Spec.AppSpec Spec.AnnotateSpec Spec.MbusSpec Spec.OutputSpec
  Proof.BaseFacts Proof.WiredFacts Proof.WiredProps Proof.WirelessFacts Proof.FormatAFacts Proof.FormatAProps Proof.IterFacts Proof.AppFacts
  Proof.AppDecrypt Proof.HexFacts Proof.MbusFacts.
Open Scope N_scope.

(** ** The frame *)

Lemma format_a_rest_bytes c e : format_a_rest c e -> bytes_ok e -> bytes_ok c.
Proof.
  induction 1; intros B; [exact B| |].
  - apply bytes_ok_app in B. tauto.
  - apply bytes_ok_app in B. destruct B as [B1 B]. apply bytes_ok_app in B. apply bytes_ok_app. tauto.
Qed.
Lemma received_bytes data w : bytes_ok data -> received data w -> bytes_ok w.
Proof.
  intros B [[-> _]|F]; [exact B|]. destruct F as [head hi lo content enc Hl Hc Hr].
  apply bytes_ok_app in B. destruct B as [B1 B]. apply bytes_ok_app in B. destruct B as [_ B].
  apply bytes_ok_app. split; [exact B1|]. eapply format_a_rest_bytes; eassumption.
Qed.
Lemma wireless_len w fr : wireless_meaning w fr -> 11 <= len w.
Proof. intros (l & c & m0 & m1 & i0 & i1 & i2 & i3 & v & d & ci & rest & -> & _). cbn [app]. rewrite !len_cons. lia. Qed.
Lemma received_len data w : received data w -> len w <= len data.
Proof.
  intros [[-> _]|F]; [lia|]. destruct F as [head hi lo content enc Hl Hc Hr].
  apply format_a_rest_le in Hr. rewrite !len_app. cbn [app] in *. rewrite !len_cons in *. lia.
Qed.
Lemma not_wired_error cf data : not_wired data -> 11 <= len data -> exists e, wired_try_from cf data = Err e.
Proof.
  intros W L. destruct (wired_try_from cf data) as [fr|e|p] eqn:E.
  - apply wired_ok_iff in E. destruct (W _ E).
  - eauto.
  - exfalso. assert (K : is_panic (wired_try_from cf data)) by (rewrite E; eexists; reflexivity).
    apply wired_panic_iff in K. lia.
Qed.

(** the records shown for a message *)
Definition records_of (u : option user_data_block) (sc : security_context) : option data_records :=
  match sc_decrypted_payload sc with
  | Some decrypted => decrypted_records u decrypted
  | None => if sc_encrypted sc then None
            else match u with Some u => option_map (fun b => records_new b None) (variable_block u) | None => None end
  end.

Lemma block_records_variable u : block_records u = option_map (fun b => records_new b None) (variable_block u).
Proof. destruct u; reflexivity. Qed.

(** the application message of a frame, or the reason it cannot be read *)
Definition app_result (payload : list N) (u : option user_data_block) (e : option application_layer_error) : Prop :=
  (exists x, app_meaning payload x /\ u = Some x /\ e = None) \/
  (exists x, user_data_try_from payload = Err x /\ u = None /\ e = Some x).

Lemma with_application_result {E F} (fr : F) payload u e : bytes_ok payload -> app_result payload u e ->
  exists m, with_application (E := E) fr payload = Ok m /\ md_frame m = fr /\ md_user_data m = u /\
    md_application_error m = e /\ forall sc, shown_records m sc = records_of u sc.
Proof.
  intros B [(x & A & -> & ->)|(x & A & -> & ->)].
  - apply dispatch_exact in A; [|exact B]. unfold with_application. rewrite A.
    eexists. split; [reflexivity|]. do 3 (split; [reflexivity|]). intros sc. unfold shown_records, records_of. cbn.
    destruct (sc_decrypted_payload sc); [reflexivity|]. destruct (sc_encrypted sc); [reflexivity|]. apply block_records_variable.
  - unfold with_application. rewrite A. eexists. split; [reflexivity|]. do 3 (split; [reflexivity|]).
    intros sc. unfold shown_records, records_of. cbn. reflexivity.
Qed.

(** what decoding does with a message *)
Lemma decode_message env data payload id u e :
  bytes_ok data -> message data payload id -> app_result payload u e ->
  exists protocol frame normalized stripped, forall key enrich,
    decode_bytes env data key enrich =
      (sc <- prepare_security (env_aes env) u id key ;;
       build_output env protocol frame data normalized stripped (Some payload) u (records_of u sc) e id sc enrich).
Proof.
  intros B M A. destruct M as [data f a payload W|data w fr W R Wm].
  - pose proof (wired_payload_ok _ _ _ _ B W) as Bp.
    destruct (with_application_result (E := mbus_error) (LongFrame f a payload) payload u e Bp A)
      as (m & E & Ef & Eu & Ee & Er).
    assert (Ew : mbus_wired_try_from (env_config env) data = Ok m).
    { unfold mbus_wired_try_from. rewrite (proj2 (wired_ok_iff (env_config env) _ _) W). cbn [map_err bind]. exact E. }
    do 4 eexists. intros key enrich. unfold decode_bytes.
    destruct data as [|b data]; [inversion W|]. rewrite Ew, Eu. unfold build_wired_output. rewrite Ef, Eu, Ee.
    destruct (prepare_security (env_aes env) u None key) as [sc| |]; cbn [bind]; [|reflexivity|reflexivity].
    rewrite Er. reflexivity.
  - pose proof (received_bytes _ _ B R) as Bw.
    pose proof (wireless_payload_ok _ _ Bw Wm) as Bp.
    destruct (with_application_result (E := mbus_error) fr (wf_data fr) u e Bp A) as (m & E & Ef & Eu & Ee & Er).
    pose proof (wireless_len _ _ Wm) as L. pose proof (received_len _ _ R) as L'.
    destruct (not_wired_error (env_config env) data W) as [e' Ew]; [lia|].
    destruct (received_frame data w fr B Bw R Wm) as (r & out & Es & En).
    do 4 eexists. intros key enrich. unfold decode_bytes.
    destruct data as [|b data]; [change (len []) with 0 in L'; lia|].
    unfold mbus_wired_try_from. rewrite Ew. cbn [map_err bind]. rewrite Es. cbn [map_err bind]. rewrite En.
    unfold mbus_wireless_try_from. rewrite (proj2 (wireless_ok_iff _ _ Bw) Wm). cbn [map_err bind]. rewrite E, Eu, Ef.
    unfold build_wireless_output. rewrite Ef, Eu, Ee.
    destruct (prepare_security (env_aes env) u (Some (wf_manufacturer_id fr)) key) as [sc| |]; cbn [bind]; [|reflexivity|reflexivity].
    rewrite Er. reflexivity.
Qed.

(** ** Encryption *)

Lemma mode_none raw : is_no_encryption (configuration_security_mode raw) = ((raw / 256) mod 32 =? 0).
Proof.
  destruct (N.eqb_spec ((raw / 256) mod 32) 0) as [E|E].
  - apply no_encryption_mode in E. rewrite E. reflexivity.
  - destruct (configuration_security_mode raw) eqn:M; try reflexivity. exfalso. apply E, no_encryption_mode, M.
Qed.
Lemma short_header_mode acc st c0 c1 : c0 < 256 ->
  is_no_encryption (configuration_security_mode (sh_configuration_field (short_header acc st c0 c1))) = (c1 mod 32 =? 0).
Proof. intros H. rewrite mode_none. cbn [short_header sh_configuration_field]. rewrite config_mode by exact H. reflexivity. Qed.

Lemma app_long_inv ci i0 i1 i2 i3 m0 m1 v d acc st c0 c1 block u : ci = 0x72 \/ ci = 0x76 ->
  app_meaning ([ci; i0; i1; i2; i3; m0; m1; v; d; acc; st; c0; c1] ++ block) u ->
  exists h, u = VariableLong None h block /\ long_header ci [i0; i1; i2; i3] m0 m1 v d acc st c0 c1 h.
Proof. intros C A. cbn [app] in A. inversion A; subst; try (exfalso; lia). eauto. Qed.
Lemma app_short_inv ci acc st c0 c1 block u : ci = 0x7A \/ 0xA1 <= ci <= 0xAF ->
  app_meaning ([ci; acc; st; c0; c1] ++ block) u -> u = VariableShort None (short_header acc st c0 c1) block.
Proof. intros C A. cbn [app] in A. inversion A; subst; try (exfalso; lia). reflexivity. Qed.
Lemma app_a0_inv x acc st c0 c1 block u :
  app_meaning ([0xA0; x; acc; st; c0; c1] ++ block) u -> u = VariableShort None (short_header acc st c0 c1) block.
Proof. intros A. cbn [app] in A. inversion A; subst; try (exfalso; lia). reflexivity. Qed.
Lemma app_none_inv block u : app_meaning (0x78 :: block) u -> u = VariableNone None block.
Proof. intros A. inversion A; subst; try (exfalso; lia). reflexivity. Qed.
Lemma app_ell_inv cc acc rest u : app_meaning ([0x8C; cc; acc] ++ rest) u ->
  exists u', app_meaning rest u' /\ with_ell (ell_i cc acc) u' u.
Proof. intros A. cbn [app] in A. inversion A; subst; try (exfalso; lia). eauto. Qed.

Lemma encrypted_fields p block : encrypted_message p block -> bytes_ok p -> forall u, app_meaning p u ->
  variable_block u = Some block /\
  ((exists ell h, u = VariableLong ell h block /\ is_no_encryption (configuration_security_mode (sh_configuration_field (lh_short_tpl_header h))) = false) \/
   (exists ell h, u = VariableShort ell h block /\ is_no_encryption (configuration_security_mode (sh_configuration_field h)) = false)).
Proof.
  assert (D : forall c1, c1 mod 32 <> 0 -> (c1 mod 32 =? 0) = false) by (intros c1 H; now apply N.eqb_neq).
  induction 1 as [ci i0 i1 i2 i3 m0 m1 v d acc st c0 c1 block C H|ci acc st c0 c1 block C H|x acc st c0 c1 block H|cc acc rest block H IH];
    intros B u A.
  - apply app_long_inv in A as (h & -> & Hh); [|exact C]. bytes_split B. split; [reflexivity|]. left. exists None, h.
    split; [reflexivity|]. destruct Hh as (_ & _ & _ & _ & -> & _). rewrite short_header_mode by assumption. auto.
  - apply app_short_inv in A as ->; [|exact C]. bytes_split B. split; [reflexivity|]. right. eexists None, _.
    split; [reflexivity|]. rewrite short_header_mode by assumption. auto.
  - apply app_a0_inv in A as ->. bytes_split B. split; [reflexivity|]. right. eexists None, _.
    split; [reflexivity|]. rewrite short_header_mode by assumption. auto.
  - apply app_ell_inv in A as (u' & A & W). assert (B' : bytes_ok rest) by (apply bytes_ok_app in B; tauto).
    destruct (IH B' u' A) as [V K]. destruct W as [e h b|e b].
    + injection V as ->. split; [reflexivity|]. right. exists (Some (ell_i cc acc)), h. split; [reflexivity|].
      destruct K as [(?&?&E&_)|(?&?&E&K)]; [discriminate E|]. injection E as _ ->. exact K.
    + destruct K as [(?&?&E&_)|(?&?&E&_)]; discriminate E.
Qed.

Lemma protected_fields p u : protected p -> bytes_ok p -> app_meaning p u ->
  exists mode ell, security_fields (Some u) = (true, mode, ell) /\ (ell = true /\ mode = None \/ exists m, mode = Some m).
Proof.
  intros P B A. destruct P as [p block E|cc acc s0 s1 s2 s3 p0 p1 block|cc acc m0 m1 a0 a1 a2 a3 a4 a5 s0 s1 s2 s3 p0 p1 block].
  - destruct (encrypted_fields p block E B u A) as [_ [(ell & h & -> & M)|(ell & h & -> & M)]]; cbn [security_fields]; rewrite M.
    + do 2 eexists. split; [reflexivity|]. right. eexists. reflexivity.
    + rewrite andb_false_r. do 2 eexists. split; [reflexivity|]. right. eexists. reflexivity.
  - cbn [app] in A. inversion A; subst; try (exfalso; lia). cbn. do 2 eexists. split; [reflexivity|]. left. split; reflexivity.
  - cbn [app] in A. inversion A; subst; try (exfalso; lia). cbn. do 2 eexists. split; [reflexivity|]. left. split; reflexivity.
Qed.

Lemma clear_fields p block : in_clear p block -> bytes_ok p -> forall u, app_meaning p u ->
  variable_block u = Some block /\ exists mode, security_fields (Some u) = (false, mode, false) /\
   match u with VariableShort e _ _ | VariableNone e _ => ell_has_encryption e = false | _ => True end.
Proof.
  induction 1 as [ci i0 i1 i2 i3 m0 m1 v d acc st c0 c1 block C H|ci acc st c0 c1 block C H|x acc st c0 c1 block H|block|cc acc rest block H IH];
    intros B u A.
  - apply app_long_inv in A as (h & -> & Hh); [|exact C]. bytes_split B. split; [reflexivity|].
    cbn [security_fields]. destruct Hh as (_ & _ & _ & _ & -> & _). rewrite short_header_mode by assumption.
    rewrite (proj2 (N.eqb_eq _ _) H). eauto.
  - apply app_short_inv in A as ->; [|exact C]. bytes_split B. split; [reflexivity|].
    cbn [security_fields ell_has_encryption andb]. rewrite short_header_mode by assumption.
    rewrite (proj2 (N.eqb_eq _ _) H). eauto.
  - apply app_a0_inv in A as ->. bytes_split B. split; [reflexivity|].
    cbn [security_fields ell_has_encryption andb]. rewrite short_header_mode by assumption.
    rewrite (proj2 (N.eqb_eq _ _) H). eauto.
  - apply app_none_inv in A as ->. split; [reflexivity|]. cbn. eauto.
  - apply app_ell_inv in A as (u' & A & W). assert (B' : bytes_ok rest) by (apply bytes_ok_app in B; tauto).
    destruct (IH B' u' A) as (V & mode & S & K). destruct W as [e h b|e b].
    + split; [exact V|]. cbn [security_fields ell_has_encryption ell_i ell_encryption andb] in *. rewrite K in S. cbn [andb] in S. eauto.
    + split; [exact V|]. cbn. eauto.
Qed.

Lemma collect_none env : collect_records env None = Ok ([], None).
Proof. reflexivity. Qed.

(** ** C46 *)
Lemma no_ciphertext_records env data payload id u enrich :
  bytes_ok data -> message data payload id -> protected payload -> app_meaning payload u ->
  exists d, decode_bytes env data None enrich = Ok d /\ do_records d = [] /\ do_decode_state d = txt "partial" /\
    mentions d (txt "security.key_missing") /\ so_decryption_state (do_security d) = txt "key_missing" /\
    so_decrypted_payload_hex (do_security d) = None /\ so_encrypted_payload_hex (do_security d) = Some (hex_string payload).
Proof.
  intros B M P A. assert (Bp : bytes_ok payload).
  { destruct M as [? ? ? ? W|? w fr W R Wm]; [exact (wired_payload_ok _ _ _ _ B W)|].
    exact (wireless_payload_ok _ _ (received_bytes _ _ B R) Wm). }
  destruct (decode_message env data payload id (Some u) None B M) as (pr & fr & nm & st & E); [left; eauto|].
  rewrite E. destruct (protected_fields _ _ P Bp A) as (mode & ell & S & _).
  unfold prepare_security. rewrite S. cbn [negb bind]. unfold build_output, records_of. cbn [sc_decrypted_payload sc_encrypted].
  rewrite collect_none. cbn [bind]. destruct (meter_and_transport (Some u) id) as [[i al] tr].
  eexists. split; [reflexivity|]. cbn. repeat (split; [reflexivity|]).
  split; [|repeat split]. eexists. split; [left; reflexivity|]. reflexivity.
Qed.

Lemma protected_output env data payload id u enrich :
  bytes_ok data -> message data payload id -> protected payload -> app_meaning payload u ->
  exists d, decode_bytes env data None enrich = Ok d /\ do_records d = [] /\ so_payload_protection (do_security d) = txt "encrypted".
Proof.
  intros B M P A. assert (Bp : bytes_ok payload).
  { destruct M as [? ? ? ? W|? w fr W R Wm]; [exact (wired_payload_ok _ _ _ _ B W)|].
    exact (wireless_payload_ok _ _ (received_bytes _ _ B R) Wm). }
  destruct (decode_message env data payload id (Some u) None B M) as (pr & fr & nm & st & E); [left; eauto|].
  rewrite E. destruct (protected_fields _ _ P Bp A) as (mode & ell & S & _).
  unfold prepare_security. rewrite S. cbn [negb bind]. unfold build_output, records_of. cbn [sc_decrypted_payload sc_encrypted].
  rewrite collect_none. cbn [bind]. destruct (meter_and_transport (Some u) id) as [[i al] tr].
  eexists. split; [reflexivity|]. split; reflexivity.
Qed.

Lemma build_output_ok env pr fr o nm st pl u rs ae id sc en d :
  build_output env pr fr o nm st pl u rs ae id sc en = Ok d ->
  exists outs re, collect_records env rs = Ok (outs, re) /\ do_records d = outs /\
    do_decode_state d = (if is_some ae || is_some re || (sc_encrypted sc && negb (sc_decrypted sc)) then txt "partial" else txt "complete") /\
    do_diagnostics d = early_diagnostics env ae sc ++
      match re with
      | Some (offset, message) =>
          [{| dg_severity := txt "warning"; dg_code := txt "application.record_partial";
              dg_layer := txt "application"; dg_message := message; dg_offset_start := Some offset |}]
      | None => []
      end /\
    rw_original_frame_hex (do_raw d) = hex_string o.
Proof.
  unfold build_output. intros H. apply bind_ok in H as ((outs & re) & C & H).
  destruct (meter_and_transport u id) as [[i al] tr]. apply Ok_inj in H. subst d. exists outs, re. cbn. auto.
Qed.

(** every successful decode goes through [build_output] *)
Lemma decode_builds env data key en d : decode_bytes env data key en = Ok d ->
  exists pr fr nm st pl u rs ae id sc,
    prepare_security (env_aes env) u id key = Ok sc /\
    build_output env pr fr data nm st pl u rs ae id sc en = Ok d /\
    (rs = None \/ exists r, rs = Some r).
Proof.
  unfold decode_bytes. intros H. destruct data as [|b data]; [discriminate H|].
  destruct (mbus_wired_try_from (env_config env) (b :: data)) as [m|e|p]; [| |discriminate H].
  - apply bind_ok in H as (sc & P & H). unfold build_wired_output in H.
    destruct (md_frame m); do 10 eexists; (split; [exact P|split; [exact H|]]); destruct (shown_records m sc); eauto.
  - apply bind_ok in H as ((s & out) & _ & H).
    destruct (mbus_wireless_try_from match s with Some d => d | None => b :: data end) as [m| |]; [|discriminate H|discriminate H].
    apply bind_ok in H as (sc & P & H). unfold build_wireless_output in H.
    do 10 eexists. split; [exact P|]. split; [exact H|]. destruct (shown_records m sc); eauto.
Qed.

Lemma decode_state env data key en d : decode_bytes env data key en = Ok d ->
  (do_decode_state d = txt "partial" \/ do_decode_state d = txt "complete") /\
  (do_decode_state d = txt "partial" <->
   exists x, In x (do_diagnostics d) /\ dg_severity x = txt "warning") /\
  (do_decode_state d = txt "partial" <->
   mentions d (txt "application.partial") \/ mentions d (txt "application.record_partial") \/
   mentions d (txt "security.key_missing")).
Proof.
  intros H. apply decode_builds in H as (pr & fr & nm & st & pl & u & rs & ae & id & sc & _ & H & _).
  apply build_output_ok in H as (outs & re & _ & _ & S & D & _). unfold mentions. rewrite S, D. clear.
  destruct ae as [e|], re as [[off m]|], (sc_encrypted sc) eqn:E1, (sc_decrypted sc) eqn:E2; cbn [is_some orb andb negb].
  all: split; [auto|].
  all: unfold early_diagnostics; rewrite E1, E2; cbn [andb negb app]; try destruct (sc_key_supplied sc); cbn [In app].
  all: split; split.
  all: try (intros K; exfalso; discriminate K).
  all: try (intros _; reflexivity).
  all: try (intros (x & K & L); decompose [or] K; subst; cbn in L; try discriminate L; tauto).
  all: try (intros _; eexists; split; [left; reflexivity|reflexivity]).
  all: try (intros _; eexists; split; [right; left; reflexivity|reflexivity]).
  all: try (intros [(x & K & L)|[(x & K & L)|(x & K & L)]]; decompose [or] K; subst; cbn in L; try discriminate L; tauto).
  all: intros _; try (left; eexists; split; [left; reflexivity|reflexivity]).
  all: try (right; left; eexists; split; [left; reflexivity|reflexivity]).
  all: try (right; left; eexists; split; [right; left; reflexivity|reflexivity]).
  all: try (right; right; eexists; split; [left; reflexivity|reflexivity]).
Qed.
