(** Lemmas about the libmbus XML of whole frames. *)
From Coq Require Import Lia String.
From Verif Require Import Model.Base Model.Text Model.Core Model.Wired Model.Wireless Model.F64 Model.DataInfo Model.ValueInfo Model.Record Model.Decrypt
  Model.UserData Model.Hex Model.MbusData Model.Escape Model.Show Model.Output Model.Rscada
  Spec.EscapeSpec Spec.TextSpec Spec.CoreSpec Spec.CrcSpec Spec.WiredSpec Spec.WirelessSpec Spec.DecryptSpec Spec.RecordSpec Spec.AppSpec Spec.AnnotateSpec
  Spec.MbusSpec Spec.OutputSpec
  Proof.BaseFacts Proof.EscapeFacts Proof.ShowFacts Proof.RecordFacts Proof.WirelessFacts Proof.WiredFacts Proof.IterFacts Proof.AppFacts Proof.MbusFacts
  Proof.OutputFacts Proof.OutputRecords Proof.OutputFrames Proof.OutputMore Spec.XmlSpec Spec.ProductSpec Spec.RscadaSpec Proof.XmlFacts Proof.RscadaFacts Proof.ProductFacts.

(** *** What a readable message guarantees *)
Lemma letter_plain a : capital a -> plain a = true.
Proof.
  unfold capital. intros H. unfold plain, bad_control. apply negb_true_iff. rewrite !orb_false_iff.
  repeat split; try apply N.eqb_neq; try apply andb_false_iff; lia.
Qed.
Lemma manufacturer_plain id m : manufacturer_read id m -> maker_plain m.
Proof.
  intros [(a & b & c & Ha & Hb & Hc & _ & ->)|[_ ->]]; [|reflexivity].
  unfold maker_plain. cbn. rewrite !letter_plain by assumption. reflexivity.
Qed.
Lemma identity_plain m0 m1 i0 i1 i2 i3 v d ci id : identity m0 m1 i0 i1 i2 i3 v d ci id -> code_plain (mi_manufacturer_code id).
Proof. intros (Ha & Hb & Hc & _). unfold code_plain, show_manufacturer. cbn. rewrite !letter_plain by assumption. reflexivity. Qed.
Lemma frame_plain w fr : wireless_meaning w fr -> code_plain (mi_manufacturer_code (wf_manufacturer_id fr)).
Proof. intros (l & c & m0 & m1 & i0 & i1 & i2 & i3 & v & d & ci & rest & _ & _ & _ & _ & H & _). exact (identity_plain _ _ _ _ _ _ _ _ _ _ H). Qed.
Lemma short_header_bytes acc st c0 c1 : st < 256 -> c0 < 256 -> c1 < 256 -> short_bytes (short_header acc st c0 c1).
Proof. intros. unfold short_bytes, short_header. cbn. lia. Qed.

Definition user_ok (u : user_data_block) : Prop :=
  match u with
  | VariableLong _ h _ => maker_plain (lh_manufacturer h) /\ short_bytes (lh_short_tpl_header h)
  | VariableShort _ h _ => short_bytes h
  | FixedDataStructure _ _ st _ _ _ => st < 256
  | _ => True
  end.
Lemma meaning_ok p u : app_meaning p u -> bytes_ok p -> user_ok u.
Proof.
  induction 1 as [b rest f Hf|ci i0 i1 i2 i3 m0 m1 v d acc st c0 c1 block h Hci Hh|ci i0 i1 i2 i3 acc st d u a0 a1 a2 a3 b0 b1 b2 b3 rest id n1 n2 Hci H1 H2 H3
    |block|ci acc st c0 c1 block Hci|x acc st c0 c1 block|cc acc rest u u' A IH W|cc acc s0 s1 s2 s3 p0 p1 block
    |cc acc m0 m1 a0 a1 a2 a3 a4 a5 s0 s1 s2 s3 p0 p1 block]; intros B; cbn [app] in B; bytes_split B; cbn [user_ok]; auto.
  - destruct Hh as (_ & Hm & _ & _ & -> & _). split; [exact (manufacturer_plain _ _ Hm)|]. now apply short_header_bytes.
  - now apply short_header_bytes.
  - now apply short_header_bytes.
  - inversion W; subst; auto.
  - now apply short_header_bytes.
  - now apply short_header_bytes.
Qed.

(** *** The two ways a frame is rendered *)
Definition block_of (u : user_data_block) : option data_records := option_map (fun b => records_new b None) (variable_block u).
Lemma render_wired env powi data f a payload u key :
  bytes_ok data -> wired_meaning data (LongFrame f a payload) -> app_meaning payload u ->
  render_from_bytes env powi data key =
  match u with
  | VariableLong _ h _ =>
      match key with
      | None => render_variable (env_config env) powi h (block_of u)
      | Some _ => render_with_optional_decryption env powi h (Some u) (block_of u) None key
      end
  | FixedDataStructure n access status dtu c1 c2 => Ok (render_fixed n access status dtu c1 c2)
  | _ => Err XUnsupportedWired
  end.
Proof.
  intros B W A. pose proof (wired_payload_ok _ _ _ _ B W) as Bp.
  destruct (with_application_result (E := mbus_error) (LongFrame f a payload) payload (Some u) None Bp) as (m & E & Ef & Eu & _); [left; eauto|].
  assert (Ew : mbus_wired_try_from (env_config env) data = Ok m).
  { unfold mbus_wired_try_from. rewrite (proj2 (wired_ok_iff (env_config env) _ _) W). cbn [map_err bind]. exact E. }
  pose proof (wired_records_block _ _ _ _ Ew Eu) as Er. unfold render_from_bytes. rewrite Ew, Eu, Er. reflexivity.
Qed.
Lemma render_air env powi data w fr :
  bytes_ok data -> not_wired data -> received data w -> wireless_meaning w fr ->
  exists m, md_frame m = fr /\ (forall key, render_from_bytes env powi data key = render_wireless env powi m key) /\
    (forall u, app_meaning (wf_data fr) u -> md_user_data m = Some u /\ md_data_records m = block_of u) /\
    ((forall u, ~ app_meaning (wf_data fr) u) -> md_user_data m = None).
Proof.
  intros B W R Wm. pose proof (received_bytes _ _ B R) as Bw. pose proof (wireless_payload_ok _ _ Bw Wm) as Bp.
  pose proof (wireless_len _ _ Wm) as L. pose proof (received_len _ _ R) as L'.
  destruct (not_wired_error (env_config env) data W) as [e' Ew]; [lia|].
  destruct (received_frame data w fr B Bw R Wm) as (r & out & Es & En).
  assert (T : exists u e, app_result (wf_data fr) u e).
  { destruct (user_data_try_from (wf_data fr)) as [x|e|p] eqn:T.
    - apply dispatch_exact in T; [|exact Bp]. exists (Some x), None. left. eauto.
    - exists None, (Some e). right. eauto.
    - exfalso. apply (dispatch_no_panic _ Bp). exists p. exact T. }
  destruct T as (u & e & T).
  destruct (with_application_result (E := mbus_error) fr (wf_data fr) u e Bp T) as (m & E & Ef & Eu & _).
  assert (Em : mbus_wireless_try_from w = Ok m).
  { unfold mbus_wireless_try_from. rewrite (proj2 (wireless_ok_iff _ _ Bw) Wm). cbn [map_err bind]. exact E. }
  exists m. split; [exact Ef|]. split; [|split].
  - intros key. unfold render_from_bytes. unfold mbus_wired_try_from at 1. rewrite Ew. cbn [map_err bind]. rewrite Es. cbn [map_err bind]. rewrite En, Em.
    reflexivity.
  - intros x A. assert (u = Some x) as ->.
    { destruct T as [(y & A' & -> & _)|(y & T & _)].
      - apply dispatch_exact in A; [|exact Bp]. apply dispatch_exact in A'; [|exact Bp]. congruence.
      - apply dispatch_exact in A; [|exact Bp]. congruence. }
    split; [exact Eu|]. exact (wireless_records_block _ _ _ Em Eu).
  - intros N. destruct T as [(y & A' & _)|(y & _ & -> & _)]; [exfalso; exact (N y A')|exact Eu].
Qed.

(** *** Every document is well-formed *)
Lemma render_items_numbered powi items : forall i out, render_items powi i items = Ok out ->
  exists rs, out = elements powi i rs.
Proof.
  induction items as [|x items IH]; intros i out H; cbn [render_items] in H.
  - apply Ok_inj in H. subst. exists []. reflexivity.
  - destruct x as [r|e|p]; [|exact (IH i out H)|discriminate H].
    apply bind_ok in H. destruct H as (o & E & H). apply Ok_inj in H. subst out.
    destruct (IH _ _ E) as (rs & ->). exists (r :: rs). reflexivity.
Qed.
Lemma render_records_numbered cf powi records body : render_records cf powi records = Ok body ->
  exists rs, body = elements powi 0 rs.
Proof.
  unfold render_records. destruct records as [d|]; intros H.
  - destruct (collect cf _ d) as [items|]; [|discriminate H]. apply map_err_ok in H. exact (render_items_numbered powi items 0 body H).
  - apply Ok_inj in H. subst. exists []. reflexivity.
Qed.
Lemma numbered_order powi rs : forall i k e, nth_error (numbered powi i rs) k = Some e -> fst e = dec (i + N.of_nat k).
Proof.
  induction rs as [|r rs IH]; intros i k e H; cbn [numbered] in H; [destruct k; discriminate H|].
  destruct k as [|k]; cbn [nth_error] in H.
  - injection H as <-. cbn [fst]. f_equal. lia.
  - apply IH in H. rewrite H. f_equal. lia.
Qed.
Lemma numbered_in_order powi rs : in_order (numbered powi 0 rs).
Proof. intros i e H. apply numbered_order in H. rewrite H. apply dec_written. Qed.

Lemma variable_readable cf powi h records out :
  maker_plain (lh_manufacturer h) -> short_bytes (lh_short_tpl_header h) ->
  render_variable cf powi h records = Ok out -> readable_document out.
Proof.
  intros Hm Hs H. destruct (render_variable_shown cf powi h records Hm Hs out H) as (body & Eb & D).
  destruct (render_records_numbered _ _ _ _ Eb) as (rs & ->). do 2 eexists. split; [apply D, elements_shown|apply numbered_in_order].
Qed.
Lemma wireless_readable cf powi id access status signature records out :
  code_plain (mi_manufacturer_code id) -> opt_bytes status signature ->
  render_wireless_variable cf powi id access status signature records = Ok out -> readable_document out.
Proof.
  intros Hm Hs H. destruct (render_wireless_shown cf powi id access status signature records Hm Hs out H) as (body & Eb & D).
  destruct (render_records_numbered _ _ _ _ Eb) as (rs & ->). do 2 eexists. split; [apply D, elements_shown|apply numbered_in_order].
Qed.
Lemma fixed_readable id access status dtu c1 c2 : status < 256 -> readable_document (render_fixed id access status dtu c1 c2).
Proof.
  intros H. do 2 eexists. split; [apply fixed_shown; exact H|]. intros [|[|i]] e E; cbn in E.
  - injection E as <-. apply (dec_written 0).
  - injection E as <-. apply (dec_written 1).
  - destruct i; discriminate E.
Qed.
Lemma optional_readable env powi h u records id key out :
  maker_plain (lh_manufacturer h) -> short_bytes (lh_short_tpl_header h) ->
  render_with_optional_decryption env powi h u records id key = Ok out -> readable_document out.
Proof.
  intros Hm Hs H. unfold render_with_optional_decryption in H.
  destruct (negb _); [exact (variable_readable _ _ _ _ _ Hm Hs H)|].
  destruct key as [k|]; [|exact (variable_readable _ _ _ _ _ Hm Hs H)].
  apply bind_ok in H. destruct H as (d & _ & H). exact (variable_readable _ _ _ _ _ Hm Hs H).
Qed.
Lemma wireless_optional_readable env powi m access status signature key out :
  code_plain (mi_manufacturer_code (wf_manufacturer_id (md_frame m))) -> opt_bytes status signature ->
  render_wireless_with_optional_decryption env powi m access status signature key = Ok out -> readable_document out.
Proof.
  intros Hm Hs H. unfold render_wireless_with_optional_decryption in H.
  destruct (negb _); [exact (wireless_readable _ _ _ _ _ _ _ _ Hm Hs H)|].
  destruct key as [k|]; [|exact (wireless_readable _ _ _ _ _ _ _ _ Hm Hs H)].
  apply bind_ok in H. destruct H as (d & _ & H). exact (wireless_readable _ _ _ _ _ _ _ _ Hm Hs H).
Qed.
Lemma opt_none : opt_bytes None None.
Proof. split; discriminate. Qed.
Lemma air_readable env powi m key out :
  code_plain (mi_manufacturer_code (wf_manufacturer_id (md_frame m))) ->
  (forall u, md_user_data m = Some u -> user_ok u) ->
  render_wireless env powi m key = Ok out -> readable_document out.
Proof.
  intros Hm Hu H. unfold render_wireless in H. destruct (md_user_data m) as [u|] eqn:Eu.
  2:{ exact (wireless_readable _ _ _ _ _ _ _ _ Hm opt_none H). }
  specialize (Hu u eq_refl). destruct u as [s|n access status dtu c1 c2|ell h b|ell h b|ell b]; cbn [user_ok] in Hu.
  - exact (wireless_readable _ _ _ _ _ _ _ _ Hm opt_none H).
  - apply Ok_inj in H. subst out. now apply fixed_readable.
  - destruct Hu as [H1 H2]. exact (optional_readable _ _ _ _ _ _ _ _ H1 H2 H).
  - eapply wireless_optional_readable; [exact Hm| |exact H]. destruct Hu as [H1 H2].
    split; intros s E; destruct (_ && _); try discriminate E; injection E as <-; assumption.
  - exact (wireless_readable _ _ _ _ _ _ _ _ Hm opt_none H).
Qed.
Lemma layers_user {F} p (m : mbus_data F) u : layers (Some p) m -> md_user_data m = Some u -> app_meaning p u.
Proof. intros [(x & A & E & _)|(e & _ & _ & E & _)] H; rewrite E in H; [injection H as <-; exact A|discriminate H]. Qed.
Lemma wired_user_ok cf data m u : bytes_ok data -> mbus_wired_try_from cf data = Ok m -> md_user_data m = Some u -> user_ok u.
Proof.
  intros B E Eu. destruct (wired_data_ok _ _ _ B E) as [W L]. destruct (wired_payload (md_frame m)) as [p|] eqn:P.
  - assert (exists f a, md_frame m = LongFrame f a p) as (f & a & F).
    { destruct (md_frame m); cbn in P; try discriminate P. injection P as <-. eauto. }
    rewrite F in W. exact (meaning_ok _ _ (layers_user _ _ _ L Eu) (wired_payload_ok _ _ _ _ B W)).
  - destruct L as (L & _). congruence.
Qed.
Lemma render_readable env powi data key out : bytes_ok data -> render_from_bytes env powi data key = Ok out -> readable_document out.
Proof.
  intros B H. unfold render_from_bytes in H. destruct (mbus_wired_try_from (env_config env) data) as [m|e|p] eqn:Em; [| |discriminate H].
  - destruct (md_user_data m) as [u|] eqn:Eu; [|discriminate H]. pose proof (wired_user_ok _ _ _ _ B Em Eu) as Hu.
    destruct u as [s|n access status dtu c1 c2|ell h b|ell h b|ell b]; cbn [user_ok] in Hu; try discriminate H.
    + apply Ok_inj in H. subst out. now apply fixed_readable.
    + destruct Hu as [H1 H2]. destruct key as [k|]; [exact (optional_readable _ _ _ _ _ _ _ _ H1 H2 H)|exact (variable_readable _ _ _ _ _ H1 H2 H)].
  - apply bind_ok in H. destruct H as ((s & o) & Es & H). apply map_err_ok in Es.
    pose proof (strip_normalized _ _ _ _ B Es) as Nm. cbv zeta in H.
    set (w := match s with Some d => d | None => data end) in *. pose proof (normalized_bytes _ _ B Nm) as Bw.
    apply bind_ok in H. destruct H as (m & E & H). apply map_err_ok in E.
    destruct (wireless_data w Bw) as (W1 & _). destruct (W1 m E) as [Wm L].
    refine (air_readable env powi m key out (frame_plain _ _ Wm) _ H).
    intros u Eu. exact (meaning_ok _ _ (layers_user _ _ _ L Eu) (wireless_payload_ok _ _ Bw Wm)).
Qed.

(** *** The records shown *)
Lemma variable_shows_block cf powi h block hdr :
  maker_plain (lh_manufacturer h) -> short_bytes (lh_short_tpl_header h) ->
  records_all cf block hdr = records_all cf block None ->
  shown_xml cf powi block (long_fields h) (render_variable cf powi h (Some (records_new block hdr))).
Proof.
  intros Hm Hs Eh. destruct (records_all_decodes cf block None) as (l & E & D). destruct (decodes_shape _ _ _ _ D) as (rs & x & ->).
  pose proof (render_records_of cf powi block hdr rs x (eq_trans Eh E)) as R.
  destruct (render_variable cf powi h (Some (records_new block hdr))) as [out|e|p] eqn:O.
  - destruct (render_variable_shown _ _ _ _ Hm Hs _ O) as (body & Eb & Dc). rewrite R in Eb.
    assert (body = elements powi 0 rs) as -> by (destruct x; try discriminate Eb; apply Ok_inj in Eb; congruence).
    apply (ShownXml cf powi block _ rs (end_items x) out (numbered powi 0 rs)); [exact E| | |].
    + destruct x; [left; reflexivity|right; eexists; reflexivity|discriminate Eb].
    + apply Dc, elements_shown.
    + apply listed_numbered.
  - exfalso. unfold render_variable in O. rewrite R in O. destruct x; discriminate O.
  - unfold render_variable in O. rewrite R in O. destruct x; try discriminate O. cbn [bind] in O. injection O as ->.
    apply (ShownXmlPanic cf powi block _ rs p). exact E.
Qed.
Lemma wireless_shows_block cf powi id access status signature block hdr :
  code_plain (mi_manufacturer_code id) -> opt_bytes status signature ->
  records_all cf block hdr = records_all cf block None ->
  shown_xml cf powi block (link_fields id access status signature)
    (render_wireless_variable cf powi id access status signature (Some (records_new block hdr))).
Proof.
  intros Hm Hs Eh. destruct (records_all_decodes cf block None) as (l & E & D). destruct (decodes_shape _ _ _ _ D) as (rs & x & ->).
  pose proof (render_records_of cf powi block hdr rs x (eq_trans Eh E)) as R.
  destruct (render_wireless_variable cf powi id access status signature (Some (records_new block hdr))) as [out|e|p] eqn:O.
  - destruct (render_wireless_shown _ _ _ _ _ _ _ Hm Hs _ O) as (body & Eb & Dc). rewrite R in Eb.
    assert (body = elements powi 0 rs) as -> by (destruct x; try discriminate Eb; apply Ok_inj in Eb; congruence).
    apply (ShownXml cf powi block _ rs (end_items x) out (numbered powi 0 rs)); [exact E| | |].
    + destruct x; [left; reflexivity|right; eexists; reflexivity|discriminate Eb].
    + apply Dc, elements_shown.
    + apply listed_numbered.
  - exfalso. unfold render_wireless_variable in O. rewrite R in O. destruct x; discriminate O.
  - unfold render_wireless_variable in O. rewrite R in O. destruct x; try discriminate O. cbn [bind] in O. injection O as ->.
    apply (ShownXmlPanic cf powi block _ rs p). exact E.
Qed.
Lemma variable_shows_none cf powi h :
  maker_plain (lh_manufacturer h) -> short_bytes (lh_short_tpl_header h) ->
  exists out, render_variable cf powi h None = Ok out /\ document out = Some (long_fields h, []).
Proof.
  intros Hm Hs. eexists. split; [reflexivity|]. edestruct (render_variable_shown cf powi h None Hm Hs) as (body & Eb & D); [reflexivity|].
  apply Ok_inj in Eb. subst body. apply D, shows_records_nil.
Qed.
Lemma wireless_shows_none cf powi id access status signature :
  code_plain (mi_manufacturer_code id) -> opt_bytes status signature ->
  exists out, render_wireless_variable cf powi id access status signature None = Ok out /\
    document out = Some (link_fields id access status signature, []).
Proof.
  intros Hm Hs. eexists. split; [reflexivity|].
  edestruct (render_wireless_shown cf powi id access status signature None Hm Hs) as (body & Eb & D); [reflexivity|].
  apply Ok_inj in Eb. subst body. apply D, shows_records_nil.
Qed.

(** the slave information of a wireless frame *)
Definition ell_session (ell : option extended_link_layer) : bool :=
  match ell with Some e => is_some (ell_encryption e) | None => false end.
Lemma session_encryption ell : ell_has_encryption ell = ell_session ell.
Proof. destruct ell as [e|]; [|reflexivity]. cbn. destruct (ell_encryption e); reflexivity. Qed.
Definition synthetic (ell : option extended_link_layer) (h : short_tpl_header) : bool :=
  ell_session ell && is_no_encryption (configuration_security_mode (sh_configuration_field h)).
Definition ell_access (ell : option extended_link_layer) : option N :=
  match ell with Some e => Some (ell_access_number e) | None => None end.
Definition air_slave (id : manufacturer_id) (u : option user_data_block) : list (text * text) :=
  match u with
  | Some (VariableLong _ h _) => long_fields h
  | Some (VariableShort ell h _) =>
      link_fields id (if synthetic ell h then ell_access ell else Some (sh_access_number h))
        (if synthetic ell h then None else Some (sh_status h)) (if synthetic ell h then None else Some (sh_configuration_field h))
  | Some (VariableNone ell _) => link_fields id (ell_access ell) None None
  | Some (FixedDataStructure n access status dtu _ _) => fixed_fields n access status dtu
  | _ => link_fields id None None None
  end.
Lemma air_opt_bytes ell h : short_bytes h ->
  opt_bytes (if synthetic ell h then None else Some (sh_status h)) (if synthetic ell h then None else Some (sh_configuration_field h)).
Proof. intros [H1 H2]. split; intros s E; destruct (synthetic ell h); try discriminate E; injection E as <-; assumption. Qed.

(** messages in clear *)
Lemma clear_air env powi m key block u :
  md_user_data m = Some u -> md_data_records m = block_of u -> user_ok u ->
  code_plain (mi_manufacturer_code (wf_manufacturer_id (md_frame m))) ->
  variable_block u = Some block -> (exists mode, security_fields (Some u) = (false, mode, false)) ->
  shown_xml (env_config env) powi block (air_slave (wf_manufacturer_id (md_frame m)) (Some u)) (render_wireless env powi m key).
Proof.
  intros Eu Er Hu Hm V [mode S]. unfold render_wireless. rewrite Eu. unfold block_of in Er. rewrite V in Er. cbn [option_map] in Er.
  destruct u as [s|n access status dtu c1 c2|ell h b|ell h b|ell b]; try discriminate V; cbn [user_ok security_fields variable_block] in *;
    injection V as ->; cbn [air_slave].
  - destruct Hu as [H1 H2]. unfold render_with_optional_decryption.
    rewrite no_encryption_short, negb_involutive in S. injection S as S _. rewrite S. cbn [negb]. rewrite Er. apply variable_shows_block; auto.
  - unfold render_wireless_with_optional_decryption. rewrite Eu. fold (ell_session ell). fold (synthetic ell h). fold (ell_access ell).
    assert (K : ell_session ell = false /\ short_is_encrypted h = false).
    { rewrite no_encryption_short in S. rewrite session_encryption in S.
      destruct (ell_session ell), (short_is_encrypted h); cbn in S; try discriminate S; auto. }
    destruct K as [K1 K2]. rewrite K1, K2. cbn [orb negb]. rewrite Er. apply wireless_shows_block; [exact Hm|now apply air_opt_bytes|reflexivity].
  - fold (ell_access ell). rewrite Er. apply wireless_shows_block; [exact Hm|apply opt_none|reflexivity].
Qed.

Lemma clear_xml env powi data payload id block u key :
  bytes_ok data -> message data payload id -> in_clear payload block -> app_meaning payload u ->
  (id = None -> exists t, payload = 0x72 :: t \/ payload = 0x76 :: t) ->
  exists slave, shown_xml (env_config env) powi block slave (render_from_bytes env powi data key).
Proof.
  intros B M C A L. pose proof (message_bytes _ _ _ B M) as Bp. pose proof (meaning_ok _ _ A Bp) as Hu.
  destruct (clear_fields _ _ C Bp u A) as (V & mode & S & _).
  destruct M as [data f a payload W|data w fr W R Wm].
  - rewrite (render_wired env powi data f a payload u key B W A).
    assert (exists ell h b, u = VariableLong ell h b) as (ell & h & b & ->).
    { destruct (L eq_refl) as (t & [->| ->]); inversion A; subst; try (exfalso; lia); eauto. }
    cbn [variable_block user_ok security_fields] in *. injection V as ->. destruct Hu as [H1 H2].
    exists (long_fields h). unfold block_of. cbn [variable_block option_map]. destruct key as [k|]; [|now apply variable_shows_block].
    unfold render_with_optional_decryption. rewrite no_encryption_short, negb_involutive in S. injection S as S _. rewrite S. cbn [negb].
    now apply variable_shows_block.
  - destruct (render_air env powi data w fr B W R Wm) as (m & Ef & E & Ea & _). destruct (Ea u A) as [Eu Er].
    rewrite E. eexists. apply clear_air; eauto. rewrite Ef. exact (frame_plain _ _ Wm).
Qed.
Lemma wired_unsupported env powi data ci t u key :
  bytes_ok data -> message data (ci :: t) None -> app_meaning (ci :: t) u -> ~ In ci [0x72; 0x73; 0x76; 0x77] ->
  render_from_bytes env powi data key = Err XUnsupportedWired.
Proof.
  intros B M A N. inversion M as [data' f a payload W|]; subst. rewrite (render_wired env powi data f a _ u key B W A).
  assert (N1 : ci <> 0x72 /\ ci <> 0x73 /\ ci <> 0x76 /\ ci <> 0x77) by (cbn [In] in N; lia).
  inversion A; subst; try reflexivity; try (exfalso; lia).
  match goal with W : with_ell _ _ _ |- _ => inversion W; reflexivity end.
Qed.

(** protected messages without a key *)
Lemma protected_air env powi data payload id u :
  bytes_ok data -> message data payload (Some id) -> protected payload -> app_meaning payload u ->
  exists out slave, render_from_bytes env powi data None = Ok out /\ document out = Some (slave, []).
Proof.
  intros B M P A. pose proof (message_bytes _ _ _ B M) as Bp. pose proof (meaning_ok _ _ A Bp) as Hu.
  destruct (protected_fields _ _ P Bp A) as (mode & ell' & S & _).
  inversion M as [|data' w fr W R Wm]; subst.
  destruct (render_air env powi data w fr B W R Wm) as (m & Ef & E & Ea & _). destruct (Ea u A) as [Eu Er]. rewrite E.
  pose proof (frame_plain _ _ Wm) as Hm. rewrite <- Ef in Hm.
  unfold render_wireless. rewrite Eu.
  destruct u as [s|n access status dtu c1 c2|ell h b|ell h b|ell b]; try discriminate S; cbn [user_ok security_fields] in *.
  - rewrite no_encryption_short, negb_involutive in S. injection S as S _ _. unfold render_with_optional_decryption. rewrite S. cbn [negb].
    destruct Hu as [H1 H2]. destruct (variable_shows_none (env_config env) powi h H1 H2) as (out & O & D). eauto.
  - fold (ell_session ell). fold (synthetic ell h). fold (ell_access ell). unfold render_wireless_with_optional_decryption. rewrite Eu.
    fold (ell_session ell).
    assert (K : ell_session ell || short_is_encrypted h = true).
    { rewrite no_encryption_short, session_encryption in S. destruct (ell_session ell), (short_is_encrypted h); cbn in S; try discriminate S; reflexivity. }
    rewrite K. cbn [negb].
    edestruct (wireless_shows_none (env_config env) powi (wf_manufacturer_id (md_frame m))
      (if synthetic ell h then ell_access ell else Some (sh_access_number h))) as (out & O & D); [exact Hm|exact (air_opt_bytes ell h Hu)|].
    rewrite O. eauto.
Qed.
Lemma protected_wired env powi data ci i0 i1 i2 i3 m0 m1 v dv acc st c0 c1 block u :
  bytes_ok data -> message data ([ci; i0; i1; i2; i3; m0; m1; v; dv; acc; st; c0; c1] ++ block) None ->
  ci = 0x72 \/ ci = 0x76 -> app_meaning ([ci; i0; i1; i2; i3; m0; m1; v; dv; acc; st; c0; c1] ++ block) u ->
  exists slave, shown_xml (env_config env) powi block slave (render_from_bytes env powi data None).
Proof.
  intros B M Hc A. inversion M as [data' f a payload W|]; subst. pose proof (message_bytes _ _ _ B M) as Bp.
  pose proof (meaning_ok _ _ A Bp) as Hu. rewrite (render_wired env powi data f a _ u None B W A).
  destruct (app_long_inv _ _ _ _ _ _ _ _ _ _ _ _ _ _ _ Hc A) as (h & -> & Hh). destruct Hu as [H1 H2].
  exists (long_fields h). now apply variable_shows_block.
Qed.

(** sealed messages with the right key *)
Lemma sealed_xml env powi enc data link plain cipher key :
  bytes_ok data -> bytes_ok plain -> addressed data link cipher -> sealed (enc key) link plain cipher ->
  inverse_cipher enc (env_aes env) key -> length key = 16%nat ->
  exists head block clear slave,
    cipher = head ++ block /\ plain = head ++ clear /\ len clear = len block /\ encrypted_message cipher block /\
    shown_xml (env_config env) powi clear slave (render_from_bytes env powi data (Some key)).
Proof.
  intros B Bpl Ad S Hinv Hk. destruct (addressed_message _ _ _ B Ad) as (Bl & id & M & Hid).
  pose proof (message_bytes _ _ _ B M) as Bc. pose proof (message_len _ _ _ B M) as Lc.
  destruct (sealed_meaning _ _ _ _ S Bc) as [u A]. pose proof (proj2 (dispatch_exact _ _ Bc) A) as T. pose proof (meaning_ok _ _ A Bc) as Hu.
  destruct (with_key_sealed_in enc (env_aes env) link plain cipher u id key (repeat 0 512) S)
    as (head & block & clear & out & Ec & Ep & Lb & Nb & Vb & Ku & Ed); try assumption.
  { intros m0 m1 i0 i1 i2 i3 v d id' El Hi. eapply Hid; [exact El|exact Hi|]. destruct S; cbn [app]; eauto. }
  exists head, block, clear.
  assert (Em : encrypted_message cipher block).
  { apply (encrypted_parse cipher u); [exact Bc|exact A|]. destruct Ku as [(h & -> & _ & K)|(h & -> & K)]; eauto 6. }
  apply with_key_user in Ed.
  assert (Xd : xml_decrypt env (Some u) id key = Ok clear).
  { unfold xml_decrypt. cbn [ok_or bind]. rewrite Ed. cbn [map_err bind]. rewrite <- Lb, get_to_app. reflexivity. }
  enough (exists slave, shown_xml (env_config env) powi clear slave (render_from_bytes env powi data (Some key))) as [slave K]
    by (exists slave; auto).
  destruct M as [data f a payload W|data w fr W R Wm].
  - rewrite (render_wired env powi data f a payload u _ B W A).
    destruct Ku as [(h & -> & K1 & K2)|(h & -> & K)].
    + cbn [user_ok] in Hu. destruct Hu as [H1 H2]. exists (long_fields h). unfold render_with_optional_decryption.
      unfold long_is_encrypted in K2. rewrite K2. cbn [negb]. rewrite Xd. cbn [bind]. apply variable_shows_block; [assumption..|].
      now apply records_without_header.
    + exfalso. destruct S; [inversion A; subst; lia|].
      inversion Ad as [|? ? ? ? ? ? L' W' R' Wm']; subst; [discriminate|]. exact (W' _ W).
  - destruct (render_air env powi data w fr B W R Wm) as (m & Ef & E & Ea & _). destruct (Ea u A) as [Eu Er]. rewrite E.
    pose proof (frame_plain _ _ Wm) as Hm. unfold render_wireless. rewrite Eu, Ef.
    destruct Ku as [(h & -> & K1 & K2)|(h & -> & K)]; cbn [user_ok] in Hu.
    + destruct Hu as [H1 H2]. exists (long_fields h). unfold render_with_optional_decryption.
      unfold long_is_encrypted in K2. rewrite K2. cbn [negb]. rewrite Xd. cbn [bind]. apply variable_shows_block; [assumption..|].
      now apply records_without_header.
    + eexists. unfold render_wireless_with_optional_decryption. rewrite Eu, Ef, K. rewrite orb_true_r. cbn [negb]. rewrite Xd. cbn [bind].
      apply wireless_shows_block; [exact Hm| |reflexivity]. exact (air_opt_bytes None h Hu).
Qed.

(** *** The slave information *)
Lemma hex2_digits b : b < 256 -> two_digits (hex2 b) b.
Proof.
  intros H. assert (L : b / 16 < 16) by (apply N.div_lt_upper_bound; lia). assert (L' : b mod 16 < 16) by (apply N.mod_lt; discriminate).
  assert (G : forall d, d < 16 -> hex_digit (hex_digit_upper d) d).
  { intros d Hd. unfold hex_digit, hex_digit_upper. destruct (N.ltb_spec d 10); lia. }
  exists (hex_digit_upper (b / 16)), (b / 16), (hex_digit_upper (b mod 16)), (b mod 16).
  split; [reflexivity|]. split; [now apply G|]. split; [now apply G|]. apply N.div_mod. discriminate.
Qed.
Lemma status_compact b : b < 256 -> compact (hex2 b) [b].
Proof. intros H. rewrite <- (app_nil_r (hex2 b)). constructor; [now apply hex2_digits|constructor]. Qed.
Lemma signature_compact c0 c1 : c0 < 256 -> c1 < 256 -> compact (signature_text (c0 + 256 * c1)) [c1; c0].
Proof.
  intros H0 H1. unfold signature_text.
  assert ((c0 + 256 * c1) / 256 = c1) as -> by (symmetry; apply (N.div_unique _ _ _ c0); lia).
  assert ((c0 + 256 * c1) mod 256 = c0) as -> by (symmetry; apply (N.mod_unique _ _ c1); lia).
  constructor; [now apply hex2_digits|now apply status_compact].
Qed.
Lemma media_ok : forallb (fun x => text_eqb (blanked (medium_lookup (fst x))) (snd x)) media = true.
Proof. vm_compute. reflexivity. Qed.
Lemma media_names d name : In (d, name) media -> blanked (medium_lookup d) = name.
Proof.
  intros H. pose proof (proj1 (forallb_forall _ _) media_ok _ H) as E. cbn [fst snd] in E. apply TextFacts.text_eqb_ok in E. exact E.
Qed.
Lemma maker_texts id m : manufacturer_read id m -> manufacturer_text id (maker_text m).
Proof.
  intros [(a & b & c & Ha & Hb & Hc & E & ->)|[H ->]]; [left; exists a, b, c; auto|right; auto].
Qed.
Lemma device_byte d : d < 256 -> device_type_to_u8 (device_code d) = d.
Proof. intros H. rewrite <- device_table by exact H. now apply CoreFacts.device_type_lossless. Qed.

Lemma number_limit b0 b1 b2 b3 n : bcd_number [b0; b1; b2; b3] n -> n < 100000000.
Proof.
  intros (ds & S & ->). do 8 (destruct ds as [|? ds]; [cbn in S; tauto|]). destruct ds as [|? [|]]; cbn in S; try tauto.
  cbn [CoreSpec.decimal]. lia.
Qed.
Lemma product_shown b0 b1 b2 b3 n maker v d : bcd_number [b0; b1; b2; b3] n -> v < 256 -> product_text maker v d n (blanked (product_name maker v d n)).
Proof.
  intros Hn Hv. pose proof (product_named maker v d n Hv (number_limit _ _ _ _ _ Hn)) as P. now rewrite (product_blanked _ _ _ _ _ P).
Qed.
Lemma long_meter ci i0 i1 i2 i3 m0 m1 v d acc st c0 c1 h :
  v < 256 -> d < 256 -> st < 256 -> c0 < 256 -> c1 < 256 -> long_header ci [i0; i1; i2; i3] m0 m1 v d acc st c0 c1 h ->
  exists f1 f2, long_fields h = f1 ++ f2 /\
    meter_fields (if ci =? 0x76 then [i3; i2; i1; i0] else [i0; i1; i2; i3]) (m0 + 256 * m1) v d f1 /\
    header_fields (Some acc) (Some st) (Some (c0, c1)) f2.
Proof.
  intros Lv Hd Hs H0 H1 (Hn & Hm & Hv & Ht & Hh & _). unfold long_fields. rewrite Hh, Ht, device_byte, Hv by exact Hd. cbv zeta.
  eexists [_; _; _; _; _], _. split; [reflexivity|]. split.
  - exists (lh_identification_number h). do 5 eexists. split; [|split; [|split; [|split; [|split; [|split; [|reflexivity]]]]]].
    + destruct (ci =? 0x76); exact Hn.
    + apply dec_written.
    + exact (maker_texts _ _ Hm).
    + apply dec_written.
    + destruct (ci =? 0x76); eapply product_shown; try exact Hn; exact Lv.
    + intros name Hin. exact (media_names _ _ Hin).
  - eexists [_], [_], [_]. split; [reflexivity|]. split; [|split].
    + eexists. split; [|reflexivity]. apply dec_written.
    + eexists. split; [|reflexivity]. now apply status_compact.
    + eexists. split; [|reflexivity]. cbn [short_header sh_configuration_field]. now apply signature_compact.
Qed.

Lemma variable_slave cf powi h records out :
  maker_plain (lh_manufacturer h) -> short_bytes (lh_short_tpl_header h) ->
  render_variable cf powi h records = Ok out -> exists es, document out = Some (long_fields h, es).
Proof.
  intros Hm Hs H. destruct (render_variable_shown cf powi h records Hm Hs out H) as (body & Eb & D).
  destruct (render_records_numbered _ _ _ _ Eb) as (rs & ->). eexists. apply D, elements_shown.
Qed.
Lemma wireless_slave cf powi id access status signature records out :
  code_plain (mi_manufacturer_code id) -> opt_bytes status signature ->
  render_wireless_variable cf powi id access status signature records = Ok out ->
  exists es, document out = Some (link_fields id access status signature, es).
Proof.
  intros Hm Hs H. destruct (render_wireless_shown cf powi id access status signature records Hm Hs out H) as (body & Eb & D).
  destruct (render_records_numbered _ _ _ _ Eb) as (rs & ->). eexists. apply D, elements_shown.
Qed.
Lemma optional_slave env powi h u records id key out :
  maker_plain (lh_manufacturer h) -> short_bytes (lh_short_tpl_header h) ->
  render_with_optional_decryption env powi h u records id key = Ok out -> exists es, document out = Some (long_fields h, es).
Proof.
  intros Hm Hs H. unfold render_with_optional_decryption in H.
  destruct (negb _); [exact (variable_slave _ _ _ _ _ Hm Hs H)|].
  destruct key as [k|]; [|exact (variable_slave _ _ _ _ _ Hm Hs H)].
  apply bind_ok in H. destruct H as (d & _ & H). exact (variable_slave _ _ _ _ _ Hm Hs H).
Qed.
Lemma wireless_optional_slave env powi m access status signature key out :
  code_plain (mi_manufacturer_code (wf_manufacturer_id (md_frame m))) -> opt_bytes status signature ->
  render_wireless_with_optional_decryption env powi m access status signature key = Ok out ->
  exists es, document out = Some (link_fields (wf_manufacturer_id (md_frame m)) access status signature, es).
Proof.
  intros Hm Hs H. unfold render_wireless_with_optional_decryption in H.
  destruct (negb _); [exact (wireless_slave _ _ _ _ _ _ _ _ Hm Hs H)|].
  destruct key as [k|]; [|exact (wireless_slave _ _ _ _ _ _ _ _ Hm Hs H)].
  apply bind_ok in H. destruct H as (d & _ & H). exact (wireless_slave _ _ _ _ _ _ _ _ Hm Hs H).
Qed.
Lemma air_document env powi m key out :
  code_plain (mi_manufacturer_code (wf_manufacturer_id (md_frame m))) ->
  (forall u, md_user_data m = Some u -> user_ok u) ->
  render_wireless env powi m key = Ok out ->
  exists es, document out = Some (air_slave (wf_manufacturer_id (md_frame m)) (md_user_data m), es).
Proof.
  intros Hm Hu H. unfold render_wireless in H. destruct (md_user_data m) as [u|] eqn:Eu.
  2:{ exact (wireless_slave _ _ _ _ _ _ _ _ Hm opt_none H). }
  specialize (Hu u eq_refl). destruct u as [s|n access status dtu c1 c2|ell h b|ell h b|ell b]; cbn [user_ok air_slave] in *.
  - exact (wireless_slave _ _ _ _ _ _ _ _ Hm opt_none H).
  - apply Ok_inj in H. subst out. eexists. now apply fixed_shown.
  - destruct Hu as [H1 H2]. exact (optional_slave _ _ _ _ _ _ _ _ H1 H2 H).
  - exact (wireless_optional_slave env powi m _ _ _ key out Hm (air_opt_bytes ell h Hu) H).
  - exact (wireless_slave _ _ _ _ _ _ _ _ Hm opt_none H).
Qed.

Lemma long_slave env powi data link ci i0 i1 i2 i3 m0 m1 v dv acc st c0 c1 block key out :
  bytes_ok data -> ci = 0x72 \/ ci = 0x76 ->
  addressed data link ([ci; i0; i1; i2; i3; m0; m1; v; dv; acc; st; c0; c1] ++ block) ->
  (exists u, app_meaning ([ci; i0; i1; i2; i3; m0; m1; v; dv; acc; st; c0; c1] ++ block) u) ->
  render_from_bytes env powi data key = Ok out ->
  exists f1 f2 es, document out = Some (f1 ++ f2, es) /\
    meter_fields (if ci =? 0x76 then [i3; i2; i1; i0] else [i0; i1; i2; i3]) (m0 + 256 * m1) v dv f1 /\
    header_fields (Some acc) (Some st) (Some (c0, c1)) f2.
Proof.
  intros B Hc Ad (u & A) H. destruct (addressed_message _ _ _ B Ad) as (_ & id & M & _).
  pose proof (message_bytes _ _ _ B M) as Bp. pose proof (meaning_ok _ _ A Bp) as Hu.
  destruct (app_long_inv _ _ _ _ _ _ _ _ _ _ _ _ _ _ _ Hc A) as (h & -> & Hh).
  assert (D : exists es, document out = Some (long_fields h, es)).
  { inversion M as [data' f a payload W|data' w fr W R Wm]; subst.
    - rewrite (render_wired env powi data f a _ _ key B W A) in H. destruct Hu as [H1 H2].
      destruct key as [k|]; [exact (optional_slave _ _ _ _ _ _ _ _ H1 H2 H)|exact (variable_slave _ _ _ _ _ H1 H2 H)].
    - destruct (render_air env powi data w fr B W R Wm) as (m & Ef & E & Ea & _).
      match goal with K : wf_data fr = _ |- _ => rewrite K in Ea end. destruct (Ea _ A) as [Eu _].
      rewrite E in H. destruct (air_document env powi m key out) as (es & D).
      + rewrite Ef. exact (frame_plain _ _ Wm).
      + intros u' Eu'. rewrite Eu in Eu'. injection Eu' as <-. exact Hu.
      + exact H.
      + rewrite Eu in D. eauto. }
  destruct D as (es & D). cbn [app] in Bp. bytes_split Bp.
  destruct (long_meter ci i0 i1 i2 i3 m0 m1 v dv acc st c0 c1 h) as (f1 & f2 & Ef & F1 & F2); try assumption.
  rewrite Ef in D. eauto 6.
Qed.

(** the transport fields of messages without a long header *)
Inductive transports : user_data_block -> option N -> option N -> option (N * N) -> Prop :=
| TsShort ell acc st c0 c1 b : ell_session ell = false ->
    transports (VariableShort ell (short_header acc st c0 c1) b) (Some acc) (Some st) (Some (c0, c1))
| TsNone b : transports (VariableNone None b) None None None
| TsEll e b : transports (VariableNone (Some e) b) (Some (ell_access_number e)) None None
| TsSession e h b : synthetic (Some e) h = true -> transports (VariableShort (Some e) h b) (Some (ell_access_number e)) None None.
Lemma below_none rest message : below_ell rest message -> forall block u, message = 0x78 :: block -> app_meaning rest u ->
  exists ell, u = VariableNone ell block.
Proof.
  induction 1 as [message|cc acc rest message H IH]; intros block u E A.
  - subst. apply app_none_inv in A. eauto.
  - destruct (app_ell_inv _ _ _ _ A) as (u' & A' & W). destruct (IH _ _ E A') as (ell & ->). inversion W; subst. eauto.
Qed.
Lemma transport_ok p acc st config : transport p acc st config -> bytes_ok p -> forall u, app_meaning p u -> transports u acc st config.
Proof.
  induction 1 as [ci acc st c0 c1 block Hc|x acc st c0 c1 block|block|cc acc rest acc' st config H IH|cc acc rest block H
    |cc acc s0 s1 s2 s3 p0 p1 block|cc acc m0 m1 a0 a1 a2 a3 a4 a5 s0 s1 s2 s3 p0 p1 block]; intros B u A.
  - rewrite (app_short_inv _ _ _ _ _ _ _ Hc A). now constructor.
  - rewrite (app_a0_inv _ _ _ _ _ _ _ A). now constructor.
  - rewrite (app_none_inv _ _ A). constructor.
  - destruct (app_ell_inv _ _ _ _ A) as (u' & A' & W). cbn [app] in B. bytes_split B.
    assert (Br : bytes_ok rest) by assumption. specialize (IH Br u' A'). inversion IH; subst; inversion W; subst. now constructor.
  - destruct (app_ell_inv _ _ _ _ A) as (u' & A' & W). destruct (below_none _ _ H _ _ eq_refl A') as (ell & ->).
    inversion W; subst. apply (TsEll (ell_i cc acc)).
  - cbn [app] in A. inversion A; subst; try (exfalso; lia). apply (TsSession (ell_ii cc acc [s0; s1; s2; s3] p0 p1)). reflexivity.
  - cbn [app] in A. inversion A; subst; try (exfalso; lia).
    apply (TsSession (ell_iii cc acc m0 m1 [a0; a1; a2; a3; a4; a5] [s0; s1; s2; s3] p0 p1)). reflexivity.
Qed.
Lemma transport_bytes p acc st config : transport p acc st config -> bytes_ok p ->
  (forall s, st = Some s -> s < 256) /\ (forall c0 c1, config = Some (c0, c1) -> c0 < 256 /\ c1 < 256).
Proof.
  induction 1; intros B; cbn [app] in B; bytes_split B; split; intros;
    repeat match goal with K : Some _ = Some _ |- _ => injection K as K; subst | K : None = Some _ |- _ => discriminate K end; auto.
  - destruct (IHtransport ltac:(assumption)) as [I _]. auto.
  - destruct (IHtransport ltac:(assumption)) as [_ I]. apply I. congruence.
Qed.
Lemma transport_head p acc st config : transport p acc st config -> exists ci t, p = ci :: t /\ ~ In ci [0x72; 0x73; 0x76; 0x77].
Proof. destruct 1; cbn [app]; do 2 eexists; (split; [reflexivity|cbn [In]; lia]). Qed.

Lemma link_meter m0 m1 i0 i1 i2 i3 v d ci id : v < 256 -> d < 256 -> identity m0 m1 i0 i1 i2 i3 v d ci id ->
  meter_fields [i0; i1; i2; i3] (m0 + 256 * m1) v (if andb (0xA0 <=? ci) (ci <=? 0xAF) then d / 16 else d)
    (firstn 5 (link_fields id None None None)).
Proof.
  intros Lv Hd (Ha & Hb & Hc & Hm & Hn & Hv & Ht & _). unfold link_fields. cbn [firstn app opt_fields]. cbv zeta. rewrite Hv, Ht.
  rewrite CoreFacts.device_type_lossless.
  2:{ destruct (_ && _); [|exact Hd]. apply N.div_lt_upper_bound; lia. }
  exists (mi_identification_number id). do 5 eexists. split; [|split; [|split; [|split; [|split; [|split; [|reflexivity]]]]]].
  - exact Hn.
  - apply dec_written.
  - left. exists (mc1 (mi_manufacturer_code id)), (mc2 (mi_manufacturer_code id)), (mc3 (mi_manufacturer_code id)). auto.
  - apply dec_written.
  - eapply product_shown; [exact Hn|exact Lv].
  - intros name Hin. exact (media_names _ _ Hin).
Qed.
Lemma transports_slave id u acc st config : transports u acc st config ->
  (forall s, st = Some s -> s < 256) -> (forall c0 c1, config = Some (c0, c1) -> c0 < 256 /\ c1 < 256) ->
  exists f2, air_slave id (Some u) = firstn 5 (link_fields id None None None) ++ f2 /\ header_fields acc st config f2.
Proof.
  intros T Hs Hc. destruct T as [ell acc st c0 c1 b E|b|e b|e h b E]; cbn [air_slave].
  - unfold synthetic. rewrite E. cbn [andb]. eexists. split; [reflexivity|]. eexists [_], [_], [_]. split; [reflexivity|].
    destruct (Hc c0 c1 eq_refl) as [H0 H1]. split; [|split]; (eexists; split; [|reflexivity]).
    + apply dec_written.
    + apply status_compact. auto.
    + now apply signature_compact.
  - eexists. split; [reflexivity|]. exists [], [], []. auto.
  - eexists. split; [reflexivity|]. eexists [_], [], []. split; [reflexivity|]. split; [|auto]. eexists. split; [|reflexivity]. apply dec_written.
  - rewrite E. eexists. split; [reflexivity|]. eexists [_], [], []. split; [reflexivity|]. split; [|auto].
    eexists. split; [|reflexivity]. apply dec_written.
Qed.
Lemma link_version data m0 m1 i0 i1 i2 i3 v dv p : bytes_ok data -> addressed data [m0; m1; i0; i1; i2; i3; v; dv] p -> v < 256.
Proof. intros B Ad. destruct (addressed_message _ _ _ B Ad) as (Bl & _). now bytes_split Bl. Qed.
Lemma link_slave env powi data m0 m1 i0 i1 i2 i3 v dv ci t acc st config key out :
  bytes_ok data -> addressed data [m0; m1; i0; i1; i2; i3; v; dv] (ci :: t) -> transport (ci :: t) acc st config ->
  (exists u, app_meaning (ci :: t) u) -> render_from_bytes env powi data key = Ok out ->
  exists f1 f2 es, document out = Some (f1 ++ f2, es) /\
    meter_fields [i0; i1; i2; i3] (m0 + 256 * m1) v (if andb (0xA0 <=? ci) (ci <=? 0xAF) then dv / 16 else dv) f1 /\
    header_fields acc st config f2.
Proof.
  intros B Ad T (u & A) H. destruct (addressed_link _ _ _ _ _ _ _ _ _ _ B Ad) as (id & ci' & t' & M & Hid & Hd & E).
  assert (ci' = ci) as -> by (destruct E as [E|E]; [injection E as -> _; reflexivity|discriminate E]).
  pose proof (message_bytes _ _ _ B M) as Bp. pose proof (meaning_ok _ _ A Bp) as Hu.
  inversion M as [|data' w fr W R Wm]; subst.
  destruct (render_air env powi data w fr B W R Wm) as (m & Ef & E' & Ea & _).
  match goal with K : wf_data fr = _ |- _ => rewrite K in Ea end. destruct (Ea _ A) as [Eu _].
  rewrite E' in H. destruct (air_document env powi m key out) as (es & D).
  { rewrite Ef. exact (frame_plain _ _ Wm). }
  { intros u' Eu'. rewrite Eu in Eu'. injection Eu' as <-. exact Hu. }
  { exact H. }
  rewrite Eu, Ef in D. destruct (transport_bytes _ _ _ _ T Bp) as [Ts Tc].
  destruct (transports_slave (wf_manufacturer_id fr) u acc st config (transport_ok _ _ _ _ T Bp u A) Ts Tc) as (f2 & F & F2).
  rewrite F in D. do 3 eexists. split; [exact D|]. split; [exact (link_meter _ _ _ _ _ _ _ _ _ _ (link_version _ _ _ _ _ _ _ _ _ _ B Ad) Hd Hid)|exact F2].
Qed.
(** a message that cannot be read shows the meter alone *)
Lemma unread_slave env powi data m0 m1 i0 i1 i2 i3 v dv ci t key :
  bytes_ok data -> addressed data [m0; m1; i0; i1; i2; i3; v; dv] (ci :: t) -> (forall u, ~ app_meaning (ci :: t) u) ->
  exists out f1, render_from_bytes env powi data key = Ok out /\ document out = Some (f1, []) /\
    meter_fields [i0; i1; i2; i3] (m0 + 256 * m1) v (if andb (0xA0 <=? ci) (ci <=? 0xAF) then dv / 16 else dv) f1.
Proof.
  intros B Ad A. destruct (addressed_link _ _ _ _ _ _ _ _ _ _ B Ad) as (id & ci' & t' & M & Hid & Hd & E).
  assert (ci' = ci) as -> by (destruct E as [E|E]; [injection E as -> _; reflexivity|discriminate E]).
  inversion M as [|data' w fr W R Wm]; subst.
  destruct (render_air env powi data w fr B W R Wm) as (m & Ef & E' & _ & Ea).
  match goal with K : wf_data fr = _ |- _ => rewrite K in Ea end. specialize (Ea A).
  rewrite E'. unfold render_wireless. rewrite Ea, Ef.
  destruct (wireless_shows_none (env_config env) powi (wf_manufacturer_id fr) None None None (frame_plain _ _ Wm) opt_none) as (out & O & D).
  do 2 eexists. split; [exact O|]. split; [exact D|]. exact (link_meter _ _ _ _ _ _ _ _ _ _ (link_version _ _ _ _ _ _ _ _ _ _ B Ad) Hd Hid).
Qed.
