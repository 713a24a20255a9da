(** Facts about decoding frames for display: errors, panics, options and identities. *)
From Coq Require Import List NArith ZArith Lia Bool String.
Import ListNotations.
From Verif Require Import Model.Base Model.Text Model.Core Model.Wired Model.Wireless Model.DataInfo Model.ValueInfo Model.Record Model.Decrypt
  Model.UserData Model.Hex Model.MbusData Model.Show Model.Output
  Spec.CoreSpec Spec.TextSpec Spec.CrcSpec Spec.WiredSpec Spec.WirelessSpec Spec.DecryptSpec Spec.RecordSpec Spec.AppSpec Spec.AnnotateSpec Spec.MbusSpec Spec.OutputSpec
  Proof.BaseFacts Proof.RecordFacts Proof.WiredFacts Proof.WiredProps Proof.WirelessFacts Proof.FormatAFacts Proof.FormatAProps Proof.IterFacts Proof.PanicFacts
  Proof.AppFacts Proof.AppDecrypt Proof.HexFacts Proof.AnnotateApp Proof.MbusFacts Proof.OutputFacts Proof.OutputRecords.
Open Scope N_scope.

(** ** Building the output *)
Lemma collect_items_cases message items : forall index offset,
  (exists outs re, collect_items message items index offset = Ok (outs, re)) \/
  (exists p, collect_items message items index offset = Panic p /\ In (Panic p) items).
Proof.
  induction items as [|[r|e|p] items IH]; intros index offset; cbn [collect_items].
  - left. eauto.
  - destruct (IH (index + 1) (offset + len (dr_raw_bytes r))) as [(outs & re & ->)|(p & -> & K)]; cbn [bind].
    + left. eauto.
    + right. exists p. split; [reflexivity|]. right. exact K.
  - left. eauto.
  - right. exists p. split; [reflexivity|]. left. reflexivity.
Qed.
Lemma collect_records_cases env block hdr :
  (exists outs re, collect_records env (Some (records_new block hdr)) = Ok (outs, re)) \/
  (exists items p, collect_records env (Some (records_new block hdr)) = Panic p /\
     records_all (env_config env) block hdr = Some items /\ In (Panic p) items).
Proof.
  destruct (records_all_decodes (env_config env) block hdr) as (items & E & _).
  unfold collect_records, records_all in *. cbn [rs_data records_new] in *. rewrite E.
  destruct (collect_items_cases (env_record_message env) items 0 0) as [H|(p & H & K)]; [left; exact H|].
  right. exists items, p. auto.
Qed.
(** the records are none, or those of a block *)
Definition of_block (rs : option data_records) : Prop :=
  rs = None \/ exists block hdr, rs = Some (records_new block hdr).
Lemma build_output_cases env pr fr o nm st pl u rs ae id sc en : of_block rs ->
  (exists d, build_output env pr fr o nm st pl u rs ae id sc en = Ok d) \/
  (exists block hdr items p, build_output env pr fr o nm st pl u rs ae id sc en = Panic p /\
     rs = Some (records_new block hdr) /\
     records_all (env_config env) block hdr = Some items /\ In (Panic p) items).
Proof.
  intros [->|(block & hdr & ->)]; unfold build_output.
  - left. rewrite collect_none. cbn [bind]. destruct (meter_and_transport u id) as [[? ?] ?]. eauto.
  - destruct (collect_records_cases env block hdr) as [(outs & re & ->)|(items & p & -> & A & K)]; cbn [bind].
    + left. destruct (meter_and_transport u id) as [[? ?] ?]. eauto.
    + right. exists block, hdr, items, p. auto.
Qed.

Lemma decrypted_of_block u x : of_block (decrypted_records u x).
Proof. destruct u as [[]|]; cbn [decrypted_records]; unfold of_block; eauto. Qed.
Lemma with_application_of_block {E F} (fr : F) p m sc : with_application (E := E) fr p = Ok m -> of_block (shown_records m sc).
Proof.
  unfold with_application. destruct (user_data_try_from p) as [x|e|q]; [| |discriminate]; intros H; apply Ok_inj in H; subst m;
    unfold shown_records; cbn [md_user_data md_data_records]; destruct (sc_decrypted_payload sc); try apply decrypted_of_block; destruct (sc_encrypted sc);
    try (left; reflexivity). destruct x; cbn [block_records]; [left; reflexivity|left; reflexivity|right..]; do 2 eexists; reflexivity.
Qed.
Lemma wired_of_block cf data m sc : mbus_wired_try_from cf data = Ok m -> of_block (shown_records m sc).
Proof.
  unfold mbus_wired_try_from. intros H. apply bind_ok in H as (fr & _ & H). destruct fr.
  3: exact (with_application_of_block _ _ _ _ H).
  all: apply Ok_inj in H; subst m; unfold shown_records; cbn [md_user_data md_data_records]; destruct (sc_decrypted_payload sc);
    [apply decrypted_of_block|]; destruct (sc_encrypted sc); left; reflexivity.
Qed.
Lemma wireless_of_block data m sc : mbus_wireless_try_from data = Ok m -> of_block (shown_records m sc).
Proof.
  unfold mbus_wireless_try_from. intros H. apply bind_ok in H as (fr & _ & H). exact (with_application_of_block _ _ _ _ H).
Qed.

(** ** Security *)
Lemma prepare_none aes u id : exists sc, prepare_security aes u id None = Ok sc /\ sc_decrypted_payload sc = None.
Proof.
  unfold prepare_security. destruct (security_fields u) as [[encrypted mode] ell].
  destruct encrypted; cbn [negb]; eexists; split; reflexivity.
Qed.
Lemma cbc_total aes data key iv out p o : decrypt_aes_cbc_into aes data key iv out <> (Panic p, o).
Proof.
  unfold decrypt_aes_cbc_into. repeat (destruct (negb _); [discriminate|]). destruct (len data =? 0); [discriminate|].
  destruct (_ =? 0), (_ <? _); discriminate.
Qed.
Lemma one_key_never m i key ctx kp p : one_key m i key = Ok kp -> kp_get_key kp ctx <> Panic p.
Proof.
  unfold one_key, kp_add_key. cbn. intros H. apply Ok_inj in H. subst kp. unfold kp_get_key.
  cbn [kp_entries kp_count].
  change (index_range [(compute_key_id m i, key)] 0 (0 + 1)) with (Ok (E := decryption_error) [(compute_key_id m i, key)]).
  cbn [bind]. match goal with |- context [find ?f ?l] => destruct (find f l) as [[? ?]|] end; discriminate.
Qed.
Lemma into_total aes get_key block c out p o : get_key c <> Panic p -> decrypt_into aes get_key block c out <> (Panic p, o).
Proof.
  unfold decrypt_into. intros K. destruct (get_key c) as [k|e|q]; [|discriminate|congruence].
  destruct (kc_security_mode c); try discriminate; try apply cbc_total. destruct (_ <? _); discriminate.
Qed.
Lemma decrypt_user_total aes u id key out p o : decrypt_user_data aes u id key out <> (Panic p, o).
Proof.
  unfold decrypt_user_data. destruct u as [?|? ? ? ? ? ?|ell h b|ell h b|ell b]; try discriminate.
  - destruct (lh_manufacturer h) as [m| |] eqn:Em; try discriminate.
    destruct (one_key _ _ key) as [kp|e|q] eqn:Ek; [|discriminate|].
    + unfold decrypt_variable_data. destruct (negb _); [discriminate|]. rewrite Em.
      apply into_total. eapply one_key_never. exact Ek.
    + destruct (one_key_total (mc_to_id m) (lh_identification_number h) key) as [kp K]. rewrite Ek in K. discriminate K.
  - destruct (is_no_encryption _); [discriminate|]. destruct id as [id|]; [|discriminate].
    destruct (one_key _ _ key) as [kp|e|q] eqn:Ek; [|discriminate|].
    + unfold decrypt_variable_data_with_context. destruct (negb _); [discriminate|].
      apply into_total. eapply one_key_never. exact Ek.
    + destruct (one_key_total (mc_to_id (mi_manufacturer_code id)) (mi_identification_number id) key) as [kp K].
      rewrite Ek in K. discriminate K.
Qed.
Lemma prepare_cases aes u id key :
  (exists sc, prepare_security aes u id key = Ok sc) \/
  (exists code, prepare_security aes u id key = Err (ODecryption code) /\ key <> None /\ fst (fst (security_fields u)) = true).
Proof.
  destruct key as [key|]; [|destruct (prepare_none aes u id) as (sc & E & _); left; eauto].
  unfold prepare_security. destruct (security_fields u) as [[encrypted mode] ell] eqn:Sf.
  destruct encrypted; cbn [negb]; [|left; eauto].
  destruct (ell && negb (is_some mode)); [right; eexists; repeat split; discriminate|].
  destruct u as [u|]; [|discriminate Sf]. cbn [ok_or bind].
  destruct (decrypt_user_data aes u id key (repeat 0 512)) as [[n|e|p] o] eqn:E; cbn [map_err bind].
  - destruct (get_to o n); cbn [ok_or bind]; [left; eauto|right; eexists; repeat split; discriminate].
  - right; eexists; repeat split; discriminate.
  - destruct (decrypt_user_total _ _ _ _ _ _ _ E).
Qed.

(** ** Frames and errors *)
(** [data] is a frame: wired, or wireless as it is or in Format A *)
Lemma frame_is_decoded env data enrich e : bytes_ok data -> readable data -> decode_bytes env data None enrich <> Err e.
Proof.
  intros B R H. unfold decode_bytes in H.
  destruct R as [data fr W|data w fr W R Wm].
  - destruct data as [|b data]; [inversion W|].
    destruct (wired_data_total (env_config env) _ _ B W) as (m & Em & _). rewrite Em in H.
    destruct (prepare_none (env_aes env) (md_user_data m) None) as (sc & E & _). rewrite E in H. cbn [bind] in H.
    pose proof (wired_of_block _ _ _ sc Em) as K. unfold build_wired_output in H.
    destruct (md_frame m);
      (edestruct build_output_cases as [(d & K')|(bl & hd & it & p & K' & _)]; [exact K|rewrite K' in H; discriminate H..]).
  - pose proof (received_bytes _ _ B R) as Bw. pose proof (wireless_len _ _ Wm) as L. pose proof (received_len _ _ R) as L'.
    destruct (not_wired_error (env_config env) data W) as [e' Ew]; [lia|].
    destruct data as [|b data]; [change (len []) with 0 in L'; lia|].
    unfold mbus_wired_try_from in H. rewrite Ew in H. cbn [map_err bind] in H.
    destruct (received_frame _ w fr B Bw R Wm) as (r & out & Es & En). rewrite Es in H. cbn [map_err bind] in H. rewrite En in H.
    destruct (wireless_data w Bw) as (_ & W2 & _). destruct (W2 fr Wm) as (m & Em & _). rewrite Em in H.
    destruct (prepare_none (env_aes env) (md_user_data m) (Some (wf_manufacturer_id (md_frame m)))) as (sc & E & _).
    rewrite E in H. cbn [bind] in H. pose proof (wireless_of_block _ _ sc Em) as K. unfold build_wireless_output in H.
    edestruct build_output_cases as [(d & K')|(bl & hd & it & p & K' & _)]; [exact K|rewrite K' in H; discriminate H..].
Qed.

Lemma decode_error env data key enrich e : bytes_ok data -> decode_bytes env data key enrich = Err e ->
  (data = [] /\ e = OEmptyInput) \/
  (exists a b, e = OInvalidFrame a b /\ data <> [] /\ ~ readable data) \/
  (exists code, e = ODecryption code /\ key <> None).
Proof.
  intros B H. assert (H' := H). unfold decode_bytes in H. destruct data as [|b data]; [left; injection H as <-; auto|].
  assert (Nn : forall a c, (exists key', decode_bytes env (b :: data) key' enrich = Err (OInvalidFrame a c)) ->
     decode_bytes env (b :: data) None enrich = Err (OInvalidFrame a c)).
  { intros a c [key' K]. unfold decode_bytes in *.
    destruct (mbus_wired_try_from (env_config env) (b :: data)) as [m|we|p] eqn:Em; [|..].
    - exfalso. destruct (prepare_cases (env_aes env) (md_user_data m) None key') as [(sc & E)|(code & E & _)]; rewrite E in K;
        cbn [bind] in K; [|discriminate K].
      unfold build_wired_output in K. pose proof (wired_of_block _ _ _ sc Em) as Kb.
      destruct (md_frame m);
        (edestruct build_output_cases as [(d & K')|(bl & hd & it & p & K' & _)]; [exact Kb|rewrite K' in K; discriminate K..]).
    - destruct (map_err (fun _ => OFuel) (strip_format_a_crcs (b :: data) (repeat 0 512))) as [[s out]|x|p]; cbn [bind] in *; try exact K.
      destruct (mbus_wireless_try_from _) as [m|x|p] eqn:Em2; [|exact K..].
      exfalso. destruct (prepare_cases (env_aes env) (md_user_data m) (Some (wf_manufacturer_id (md_frame m))) key')
        as [(sc & E)|(code & E & _)]; rewrite E in K; cbn [bind] in K; [|discriminate K].
      unfold build_wireless_output in K. pose proof (wireless_of_block _ _ sc Em2) as Kb.
      edestruct build_output_cases as [(d & K')|(bl & hd & it & p & K' & _)]; [exact Kb|rewrite K' in K; discriminate K..].
    - discriminate K. }
  right. destruct (mbus_wired_try_from (env_config env) (b :: data)) as [m|we|p] eqn:Em; [|..].
  - right. destruct (prepare_cases (env_aes env) (md_user_data m) None key) as [(sc & E)|(code & E & Hk & _)]; rewrite E in H; cbn [bind] in H.
    + exfalso. unfold build_wired_output in H. pose proof (wired_of_block _ _ _ sc Em) as K.
      destruct (md_frame m);
        (edestruct build_output_cases as [(d & K')|(bl & hd & it & p & K' & _)]; [exact K|rewrite K' in H; discriminate H..]).
    + injection H as <-. eauto.
  - assert (Es : exists s out, strip_format_a_crcs (b :: data) (repeat 0 512) = Ok (s, out)).
    { destruct (strip_cases (b :: data) (repeat 0 512) B) as [(E & _)|(? & ? & ? & ? & ? & _ & _ & _ & _ & _ & E)]; eauto. }
    destruct Es as (s & out & Es). rewrite Es in H. cbn [map_err bind] in H.
    destruct (mbus_wireless_try_from _) as [m|x|p] eqn:Em2; [|..].
    + right. destruct (prepare_cases (env_aes env) (md_user_data m) (Some (wf_manufacturer_id (md_frame m))) key)
        as [(sc & E)|(code & E & Hk & _)]; rewrite E in H; cbn [bind] in H.
      * exfalso. unfold build_wireless_output in H. pose proof (wireless_of_block _ _ sc Em2) as K.
        edestruct build_output_cases as [(d & K')|(bl & hd & it & p & K' & _)]; [exact K|rewrite K' in H; discriminate H..].
      * injection H as <-. eauto.
    + left. injection H as <-. do 2 eexists. split; [reflexivity|]. split; [discriminate|].
      intros R. eapply (frame_is_decoded env _ enrich); [exact B|exact R|]. apply Nn. eexists. exact H'.
    + discriminate H.
  - discriminate H.
Qed.

(** ** Panics *)
Lemma wired_mbus_panic cf data p : bytes_ok data -> mbus_wired_try_from cf data = Panic p -> is_panic (wired_try_from cf data).
Proof.
  intros B H. unfold mbus_wired_try_from in H. destruct (wired_try_from cf data) as [fr|e|q] eqn:E; cbn [map_err bind] in H;
    [|discriminate H|eexists; reflexivity].
  exfalso. destruct fr; try discriminate H. apply wired_ok_iff in E. pose proof (wired_payload_ok _ _ _ _ B E) as Bp.
  destruct (with_application_total (E := mbus_error) (LongFrame f a data0) data0 Bp) as [m K]. congruence.
Qed.

Lemma strips_bytes e c : strips e c -> bytes_ok e -> bytes_ok c.
Proof.
  induction 1; intros B; [exact B|]. rewrite !bytes_ok_app in *. tauto.
Qed.
Lemma with_length_bytes l : bytes_ok l -> bytes_ok (with_length l).
Proof.
  intros B. destruct l as [|b l]; [exact B|]. apply bytes_ok_cons in B as [_ B]. cbn [with_length]. apply bytes_ok_cons.
  split; [|exact B]. apply N.mod_lt. discriminate.
Qed.
Lemma normalized_bytes data w : bytes_ok data -> normalized data w -> bytes_ok w.
Proof.
  intros B N. destruct N as [|head hi lo enc content -> _ _ S]; [exact B|]. rewrite !bytes_ok_app in B.
  apply with_length_bytes, bytes_ok_app. split; [tauto|]. eapply strips_bytes; [exact S|tauto].
Qed.
Lemma strip_normalized data out s o : bytes_ok data -> strip_format_a_crcs data out = Ok (s, o) ->
  normalized data (match s with Some d => d | None => data end).
Proof.
  intros B H. destruct (strip_cases data out B) as [(E & _)|(head & hi & lo & enc & content & -> & L & C & _ & S & E)];
    rewrite E in H; apply Ok_inj in H; injection H as <- <-; [constructor|].
  econstructor; [reflexivity|unfold len in L; lia|exact C|exact S].
Qed.

Lemma wireless_part w fr : wireless_meaning w fr -> exists pre post, w = pre ++ wf_data fr ++ post.
Proof.
  intros (l & c & m0 & m1 & i0 & i1 & i2 & i3 & v & d & ci & rest & -> & _ & _ & _ & _ & P).
  destruct P as [(hi & lo & -> & _)|[-> _]]; do 2 eexists; [reflexivity|]. rewrite app_nil_r. reflexivity.
Qed.
Lemma wired_part data f a p : wired_meaning data (LongFrame f a p) -> exists pre post, data = pre ++ p ++ post.
Proof.
  intros W. inversion W; subst. unfold long_layout. exists [0x68; N.of_nat (length p) + 2; N.of_nat (length p) + 2; x; c; a0].
  eexists. reflexivity.
Qed.

Lemma application_part {E F} (fr : F) p m sc block hdr : bytes_ok p -> with_application (E := E) fr p = Ok m ->
  sc_decrypted_payload sc = None -> shown_records m sc = Some (records_new block hdr) ->
  hdr = None /\ exists pre, p = pre ++ block.
Proof.
  intros B H S R. unfold shown_records in R. rewrite S in R. destruct (sc_encrypted sc); [discriminate R|].
  unfold with_application in H. destruct (user_data_try_from p) as [u|e|q] eqn:E'; try discriminate H; apply Ok_inj in H; subst m;
    cbn [md_data_records] in R; [|discriminate R].
  apply dispatch_exact in E'; [|exact B].
  destruct u; cbn [block_records] in R; try discriminate R; injection R as <- <-; (split; [reflexivity|]);
    eapply block_suffix; try exact E'; reflexivity.
Qed.

(** what a successful decode was about *)
Lemma decode_ok env data key enrich d : bytes_ok data -> decode_bytes env data key enrich = Ok d ->
  (exists fr, wired_meaning data fr /\ do_protocol d = txt "wired" /\ rw_normalized_frame_hex (do_raw d) = hex_string data) \/
  (exists w fr, not_wired data /\ normalized data w /\ wireless_meaning w fr /\ do_protocol d = txt "wireless" /\
     rw_normalized_frame_hex (do_raw d) = hex_string w).
Proof.
  intros B H. unfold decode_bytes in H. destruct data as [|b data]; [discriminate H|].
  assert (G : forall pr fr o nm st pl u rs ae id sc, build_output env pr fr o nm st pl u rs ae id sc enrich = Ok d ->
     do_protocol d = pr /\ rw_normalized_frame_hex (do_raw d) = hex_string nm).
  { intros pr fr o nm st pl u rs ae id sc G. unfold build_output in G. apply bind_ok in G as ((outs & re) & _ & G).
    destruct (meter_and_transport u id) as [[? ?] ?]. apply Ok_inj in G. subst d. split; reflexivity. }
  destruct (mbus_wired_try_from (env_config env) (b :: data)) as [m|we|q] eqn:Em; [| |discriminate H].
  - left. apply wired_data_ok in Em as [W _]; [|exact B]. exists (md_frame m). split; [exact W|].
    apply bind_ok in H as (sc & _ & H). unfold build_wired_output in H. destruct (md_frame m); eapply G; exact H.
  - right. apply bind_ok in H as ((s & out) & Es & H). apply map_err_ok in Es. pose proof (strip_normalized _ _ _ _ B Es) as Nm.
    set (w := match s with Some d => d | None => b :: data end) in *. pose proof (normalized_bytes _ _ B Nm) as Bw.
    destruct (mbus_wireless_try_from w) as [m|x|q] eqn:Em2; [|discriminate H|discriminate H].
    destruct (wireless_data w Bw) as (W1 & _). destruct (W1 m Em2) as [Wm _].
    apply bind_ok in H as (sc & _ & H). unfold build_wireless_output in H. apply G in H as [H1 H2].
    exists w, (md_frame m). split; [|auto].
    intros fr W. destruct (wired_data_total (env_config env) _ _ B W) as (m' & K & _). congruence.
Qed.

(** ** Options *)
Lemma build_enrichment env pr fr o nm st pl u rs ae id sc :
  (forall d, build_output env pr fr o nm st pl u rs ae id sc false = Ok d -> do_enrichment d = None /\
     exists d', build_output env pr fr o nm st pl u rs ae id sc true = Ok d' /\ same_but_enrichment d d') /\
  (forall p, build_output env pr fr o nm st pl u rs ae id sc false = Panic p ->
     build_output env pr fr o nm st pl u rs ae id sc true = Panic p).
Proof.
  unfold build_output. destruct (collect_records env rs) as [[outs re]|e|q]; cbn [bind].
  - destruct (meter_and_transport u id) as [[? ?] ?]. split; [|discriminate].
    intros d H. apply Ok_inj in H. subst d. split; [reflexivity|]. eexists. split; [reflexivity|]. repeat split.
  - split; discriminate.
  - split; [discriminate|]. intros p H. exact H.
Qed.
Lemma enrichment_only env data key d : decode_bytes env data key false = Ok d ->
  do_enrichment d = None /\ exists d', decode_bytes env data key true = Ok d' /\ same_but_enrichment d d'.
Proof.
  unfold decode_bytes. intros H. destruct data as [|b data]; [discriminate H|].
  destruct (mbus_wired_try_from (env_config env) (b :: data)) as [m|we|q]; [| |discriminate H].
  - apply bind_ok in H as (sc & E & H). rewrite E. cbn [bind]. unfold build_wired_output in *.
    destruct (md_frame m); apply build_enrichment; exact H.
  - apply bind_ok in H as ((s & out) & E & H). rewrite E. cbn [bind].
    destruct (mbus_wireless_try_from _) as [m|x|q]; [|discriminate H|discriminate H].
    apply bind_ok in H as (sc & E' & H). rewrite E'. cbn [bind]. unfold build_wireless_output in *.
    apply build_enrichment; exact H.
Qed.

(** ** Hexadecimal input *)
Lemma decode_hex_of env input data key enrich d : hex_input input data -> decode_bytes env data key enrich = Ok d ->
  exists d', decode_hex env input key enrich = Ok d' /\ same_but_raw d d' /\ rw_input (do_raw d') = Some input /\
    rw_original_frame_hex (do_raw d') = rw_original_frame_hex (do_raw d).
Proof.
  intros Hx H. apply decode_hex_exact in Hx. unfold decode_hex. rewrite Hx. cbn [map_err bind]. rewrite H. cbn [bind].
  eexists. split; [reflexivity|]. split; [repeat split|]. split; reflexivity.
Qed.
Lemma decode_original env data key enrich d : decode_bytes env data key enrich = Ok d ->
  rw_original_frame_hex (do_raw d) = hex_string data /\ rw_byte_length (do_raw d) = len data.
Proof.
  intros H. apply decode_builds in H as (pr & fr & nm & st & pl & u & rs & ae & id & sc & _ & H & _).
  unfold build_output in H. apply bind_ok in H as ((outs & re) & _ & H).
  destruct (meter_and_transport u id) as [[? ?] ?]. apply Ok_inj in H. subst d. split; reflexivity.
Qed.
Lemma raw_decodes_again env data key enrich d : bytes_ok data -> decode_bytes env data key enrich = Ok d ->
  exists d', decode_hex env (rw_original_frame_hex (do_raw d)) key enrich = Ok d' /\ same_but_raw d d' /\
    rw_original_frame_hex (do_raw d') = rw_original_frame_hex (do_raw d).
Proof.
  intros B H. destruct (decode_original _ _ _ _ _ H) as [E _].
  assert (Nn : data <> []) by (intros ->; discriminate H).
  destruct (decode_hex_of env (rw_original_frame_hex (do_raw d)) data key enrich d) as (d' & A1 & A2 & _ & A3); [|exact H|eauto].
  rewrite E. apply decode_hex_exact. now apply hex_round_trip.
Qed.

