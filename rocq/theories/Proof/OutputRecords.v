(** Facts about the records shown by decoding (Model/Output.v). *)
From Coq Require Import List NArith ZArith Lia Bool String.
Import ListNotations.
From Verif Require Import Model.Base Model.Text Model.Core Model.Wired Model.Wireless Model.DataInfo Model.ValueInfo Model.Record Model.Decrypt
  Model.UserData Model.Hex Model.MbusData Model.Show Model.Output
  Spec.CoreSpec Spec.CrcSpec Spec.WiredSpec Spec.WirelessSpec Spec.DecryptSpec Spec.RecordSpec Spec.AppSpec Spec.AnnotateSpec Spec.MbusSpec Spec.OutputSpec
  Proof.BaseFacts Proof.RecordFacts Proof.WiredFacts Proof.WiredProps Proof.WirelessFacts Proof.FormatAFacts Proof.FormatAProps Proof.IterFacts Proof.AppFacts
  Proof.AppDecrypt Proof.HexFacts Proof.AnnotateApp Proof.MbusFacts Proof.OutputFacts.
Open Scope N_scope.

(** ** Collecting *)

Inductive ending := EDone | EErr (e : data_record_error) | EPanic (p : panic).
Definition end_items (x : ending) : list (outcome data_record_error data_record) :=
  match x with EDone => [] | EErr e => [Err e] | EPanic p => [Panic p] end.

Lemma decodes_shape cf hdr data l : decodes cf hdr data l -> exists rs x, l = map Ok rs ++ end_items x.
Proof.
  induction 1 as [| |b t r rest l _ _ _ _ (rs & x & ->)|b t e _ _|b t p _ _].
  - exists [], EDone. reflexivity.
  - assumption.
  - exists (r :: rs), x. reflexivity.
  - exists [], (EErr e). reflexivity.
  - exists [], (EPanic p). reflexivity.
Qed.

Fixpoint outs_of (index : N) (rs : list data_record) : list record_out :=
  match rs with [] => [] | r :: rs => record_output index r :: outs_of (index + 1) rs end.
Lemma listed_outs rs : forall index outs, listed index rs outs <-> outs = outs_of index rs.
Proof.
  induction rs as [|r rs IH]; intros index outs; split.
  - inversion 1. reflexivity.
  - intros ->. constructor.
  - inversion 1; subst. cbn. f_equal. now apply IH.
  - intros ->. cbn. constructor. now apply IH.
Qed.
Definition raw_len (rs : list data_record) : N := len (concat (map dr_raw_bytes rs)).

Lemma collect_items_end message x rs : forall index offset,
  collect_items message (map Ok rs ++ end_items x) index offset =
  match x with
  | EDone => Ok (outs_of index rs, None)
  | EErr e => Ok (outs_of index rs, Some (offset + raw_len rs, message e))
  | EPanic p => Panic p
  end.
Proof.
  induction rs as [|r rs IH]; intros index offset; cbn [map app collect_items outs_of].
  - destruct x; cbn; [reflexivity| |reflexivity]. unfold raw_len. cbn. now rewrite N.add_0_r.
  - rewrite IH. destruct x as [|e|p]; cbn; [reflexivity| |reflexivity].
    unfold raw_len. cbn [map concat]. rewrite len_app, N.add_assoc. reflexivity.
Qed.

Lemma collect_records_of env data hdr rs x :
  records_all (env_config env) data hdr = Some (map Ok rs ++ end_items x) ->
  collect_records env (Some (records_new data hdr)) =
  match x with
  | EDone => Ok (outs_of 0 rs, None)
  | EErr e => Ok (outs_of 0 rs, Some (raw_len rs, env_record_message env e))
  | EPanic p => Panic p
  end.
Proof.
  intros E. unfold collect_records, records_all, records_new in *. cbn [rs_data] in *. rewrite E.
  rewrite collect_items_end. reflexivity.
Qed.

Lemma fails_iff cf hdr data : bytes_ok data -> forall rs e, decodes cf hdr data (map Ok rs ++ [Err e]) ->
  exists pos k, fails_at (fun b => data_record_parse cf b hdr) data pos k /\ pos = raw_len rs + k.
Proof.
  intros B rs e D. remember (map Ok rs ++ [Err e]) as l eqn:El. revert rs El B.
  induction D as [|b rest l S D IH|b t r rest l S P E D IH|b t x S P|b t p S P]; intros rs El B.
  - destruct rs; discriminate El.
  - apply bytes_ok_cons in B as [Hb B]. destruct (IH rs El B) as (pos & k & F & ->).
    exists (raw_len rs + k + 1), (k + 1). split; [|lia]. constructor; [|exact F]. now apply skips_spec.
  - destruct rs as [|r' rs]; [discriminate El|]. injection El as <- El.
    assert (Hb : b < 256) by (apply bytes_ok_cons in B; tauto).
    assert (B' : bytes_ok rest) by (rewrite E in B; apply bytes_ok_app in B; tauto).
    destruct (IH rs El B') as (pos & k & F & ->).
    exists (raw_len rs + k + len (dr_raw_bytes r)), k. split.
    + econstructor; [|exact P|exact E|exact F]. intros K. apply skips_spec in K; [congruence|exact Hb].
    + unfold raw_len. cbn [map concat]. rewrite len_app. lia.
  - destruct rs as [|r' rs]; [|discriminate El].
    exists 0, 0. split; [|reflexivity]. econstructor; [|exact P].
    intros K. apply skips_spec in K; [congruence|]. apply bytes_ok_cons in B; tauto.
  - destruct rs as [|r' rs]; discriminate El.
Qed.
Lemma fails_decodes cf hdr data pos k : fails_at (fun b => data_record_parse cf b hdr) data pos k -> bytes_ok data ->
  exists rs e, decodes cf hdr data (map Ok rs ++ [Err e]) /\ pos = raw_len rs + k.
Proof.
  induction 1 as [b t e S P|b rest pos k S F IH|b t r rest pos k S P E F IH]; intros B.
  - exists [], e. split; [|reflexivity]. constructor; [|exact P].
    destruct (skips b) eqn:K; [|reflexivity]. apply skips_spec in K; [tauto|apply bytes_ok_cons in B; tauto].
  - apply bytes_ok_cons in B as [Hb B]. destruct (IH B) as (rs & e & D & ->). exists rs, e.
    split; [|lia]. apply dc_skip; [|exact D]. now apply skips_spec.
  - assert (Hb : b < 256) by (apply bytes_ok_cons in B; tauto).
    assert (B' : bytes_ok rest) by (rewrite E in B; apply bytes_ok_app in B; tauto).
    destruct (IH B') as (rs & e & D & ->). exists (r :: rs), e. split.
    + cbn. econstructor; [|exact P|exact E|exact D].
      destruct (skips b) eqn:K; [|reflexivity]. apply skips_spec in K; tauto.
    + unfold raw_len. cbn [map concat]. rewrite len_app. lia.
Qed.

(** ** C47 *)
Lemma record_error_offset env data : bytes_ok data ->
  (forall off m, decode_data_records env data = Err (ORecordsInvalid off m) ->
     exists pos k, fails_at (fun b => data_record_parse (env_config env) b None) data pos k /\ off = pos - k) /\
  (forall pos k, fails_at (fun b => data_record_parse (env_config env) b None) data pos k ->
     exists m, decode_data_records env data = Err (ORecordsInvalid (pos - k) m)).
Proof.
  intros B. destruct (records_all_decodes (env_config env) data None) as (l & E & D).
  destruct (decodes_shape _ _ _ _ D) as (rs & x & ->). pose proof (collect_records_of env data None rs x E) as C.
  split.
  - intros off m H. unfold decode_data_records in H. destruct data as [|b data]; [discriminate H|].
    rewrite C in H. destruct x as [|e|p]; cbn [bind] in H; try discriminate H. injection H as <- <-.
    destruct (fails_iff _ _ _ B rs e D) as (pos & k & F & ->). exists (raw_len rs + k), k. split; [exact F|]. lia.
  - intros pos k F. destruct (fails_decodes _ _ _ _ _ F B) as (rs' & e & D' & ->).
    pose proof (decodes_det _ _ _ _ _ D D') as Eq.
    unfold decode_data_records. destruct data as [|b data]; [inversion F|].
    apply records_all_iff in D'. rewrite (collect_records_of env _ None rs' (EErr e) D'). cbn [bind].
    exists (env_record_message env e). do 2 f_equal. lia.
Qed.

(** ** The records of a frame *)
Lemma build_shown env block hdr pr fr o nm st pl u ae id sc en :
  bytes_ok block -> records_all (env_config env) block hdr = records_all (env_config env) block None ->
  ae = None -> (sc_encrypted sc && negb (sc_decrypted sc)) = false ->
  shown env block (build_output env pr fr o nm st pl u (Some (records_new block hdr)) ae id sc en).
Proof.
  intros B Eh -> Es. destruct (records_all_decodes (env_config env) block None) as (l & E & D).
  destruct (decodes_shape _ _ _ _ D) as (rs & x & ->).
  assert (C := collect_records_of env block hdr rs x (eq_trans Eh E)).
  destruct (build_output env pr fr o nm st pl u (Some (records_new block hdr)) None id sc en) as [d|e|p] eqn:H.
  - apply build_output_ok in H as (outs & re & C' & Er & S & Dg & _). rewrite C in C'.
    assert (Dn : forall y, In y (early_diagnostics env None sc) -> dg_code y <> txt "application.record_partial").
    { intros y K. unfold early_diagnostics in K. cbn [app] in K. rewrite Es in K.
      destruct (sc_decrypted sc); [|destruct (sc_key_supplied sc)]; cbn in K; destruct K as [<-|[]] || destruct K; discriminate. }
    destruct x as [|e|p]; [| |discriminate C'].
    + apply Ok_inj in C'. injection C' as <- <-. cbn [is_some orb] in S. rewrite Es in S.
      eapply ShownAll with (rs := rs); [rewrite E; cbn [end_items]; now rewrite app_nil_r|now apply listed_outs|exact S|].
      intros (y & K & L). rewrite Dg, app_nil_r in K. exact (Dn y K L).
    + apply Ok_inj in C'. injection C' as <- <-. destruct (fails_iff _ _ _ B rs e D) as (pos & k & F & ->).
      eapply ShownPart with (rs := rs) (e := e); [exact E|now apply listed_outs| |exact F|].
      * rewrite S. cbn. reflexivity.
      * rewrite Dg. apply in_or_app. right. left. do 2 f_equal. lia.
  - exfalso. unfold build_output in H. rewrite C in H. destruct x; cbn [bind] in H; try discriminate H;
      destruct (meter_and_transport u id) as [[? ?] ?]; discriminate H.
  - unfold build_output in H. rewrite C in H. destruct x as [|e|q]; cbn [bind] in H.
    1,2: destruct (meter_and_transport u id) as [[? ?] ?]; discriminate H.
    injection H as <-. eapply ShownPanic. exact E.
Qed.

Lemma message_bytes data payload id : bytes_ok data -> message data payload id -> bytes_ok payload.
Proof.
  intros B M. destruct M as [? ? ? ? W|? w fr W R Wm]; [exact (wired_payload_ok _ _ _ _ B W)|].
  exact (wireless_payload_ok _ _ (received_bytes _ _ B R) Wm).
Qed.
Lemma in_clear_suffix p block : in_clear p block -> exists pre, p = pre ++ block.
Proof.
  induction 1 as [| | | |cc acc rest block H (pre & ->)].
  1-3: eexists; reflexivity.
  - exists [0x78]. reflexivity.
  - exists ([0x8C; cc; acc] ++ pre). now rewrite app_assoc.
Qed.

Lemma clear_records env data payload id block u key enrich :
  bytes_ok data -> message data payload id -> in_clear payload block -> app_meaning payload u ->
  shown env block (decode_bytes env data key enrich) /\
  (forall d, decode_bytes env data key enrich = Ok d ->
     so_payload_protection (do_security d) = txt "cleartext" /\
     so_decryption_state (do_security d) = txt "not_applicable" /\
     so_encrypted_payload_hex (do_security d) = None /\ so_decrypted_payload_hex (do_security d) = None).
Proof.
  intros B M C A. pose proof (message_bytes _ _ _ B M) as Bp.
  destruct (in_clear_suffix _ _ C) as [pre Ep].
  assert (Bb : bytes_ok block) by (rewrite Ep in Bp; apply bytes_ok_app in Bp; tauto).
  destruct (decode_message env data payload id (Some u) None B M) as (pr & fr & nm & st & E); [left; eauto|].
  rewrite E. destruct (clear_fields _ _ C Bp u A) as (V & mode & S & _).
  unfold prepare_security. rewrite S. cbn [negb bind]. unfold records_of. cbn [sc_decrypted_payload sc_encrypted].
  rewrite V. cbn [option_map]. split.
  - apply build_shown; try assumption; reflexivity.
  - intros d H. unfold build_output in H. apply bind_ok in H as ((outs & re) & _ & H).
    destruct (meter_and_transport (Some u) id) as [[? ?] ?]. apply Ok_inj in H. subst d. cbn. repeat split.
Qed.

(** ** Encrypted frames with the right key *)
Lemma with_key_user dec u id key out n out' :
  decrypt_variable_data_with_key dec u id key out = (Ok (Some n), out') ->
  decrypt_user_data dec u id key out = (Ok n, out').
Proof.
  assert (K : forall r : outcome decryption_error N * list N,
    match r with (Ok n, out) => (Ok (Some n), out) | (Err _, out) => (Ok None, out) | (Panic p, out) => (Panic p, out) end
      = (@Ok unit (option N) (Some n), out') -> r = (Ok n, out')).
  { intros [[x|e|p] o] H; inversion H; reflexivity. }
  unfold decrypt_variable_data_with_key, decrypt_user_data.
  destruct u as [?|? ? ? ? ? ?|ell h b|ell h b|ell b]; try discriminate.
  - destruct (long_is_encrypted h); cbn [negb]; [|discriminate]. destruct (lh_manufacturer h) as [m| |]; try discriminate.
    destruct (one_key _ _ key) as [kp| |]; try discriminate. apply K.
  - unfold short_is_encrypted. intros H.
    destruct (is_no_encryption (configuration_security_mode (sh_configuration_field h))) eqn:E.
    { destruct (configuration_security_mode (sh_configuration_field h)); discriminate. }
    destruct (negb _) in H; [discriminate H|]. destruct id as [id|]; [|discriminate].
    destruct (one_key _ _ key) as [kp| |]; try discriminate. now apply K.
Qed.

Lemma no_encryption_short h : is_no_encryption (configuration_security_mode (sh_configuration_field h)) = negb (short_is_encrypted h).
Proof. unfold short_is_encrypted. destruct (configuration_security_mode _); reflexivity. Qed.

Lemma long_layout_len x c a p : bytes_ok (long_layout x c a p) -> len p <= 512.
Proof.
  intros B. assert (len p + 2 < 256) by (unfold long_layout in B; bytes_split B; assumption). lia.
Qed.
Lemma message_len data payload id : bytes_ok data -> message data payload id -> len payload <= 512.
Proof.
  intros B M. destruct M as [data f a payload W|data w fr W R Wm].
  - inversion W; subst. eapply long_layout_len. eassumption.
  - pose proof (received_bytes _ _ B R) as Bw. destruct (wireless_meaning_length _ _ Bw Wm) as [_ H].
    destruct Wm as (l & c & m0 & m1 & i0 & i1 & i2 & i3 & v & d & ci & rest & E & _ & _ & _ & _ & P).
    rewrite E in H. rewrite len_app in H.
    destruct P as [(hi & lo & Ep & _)|[-> _]]; [rewrite Ep in H; rewrite len_app in H|]; lia.
Qed.

Lemma addressed_message data link payload : bytes_ok data -> addressed data link payload ->
  bytes_ok link /\ exists id, message data payload id /\
  (forall m0 m1 i0 i1 i2 i3 v d id', link = [m0; m1; i0; i1; i2; i3; v; d] ->
     identity m0 m1 i0 i1 i2 i3 v d 0x7A id' -> (exists ci t, payload = ci :: t /\ (ci = 0x72 \/ ci = 0x7A)) -> id = Some id').
Proof.
  intros B A. destruct A as [data f a payload W|data l c link rest fr L W R Wm].
  - split; [constructor|]. exists None. split; [econstructor; exact W|]. intros; discriminate.
  - pose proof (received_bytes _ _ B R) as Bw.
    assert (Bl : bytes_ok link) by (rewrite !bytes_ok_app in Bw; tauto). split; [exact Bl|].
    exists (Some (wf_manufacturer_id fr)). split; [econstructor; eassumption|].
    intros m0 m1 i0 i1 i2 i3 v d id' -> Hid (ci' & t & Ep & C). f_equal.
    destruct Wm as (l' & c' & m0' & m1' & i0' & i1' & i2' & i3' & v' & d' & ci & rest' & E & _ & _ & _ & Hid' & P).
    cbn [app] in E. injection E as <- <- <- <- <- <- <- <- <- <- E. bytes_split Bl.
    apply (identity_unique m0 m1 i0 i1 i2 i3 v d 0x7A); try assumption.
    assert (ci = ci').
    { destruct P as [(hi & lo & P & _)|[P _]]; rewrite Ep in P; [cbn [app] in P; injection P as -> _; reflexivity|].
      injection P as -> _. reflexivity. }
    subst ci'. destruct C as [->| ->]; exact Hid'.
Qed.

Lemma sealed_records env enc data link plain cipher key enrich :
  bytes_ok data -> bytes_ok plain -> addressed data link cipher -> sealed (enc key) link plain cipher ->
  inverse_cipher enc (env_aes env) key -> length key = 16%nat ->
  exists head block clear,
    cipher = head ++ block /\ plain = head ++ clear /\ len clear = len block /\ encrypted_message cipher block /\
    shown env clear (decode_bytes env data (Some key) enrich) /\
    (forall d, decode_bytes env data (Some key) enrich = Ok d ->
       so_payload_protection (do_security d) = txt "encrypted" /\
       so_decryption_state (do_security d) = txt "decrypted_unverified" /\
       so_encrypted_payload_hex (do_security d) = Some (hex_string cipher) /\
       so_decrypted_payload_hex (do_security d) = Some (hex_string clear)).
Proof.
  intros B Bpl Ad S Hinv Hk. destruct (addressed_message _ _ _ B Ad) as (Bl & id & M & Hid).
  pose proof (message_bytes _ _ _ B M) as Bc. pose proof (message_len _ _ _ B M) as Lc.
  destruct (sealed_meaning _ _ _ _ S Bc) as [u A]. pose proof (proj2 (dispatch_exact _ _ Bc) A) as T.
  destruct (with_key_sealed_in enc (env_aes env) link plain cipher u id key (repeat 0 512) S)
    as (head & block & clear & out & Ec & Ep & Lb & Nb & Vb & Ku & Ed); try assumption.
  { intros m0 m1 i0 i1 i2 i3 v d id' El Hi. eapply Hid; [exact El|exact Hi|]. destruct S; cbn [app]; eauto. }
  exists head, block, clear. split; [exact Ec|]. split; [exact Ep|]. split; [exact Lb|].
  assert (Bcl : bytes_ok clear) by (rewrite Ep in Bpl; apply bytes_ok_app in Bpl; tauto).
  split. { apply (encrypted_parse cipher u); [exact Bc|exact A|]. destruct Ku as [(h & -> & _ & K)|(h & -> & K)]; eauto 6. }
  apply with_key_user in Ed.
  destruct (decode_message env data cipher id (Some u) None B M) as (pr & fr & nm & st & E); [left; eauto|].
  rewrite E. unfold prepare_security.
  assert (Sf : exists mode, security_fields (Some u) = (true, Some mode, false)).
  { destruct Ku as [(h & -> & _ & K)|(h & -> & K)]; cbn [security_fields ell_has_encryption andb];
      rewrite no_encryption_short; unfold long_is_encrypted in K; rewrite K; eauto. }
  destruct Sf as [mode Sf]. rewrite Sf. cbn [negb andb is_some bind ok_or]. rewrite Ed. cbn [map_err bind].
  rewrite <- Lb. rewrite get_to_app. cbn [ok_or bind].
  assert (R : exists hdr, records_of (Some u)
     {| sc_encrypted := true; sc_mode := Some mode; sc_ell_encrypted := false; sc_decrypted := true;
        sc_key_supplied := true; sc_decrypted_payload := Some clear |} = Some (records_new clear hdr) /\
     records_all (env_config env) clear hdr = records_all (env_config env) clear None).
  { unfold records_of. cbn [sc_decrypted_payload]. destruct Ku as [(h & -> & K & _)|(h & -> & _)]; cbn [decrypted_records].
    - eexists. split; [reflexivity|]. now apply records_without_header.
    - eexists. split; reflexivity. }
  destruct R as (hdr & -> & R). split.
  - apply build_shown; try assumption; reflexivity.
  - intros d H. unfold build_output in H. apply bind_ok in H as ((outs & re) & _ & H).
    destruct (meter_and_transport (Some u) id) as [[? ?] ?]. apply Ok_inj in H. subst d. cbn. repeat split.
Qed.
