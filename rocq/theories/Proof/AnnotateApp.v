(** Annotation of application messages and frames: headers, encrypted and clear payloads. *)
From Coq Require Import List NArith Lia Bool.
Import ListNotations.
From Verif Require Import Model.Base Model.Core Model.Wired Model.Wireless Model.DataInfo Model.Record Model.UserData
  Model.MbusData Model.Annotate Spec.CrcSpec Spec.WiredSpec Spec.WirelessSpec Spec.RecordSpec Spec.AnnotateSpec
  Proof.BaseFacts Proof.WiredFacts Proof.WirelessFacts Proof.FormatAFacts Proof.RecordFacts Proof.IterFacts
  Proof.WiredProps Proof.AppFacts Proof.AnnotateFacts Proof.AnnotateFormatA Proof.AnnotateRecords Proof.FormatAProps.
Open Scope N_scope.

(** * The annotator has no errors of its own *)
Lemma loop_no_error cf fuel : forall base data offset i e,
  (length data < fuel + N.to_nat offset)%nat -> offset <= len data ->
  annotate_records_loop cf fuel base data offset i <> Err e.
Proof.
  induction fuel as [|fuel IH]; intros base data offset i e Hf Ho H.
  - unfold len in *. lia.
  - cbn [annotate_records_loop] in H.
    destruct (offset <? len data) eqn:El; cbn [negb] in H; [|discriminate].
    apply N.ltb_lt in El. destruct (get_lt_some data offset El) as [b Hb]. rewrite Hb in H.
    destruct (N.land b 0x0F =? 0x0F).
    + destruct (b =? 0x2F); [|destruct (_ || _); [discriminate|]].
      all: destruct (annotate_records_loop cf fuel base data (offset + 1) i) eqn:E; cbn in H; try discriminate;
        apply (IH base data (offset + 1) i e); [lia|lia|congruence].
    + rewrite index_range_from in H by lia. cbn [bind] in H.
      destruct (data_record_parse cf _ None) as [r| |] eqn:Hp; try discriminate.
      destruct (record_tiles _ _ _ _ (base + offset) i Hp) as (ss & Es & _ & _).
      rewrite skip_len in Es by lia. rewrite Es in H.
      destruct (record_sizes _ _ _ _ Hp) as (o & _ & Ho1 & Ho2 & Ho3). rewrite skip_len in Ho2 by lia.
      destruct (annotate_records_loop cf fuel base data (offset + dr_get_size r) (i + 1)) eqn:E; cbn in H; try discriminate.
      apply (IH base data (offset + dr_get_size r) (i + 1) e); [lia|lia|congruence].
Qed.
Lemma records_no_error cf base data e : annotate_data_records cf base data <> Err e.
Proof. apply loop_no_error; cbn; lia. Qed.
Lemma payload_no_error cf enc start data e : payload_segments cf enc start data <> Err e.
Proof. destruct enc; cbn; [discriminate|apply records_no_error]. Qed.

Lemma index_no_error {E A} (l : list A) i (e : E) : index l i <> Err e.
Proof. unfold index. destruct (get l i); discriminate. Qed.
Lemma bind_no_error {E A B} (x : outcome E A) (f : A -> outcome E B) e :
  x <> Err e -> (forall a, x = Ok a -> f a <> Err e) -> bind x f <> Err e.
Proof. destruct x; cbn; intros H1 H2; [now apply H2|congruence|discriminate]. Qed.

Lemma long_enc_no_error l (e : annotate_error) : is_long_tpl_encrypted l <> Err e.
Proof.
  unfold is_long_tpl_encrypted. destruct (len l <? 13) eqn:E; [discriminate|]. apply N.ltb_ge in E.
  apply bind_no_error; [apply index_no_error|intros c0 _]. apply bind_no_error; [apply index_no_error|discriminate].
Qed.
Lemma short_enc_no_error l n (e : annotate_error) : is_short_tpl_encrypted l n <> Err e.
Proof.
  unfold is_short_tpl_encrypted. destruct (len l <? n + 4) eqn:E; [discriminate|].
  apply bind_no_error; [apply index_no_error|intros c0 _]. apply bind_no_error; [apply index_no_error|discriminate].
Qed.
Lemma index_range_no_error {E} (l : list N) a b (e : E) : index_range l a b <> Err e.
Proof. unfold index_range. destruct (get_range l a b); cbn; discriminate. Qed.

Lemma app_no_error cf n : forall data base e, (length data <= n)%nat -> annotate_application_layer cf base data <> Err e.
Proof.
  induction n as [|n IH]; intros data base e Hn.
  - destruct data; [discriminate|cbn in Hn; lia].
  - destruct data as [|ci tail]; [discriminate|]. cbn [annotate_application_layer].
    repeat match goal with
    | |- (if ?c then _ else _) <> _ => destruct c
    | |- bind _ _ <> _ => apply bind_no_error; [|intros ? ?]
    | |- Ok _ <> _ => discriminate
    | |- annotate_data_records _ _ _ <> _ => apply records_no_error
    | |- payload_segments _ _ _ _ <> _ => apply payload_no_error
    | |- is_long_tpl_encrypted _ <> _ => apply long_enc_no_error
    | |- is_short_tpl_encrypted _ _ <> _ => apply short_enc_no_error
    | |- index_range _ _ _ <> _ => apply index_range_no_error
    end.
    all: try (apply IH; cbn in *; lia).
    all: destruct tail as [|b [|c inner]]; try discriminate.
    all: apply bind_no_error; [destruct inner; [discriminate|]; apply IH; cbn in *; lia|discriminate].
Qed.
Lemma application_no_error cf data base e : annotate_application_layer cf base data <> Err e.
Proof. now apply (app_no_error cf (length data)). Qed.

Lemma wired_no_error cf data e : annotate_wired cf data = Err e ->
  exists e', e = AError (MFrameError e') /\ wired_try_from cf data = Err e'.
Proof.
  unfold annotate_wired. intros H. destruct (wired_try_from cf data) as [fr|e'|] eqn:E; cbn in H; try discriminate.
  2:{ injection H as <-. eauto. }
  exfalso. destruct fr as [?|? ?|? ? d|? ? d]; try discriminate; unfold annotate_long_or_control in H; revert H; apply bind_no_error; try discriminate.
  all: destruct d; try discriminate. apply application_no_error.
Qed.

Lemma trailing_no_error {E} data (e : E) : trailing_frame_crc_start data <> Err e.
Proof.
  unfold trailing_frame_crc_start. destruct (_ <? 2); [discriminate|]. destruct (_ <? 10); [discriminate|].
  apply bind_no_error; [apply index_no_error|intros ? _]. apply bind_no_error; [apply index_no_error|intros ? _].
  apply bind_no_error; [apply index_range_no_error|discriminate].
Qed.
Lemma inner_no_error cf data e : annotate_wireless_inner cf data = Err e ->
  exists e', e = AError (MWirelessFrameError e') /\ wireless_try_from data = Err e'.
Proof.
  unfold annotate_wireless_inner. intros H. destruct (wireless_try_from data) as [fr|e'|] eqn:E; cbn in H; try discriminate.
  2:{ injection H as <-. eauto. }
  exfalso. revert H. apply bind_no_error; [apply trailing_no_error|intros cs _].
  apply bind_no_error; [|discriminate]. destruct (_ <? _); [|discriminate].
  apply bind_no_error; [apply index_range_no_error|intros; apply application_no_error].
Qed.
Lemma inner_ok_frame cf data segs : annotate_wireless_inner cf data = Ok segs -> exists fr, wireless_try_from data = Ok fr.
Proof.
  unfold annotate_wireless_inner. intros H. destruct (wireless_try_from data) as [fr|e'|] eqn:E; cbn in H; try discriminate. eauto.
Qed.
Lemma format_a_no_error cf data out stripped out' e :
  strip_format_a_crcs data out = Ok (Some stripped, out') ->
  annotate_wireless_format_a cf data stripped = Err e ->
  exists e', e = AError (MWirelessFrameError e') /\ wireless_try_from stripped = Err e'.
Proof.
  intros Hs H. assert (L : 12 <= len data).
  { unfold strip_format_a_crcs in Hs. destruct (len data <? 12) eqn:E; [discriminate|]. now apply N.ltb_ge in E. }
  destruct (offsets_and_crcs data L) as (bs & t & Hm & Hc & _).
  unfold annotate_wireless_format_a in H. rewrite Hm, Hc in H. cbn [bind] in H.
  destruct (annotate_wireless_inner cf stripped) as [segs|e'|] eqn:E; cbn in H; try discriminate.
  injection H as <-. now apply inner_no_error in E.
Qed.
Lemma format_a_ok_frame cf data stripped segs :
  annotate_wireless_format_a cf data stripped = Ok segs -> exists fr, wireless_try_from stripped = Ok fr.
Proof.
  unfold annotate_wireless_format_a. intros H. apply bind_ok in H as (m & _ & H). apply bind_ok in H as (ss & H & _).
  now apply inner_ok_frame in H.
Qed.

(** when a frame is annotated at all *)
Lemma annotate_errors cf data e : bytes_ok data -> annotate_frame cf data = Err e ->
  e = AError (MFrameError InvalidStartByte) /\ not_wired data /\
  (forall fr, wireless_try_from data <> Ok fr) /\
  (forall s out, strip_format_a_crcs data (repeat 0 512) = Ok (Some s, out) -> forall fr, wireless_try_from s <> Ok fr).
Proof.
  intros Hb H. unfold annotate_frame in H.
  destruct (annotate_wired cf data) as [|e0|] eqn:Ew; try discriminate.
  apply wired_no_error in Ew as (e1 & -> & Ew).
  assert (Hnw : not_wired data) by (intros fr Hf; apply (wired_ok_iff cf) in Hf; congruence).
  destruct (strip_cases data (repeat 0 512) Hb) as [[Hs _]|(head & hi & lo & enc & content & _ & _ & _ & _ & _ & Hs)].
  - rewrite Hs in H. cbn [no_fuel map_err bind] in H.
    destruct (annotate_wireless_inner cf data) as [|e2|] eqn:Ei; try discriminate.
    apply inner_no_error in Ei as (e3 & -> & Ei). injection H as <-.
    repeat split; auto; [congruence|intros s out Hs'; congruence].
  - rewrite Hs in H. cbn [no_fuel map_err bind] in H.
    destruct (annotate_wireless_format_a cf data _) as [|e2|] eqn:Ef; try discriminate.
    eapply format_a_no_error in Ef as (e3 & -> & Ef); [|exact Hs].
    destruct (annotate_wireless_inner cf data) as [|e4|] eqn:Ei; try discriminate.
    apply inner_no_error in Ei as (e5 & -> & Ei). injection H as <-.
    repeat split; auto; [congruence|]. intros s out Hs' fr. congruence.
Qed.
Lemma annotate_success cf data segs : bytes_ok data -> annotate_frame cf data = Ok segs ->
  (exists fr, wired_meaning data fr) \/ (exists fr, wireless_try_from data = Ok fr) \/
  (exists s out fr, strip_format_a_crcs data (repeat 0 512) = Ok (Some s, out) /\ wireless_try_from s = Ok fr).
Proof.
  intros Hb H. unfold annotate_frame in H.
  destruct (annotate_wired cf data) as [ss|e0|] eqn:Ew; try discriminate.
  { left. unfold annotate_wired in Ew. destruct (wired_try_from cf data) as [fr| |] eqn:E; try discriminate.
    exists fr. now apply (wired_ok_iff cf). }
  right. apply wired_no_error in Ew as (e1 & -> & Ew).
  destruct (strip_cases data (repeat 0 512) Hb) as [[Hs _]|(head & hi & lo & enc & content & _ & _ & _ & _ & _ & Hs)];
    rewrite Hs in H; cbn [no_fuel map_err bind] in H.
  - left. destruct (annotate_wireless_inner cf data) as [|e2|] eqn:Ei; try discriminate.
    + now apply inner_ok_frame in Ei.
    + destruct e2; discriminate.
  - destruct (annotate_wireless_format_a cf data _) as [|e2|] eqn:Ef; try discriminate.
    + right. apply format_a_ok_frame in Ef as [fr Ef]. eauto.
    + destruct e2; [|discriminate].
      left. destruct (annotate_wireless_inner cf data) as [|e2|] eqn:Ei; try discriminate.
      * now apply inner_ok_frame in Ei.
      * destruct e2; discriminate.
Qed.

(** * Messages *)
Definition header_segment (s : segment) : Prop :=
  s_layer s = LAppHeader /\ s_group s = None /\ record_kind (s_kind s) = false /\ s_kind s <> KEncryptedPayload.

Lemma mode_test c0 c1 : c0 < 256 -> c1 < 256 ->
  match configuration_security_mode (configuration_field_from_bytes c0 c1) with NoEncryption => false | _ => true end =
  negb (c1 mod 32 =? 0).
Proof.
  intros H0 H1. assert (E : configuration_field_from_bytes c0 c1 = c0 + 256 * c1).
  { unfold configuration_field_from_bytes. reflexivity. }
  rewrite E. pose proof (no_encryption_mode (c0 + 256 * c1)) as M. rewrite config_mode in M by exact H0.
  destruct (configuration_security_mode _); destruct (c1 mod 32 =? 0) eqn:Ec; try reflexivity; exfalso.
  all: try (apply N.eqb_eq in Ec; apply M in Ec; discriminate).
  apply N.eqb_neq in Ec. apply Ec, M. reflexivity.
Qed.

Lemma header_segments l : Forall header_segment l -> forall m,
  filter (fun s => record_kind (s_kind s)) (l ++ m) = filter (fun s => record_kind (s_kind s)) m.
Proof.
  induction 1 as [|s l (_ & _ & H & _) F IH]; intros m; [reflexivity|]. cbn. rewrite H. apply IH.
Qed.

(** what the annotator does with an application message, by its header *)
Definition after_header (cf : config) (enc : bool) (base : N) (p block : list N) : Prop :=
  exists hd, Forall header_segment hd /\
    annotate_application_layer cf base p =
      (rest <- payload_segments cf enc (base + len p - len block) block ;; Ok (hd ++ rest)).

Ltac header_segs := repeat constructor; cbn; try discriminate; reflexivity.

Lemma index_range_tail_n {E} (pre l : list N) n : len pre = n -> @index_range E N (pre ++ l) n (len (pre ++ l)) = Ok l.
Proof. intros <-. apply index_range_tail. Qed.

Lemma long_annotation cf base ci i0 i1 i2 i3 m0 m1 v d acc st c0 c1 block :
  c0 < 256 -> c1 < 256 -> ci = 0x72 \/ ci = 0x76 ->
  annotate_application_layer cf base ([ci; i0; i1; i2; i3; m0; m1; v; d; acc; st; c0; c1] ++ block) =
    (rest <- payload_segments cf (negb (c1 mod 32 =? 0)) (base + 13) block ;; Ok (long_tpl_segments base ++ rest)).
Proof.
  intros B0 B1 Hci.
  set (hdr := [ci; i0; i1; i2; i3; m0; m1; v; d; acc; st; c0; c1]).
  assert (L : len (hdr ++ block) = 13 + len block) by (rewrite len_app; reflexivity).
  assert (E : annotate_application_layer cf base (hdr ++ block) =
    (if len (hdr ++ block) <? 13 then Ok [seg base (base + len (hdr ++ block)) KUnknown None LAppHeader] else
     records_data <- index_range (hdr ++ block) 13 (len (hdr ++ block)) ;;
     encrypted <- is_long_tpl_encrypted (hdr ++ block) ;;
     rest <- payload_segments cf encrypted (base + 13) records_data ;;
     Ok (long_tpl_segments base ++ rest))).
  { destruct Hci; subst ci; reflexivity. }
  rewrite E. replace (len (hdr ++ block) <? 13) with false by (symmetry; apply N.ltb_ge; lia).
  rewrite (index_range_tail_n hdr block 13) by reflexivity. cbn [bind].
  assert (Ee : @is_long_tpl_encrypted annotate_error (hdr ++ block) = Ok (negb (c1 mod 32 =? 0))).
  { unfold is_long_tpl_encrypted. replace (len (hdr ++ block) <? 13) with false by (symmetry; apply N.ltb_ge; lia).
    rewrite <- (mode_test c0 c1 B0 B1). reflexivity. }
  rewrite Ee. reflexivity.
Qed.
Lemma long_after_header cf base ci i0 i1 i2 i3 m0 m1 v d acc st c0 c1 block :
  c0 < 256 -> c1 < 256 -> ci = 0x72 \/ ci = 0x76 ->
  after_header cf (negb (c1 mod 32 =? 0)) base ([ci; i0; i1; i2; i3; m0; m1; v; d; acc; st; c0; c1] ++ block) block.
Proof.
  intros B0 B1 Hci. exists (long_tpl_segments base). split; [header_segs|].
  rewrite long_annotation by assumption. rewrite len_app.
  match goal with |- context [base + (?l + len block) - len block] => replace (base + (l + len block) - len block) with (base + 13) by (cbn; lia) end.
  reflexivity.
Qed.

Definition short_tpl_segments (base : N) : list segment :=
  [seg (base + 0) (base + 1) KCiField None LAppHeader; seg (base + 1) (base + (1 + 1)) KAccessNumber None LAppHeader;
   seg (base + (1 + 1)) (base + (1 + 2)) KStatus None LAppHeader;
   seg (base + (1 + 2)) (base + (1 + 4)) KConfigurationField None LAppHeader].
Lemma short_annotation cf base ci acc st c0 c1 block :
  c0 < 256 -> c1 < 256 -> ci = 0x7A \/ 0xA1 <= ci <= 0xAF ->
  annotate_application_layer cf base ([ci; acc; st; c0; c1] ++ block) =
    (rest <- payload_segments cf (negb (c1 mod 32 =? 0)) (base + (1 + 4)) block ;; Ok (short_tpl_segments base ++ rest)).
Proof.
  intros B0 B1 Hci.
  set (hdr := [ci; acc; st; c0; c1]).
  assert (L : len (hdr ++ block) = 5 + len block) by (rewrite len_app; reflexivity).
  unfold hdr at 1. cbn [app annotate_application_layer]. fold (app hdr block).
  change (ci :: acc :: st :: c0 :: c1 :: block) with (hdr ++ block).
  replace ((ci =? 0x72) || (ci =? 0x76)) with false by (symmetry; apply orb_false_iff; split; apply N.eqb_neq; lia).
  replace ((ci =? 0x7A) || ((0xA0 <=? ci) && (ci <=? 0xAF))) with true.
  2:{ symmetry. apply orb_true_iff. destruct Hci as [->|H]; [now left|right]. apply andb_true_iff; split; apply N.leb_le; lia. }
  replace (ci =? 0xA0) with false by (symmetry; apply N.eqb_neq; lia).
  cbv zeta. replace (len (hdr ++ block) <? 5) with false by (symmetry; apply N.ltb_ge; lia).
  rewrite (index_range_tail_n hdr block 5) by reflexivity. cbn [bind].
  assert (Ee : @is_short_tpl_encrypted annotate_error (hdr ++ block) 1 = Ok (negb (c1 mod 32 =? 0))).
  { unfold is_short_tpl_encrypted. replace (len (hdr ++ block) <? 1 + 4) with false by (symmetry; apply N.ltb_ge; lia).
    rewrite <- (mode_test c0 c1 B0 B1). reflexivity. }
  rewrite Ee. reflexivity.
Qed.
Lemma short_after_header cf base ci acc st c0 c1 block :
  c0 < 256 -> c1 < 256 -> ci = 0x7A \/ 0xA1 <= ci <= 0xAF ->
  after_header cf (negb (c1 mod 32 =? 0)) base ([ci; acc; st; c0; c1] ++ block) block.
Proof.
  intros B0 B1 Hci. exists (short_tpl_segments base). split; [header_segs|].
  rewrite short_annotation by assumption. rewrite len_app.
  match goal with |- context [base + (?l + len block) - len block] => replace (base + (l + len block) - len block) with (base + (1 + 4)) by (cbn; lia) end.
  reflexivity.
Qed.

Lemma shorta0_after_header cf base x acc st c0 c1 block :
  c0 < 256 -> c1 < 256 ->
  after_header cf (negb (c1 mod 32 =? 0)) base ([0xA0; x; acc; st; c0; c1] ++ block) block.
Proof.
  intros B0 B1.
  exists [seg (base + 0) (base + 1) KCiField None LAppHeader; seg (base + 1) (base + 2) KEncryptionConfigByte None LAppHeader;
          seg (base + 2) (base + (2 + 1)) KAccessNumber None LAppHeader;
          seg (base + (2 + 1)) (base + (2 + 2)) KStatus None LAppHeader;
          seg (base + (2 + 2)) (base + (2 + 4)) KConfigurationField None LAppHeader]. split; [header_segs|].
  set (hdr := [0xA0; x; acc; st; c0; c1]).
  assert (L : len (hdr ++ block) = 6 + len block) by (rewrite len_app; reflexivity).
  unfold hdr at 1. cbn [app annotate_application_layer].
  change (0xA0 :: x :: acc :: st :: c0 :: c1 :: block) with (hdr ++ block).
  change ((0xA0 =? 0x72) || (0xA0 =? 0x76)) with false. change ((0xA0 =? 0x7A) || ((0xA0 <=? 0xA0) && (0xA0 <=? 0xAF))) with true.
  change (0xA0 =? 0xA0) with true. cbv iota zeta.
  replace (len (hdr ++ block) <? 6) with false by (symmetry; apply N.ltb_ge; lia).
  rewrite (index_range_tail_n hdr block 6) by reflexivity. cbn [bind].
  assert (Ee : @is_short_tpl_encrypted annotate_error (hdr ++ block) 2 = Ok (negb (c1 mod 32 =? 0))).
  { unfold is_short_tpl_encrypted. replace (len (hdr ++ block) <? 2 + 4) with false by (symmetry; apply N.ltb_ge; lia).
    rewrite <- (mode_test c0 c1 B0 B1). reflexivity. }
  rewrite Ee. cbn [bind]. replace (base + len (hdr ++ block) - len block) with (base + (2 + 4)) by lia. reflexivity.
Qed.

Lemma records_nil cf base : annotate_data_records cf base [] = Ok [].
Proof. reflexivity. Qed.

Lemma none_after_header cf base block : after_header cf false base (0x78 :: block) block.
Proof.
  exists [seg (base + 0) (base + 1) KCiField None LAppHeader]. split; [header_segs|].
  cbn [annotate_application_layer]. change (0x78 =? 0x72) with false. change (0x78 =? 0x76) with false.
  change (0x78 =? 0x7A) with false. change (0xA0 <=? 0x78) with false. change (0x78 =? 0x78) with true. cbn [orb andb].
  cbv iota. replace (base + len (0x78 :: block) - len block) with (base + 1) by (rewrite len_cons; lia).
  cbn [payload_segments]. destruct block; reflexivity.
Qed.
Lemma ell_after_header cf enc base cc acc rest block : after_header cf enc (base + 3) rest block -> len block <= len rest ->
  after_header cf enc base ([0x8C; cc; acc] ++ rest) block.
Proof.
  intros (hd & Fh & E) Hl.
  exists ([seg (base + 0) (base + 1) KCiField None LAppHeader; seg (base + 1) (base + 3) KExtendedLinkLayer None LAppHeader] ++ hd).
  split; [apply Forall_app; split; [header_segs|exact Fh]|].
  cbn [app annotate_application_layer].
  change (0x8C =? 0x72) with false. change (0x8C =? 0x76) with false. change (0x8C =? 0x7A) with false.
  change (0xA0 <=? 0x8C) with false. change (0x8C =? 0x78) with false. change (0x8C =? 0x8C) with true. cbn [orb andb]. cbv iota.
  replace (match rest with [] => Ok [] | _ :: _ => annotate_application_layer cf (base + 3) rest end)
    with (annotate_application_layer cf (base + 3) rest) by now destruct rest.
  rewrite E. replace (base + len (0x8C :: cc :: acc :: rest) - len block) with (base + 3 + len rest - len block) by (rewrite !len_cons; lia).
  destruct (payload_segments cf enc (base + 3 + len rest - len block) block); reflexivity.
Qed.
Lemma ellii_after_header cf base cc acc s0 s1 s2 s3 p0 p1 block :
  after_header cf false base ([0x8D; cc; acc; s0; s1; s2; s3; p0; p1] ++ block) block.
Proof.
  exists [seg (base + 0) (base + 1) KCiField None LAppHeader; seg (base + 1) (base + 9) KExtendedLinkLayer None LAppHeader].
  split; [header_segs|].
  set (hdr := [0x8D; cc; acc; s0; s1; s2; s3; p0; p1]).
  assert (L : len (hdr ++ block) = 9 + len block) by (rewrite len_app; reflexivity).
  unfold hdr at 1. cbn [app annotate_application_layer].
  change (0x8D :: cc :: acc :: s0 :: s1 :: s2 :: s3 :: p0 :: p1 :: block) with (hdr ++ block).
  change (0x8D =? 0x72) with false. change (0x8D =? 0x76) with false. change (0x8D =? 0x7A) with false.
  change (0xA0 <=? 0x8D) with false. change (0x8D =? 0x78) with false. change (0x8D =? 0x8C) with false.
  change (0x8D =? 0x8D) with true. cbn [orb andb]. cbv iota.
  replace (len (hdr ++ block) <? 9) with false by (symmetry; apply N.ltb_ge; lia).
  rewrite (index_range_tail_n hdr block 9) by reflexivity. cbn [bind].
  replace (base + len (hdr ++ block) - len block) with (base + 9) by lia.
  cbn [payload_segments]. destruct block; reflexivity.
Qed.
Lemma elliii_after_header cf base cc acc m0 m1 a0 a1 a2 a3 a4 a5 s0 s1 s2 s3 p0 p1 block :
  after_header cf false base ([0x8E; cc; acc; m0; m1; a0; a1; a2; a3; a4; a5; s0; s1; s2; s3; p0; p1] ++ block) block.
Proof.
  exists [seg (base + 0) (base + 1) KCiField None LAppHeader; seg (base + 1) (base + 17) KExtendedLinkLayer None LAppHeader].
  split; [header_segs|].
  set (hdr := [0x8E; cc; acc; m0; m1; a0; a1; a2; a3; a4; a5; s0; s1; s2; s3; p0; p1]).
  assert (L : len (hdr ++ block) = 17 + len block) by (rewrite len_app; reflexivity).
  unfold hdr at 1. cbn [app annotate_application_layer].
  change (0x8E :: cc :: acc :: m0 :: m1 :: a0 :: a1 :: a2 :: a3 :: a4 :: a5 :: s0 :: s1 :: s2 :: s3 :: p0 :: p1 :: block) with (hdr ++ block).
  change (0x8E =? 0x72) with false. change (0x8E =? 0x76) with false. change (0x8E =? 0x7A) with false.
  change (0xA0 <=? 0x8E) with false. change (0x8E =? 0x78) with false. change (0x8E =? 0x8C) with false.
  change (0x8E =? 0x8D) with false. change (0x8E =? 0x8E) with true. cbn [orb andb]. cbv iota.
  replace (len (hdr ++ block) <? 17) with false by (symmetry; apply N.ltb_ge; lia).
  rewrite (index_range_tail_n hdr block 17) by reflexivity. cbn [bind].
  replace (base + len (hdr ++ block) - len block) with (base + 17) by lia.
  cbn [payload_segments]. destruct block; reflexivity.
Qed.

Lemma encrypted_after_header cf p block : encrypted_message p block -> bytes_ok p ->
  len block <= len p /\ forall base, after_header cf true base p block.
Proof.
  induction 1 as [ci i0 i1 i2 i3 m0 m1 v d acc st c0 c1 block Hci Hc|ci acc st c0 c1 block Hci Hc
                 |x acc st c0 c1 block Hc|cc acc rest block He IH]; intros Hb.
  - apply bytes_ok_app in Hb as [Hb _]. unfold bytes_ok in Hb. rewrite !Forall_cons_iff in Hb.
    apply N.eqb_neq in Hc. split; [rewrite len_app; lia|intros base].
    replace true with (negb (c1 mod 32 =? 0)) by now rewrite Hc. apply long_after_header; tauto.
  - apply bytes_ok_app in Hb as [Hb _]. unfold bytes_ok in Hb. rewrite !Forall_cons_iff in Hb.
    apply N.eqb_neq in Hc. split; [rewrite len_app; lia|intros base].
    replace true with (negb (c1 mod 32 =? 0)) by now rewrite Hc. apply short_after_header; tauto.
  - apply bytes_ok_app in Hb as [Hb _]. unfold bytes_ok in Hb. rewrite !Forall_cons_iff in Hb.
    apply N.eqb_neq in Hc. split; [rewrite len_app; lia|intros base].
    replace true with (negb (c1 mod 32 =? 0)) by now rewrite Hc. apply shorta0_after_header; tauto.
  - apply bytes_ok_app in Hb as [_ Hb]. destruct (IH Hb) as [L A]. split; [rewrite len_app; lia|].
    intros base. apply ell_after_header; auto.
Qed.
Lemma clear_after_header cf p block : clear_message p block -> bytes_ok p ->
  len block <= len p /\ forall base, after_header cf false base p block.
Proof.
  induction 1 as [ci i0 i1 i2 i3 m0 m1 v d acc st c0 c1 block Hci Hc|ci acc st c0 c1 block Hci Hc
                 |x acc st c0 c1 block Hc|block|cc acc rest block He IH| |]; intros Hb.
  - apply bytes_ok_app in Hb as [Hb _]. unfold bytes_ok in Hb. rewrite !Forall_cons_iff in Hb.
    apply N.eqb_eq in Hc. split; [rewrite len_app; lia|intros base].
    replace false with (negb (c1 mod 32 =? 0)) by now rewrite Hc. apply long_after_header; tauto.
  - apply bytes_ok_app in Hb as [Hb _]. unfold bytes_ok in Hb. rewrite !Forall_cons_iff in Hb.
    apply N.eqb_eq in Hc. split; [rewrite len_app; lia|intros base].
    replace false with (negb (c1 mod 32 =? 0)) by now rewrite Hc. apply short_after_header; tauto.
  - apply bytes_ok_app in Hb as [Hb _]. unfold bytes_ok in Hb. rewrite !Forall_cons_iff in Hb.
    apply N.eqb_eq in Hc. split; [rewrite len_app; lia|intros base].
    replace false with (negb (c1 mod 32 =? 0)) by now rewrite Hc. apply shorta0_after_header; tauto.
  - split; [rewrite len_cons; lia|intros; apply none_after_header].
  - apply bytes_ok_app in Hb as [_ Hb]. destruct (IH Hb) as [L A]. split; [rewrite len_app; lia|].
    intros base. apply ell_after_header; auto.
  - split; [rewrite len_app; lia|intros; apply ellii_after_header].
  - split; [rewrite len_app; lia|intros; apply elliii_after_header].
Qed.

(** * Frames *)
Definition frame_segment (s : segment) : Prop :=
  s_layer s = LFrame /\ s_group s = None /\ record_kind (s_kind s) = false /\ s_kind s <> KEncryptedPayload.

Definition wireless_header : list segment :=
  let fr a b k := seg a b k None LFrame in
  [fr 0 1 KLField; fr 1 2 KCField; fr 2 4 KManufacturerCode; fr 4 8 KIdentificationNumber;
   fr 8 9 KVersion; fr 9 10 KDeviceType].
Definition wired_header : list segment :=
  let fr a b k := seg a b k None LFrame in
  [fr 0 1 KStartByte; fr 1 3 KLength; fr 3 4 KStartByte; fr 4 5 KCField; fr 5 6 KAField].

Lemma inner_body cf data fr : wireless_try_from data = Ok fr ->
  exists dpre dpost, data = dpre ++ wf_data fr ++ dpost /\ len dpre = 10 /\
    (dpost = [] \/ len dpost = 2) /\
    annotate_wireless_inner cf data =
      (body <- annotate_application_layer cf 10 (wf_data fr) ;;
       Ok (wireless_header ++ body ++
           match dpost with [] => [] | _ => [seg (len data - 2) (len data) KCrc None LFrame] end)).
Proof.
  intros H. unfold annotate_wireless_inner. rewrite H. cbn [map_err bind].
  pose proof (wireless_len _ _ H) as L. revert H. unfold wireless_try_from. intros H.
  apply bind_ok in H as (lb & _ & H). apply bind_ok in H as (c & _ & H). apply bind_ok in H as (t & _ & H).
  apply bind_ok in H as (id & _ & H). destruct (_ =? _); [|discriminate].
  apply bind_ok in H as (cs & Hcs & H). apply bind_ok in H as (d & Hd & H). apply Ok_inj in H. subst fr. cbn [wf_data].
  assert (Hcs' : @trailing_frame_crc_start annotate_error data = Ok cs).
  { revert Hcs. unfold trailing_frame_crc_start. destruct (_ <? 2); [now intros E; apply Ok_inj in E; subst|].
    destruct (_ <? 10); [now intros E; apply Ok_inj in E; subst|].
    unfold index. destruct (get data (len data - 2)); [cbn [bind]|discriminate].
    destruct (get data (len data - 2 + 1)); [cbn [bind]|discriminate].
    unfold index_range. destruct (get_range data 0 _); cbn [bind]; [|discriminate]. intros E; apply Ok_inj in E; now subst. }
  rewrite Hcs'. cbn [bind].
  set (e := match cs with Some n => n | None => len data end) in *.
  assert (Hr : get_range data 10 e = Some d).
  { unfold index_range in Hd. destruct (get_range data 10 e); [|discriminate]. apply Ok_inj in Hd. now subst. }
  destruct (get_range_split _ _ _ _ Hr) as (dpre & dpost & Ed & L1 & L2).
  assert (Lt : len data = 10 + len d + len dpost) by (rewrite Ed, !len_app; lia).
  apply get_range_ok in Hr as (R1 & R2 & _).
  exists dpre, dpost. split; [exact Ed|]. split; [exact L1|].
  assert (He : cs = None /\ e = len data \/ exists s, cs = Some s /\ e = s /\ s + 2 = len data).
  { subst e. destruct cs as [s|]; [right|now left]. exists s. apply trailing_value in Hcs'. intuition lia. }
  assert (Hp : dpost = [] /\ cs = None \/ len dpost = 2 /\ cs = Some (len data - 2)).
  { destruct He as [[-> He]|(s & -> & He & Hs)].
    - left. split; [apply len_0; lia|reflexivity].
    - right. split; [lia|f_equal; lia]. }
  split; [intuition|].
  assert (Hbody : (if 10 <? e then app_data <- index_range data 10 e ;; annotate_application_layer cf 10 app_data else Ok []) =
                  annotate_application_layer cf 10 d).
  { destruct (10 <? e) eqn:E10.
    - assert (Hd' : @index_range annotate_error N data 10 e = Ok d).
      { unfold index_range in *. destruct (get_range data 10 e); [|discriminate]. apply Ok_inj in Hd. now subst. }
      rewrite Hd'. reflexivity.
    - apply N.ltb_ge in E10. assert (d = []) by (apply len_0; lia). subst d. reflexivity. }
  rewrite Hbody. destruct (annotate_application_layer cf 10 d); cbn [bind]; try reflexivity.
  f_equal. f_equal. f_equal. destruct Hp as [[-> ->]|[Hl ->]]; [reflexivity|].
  destruct dpost; [cbn in Hl; lia|reflexivity].
Qed.

Lemma carries_annotate cf data start p : bytes_ok data -> carries data start p ->
  exists pre post dpre dpost, Forall frame_segment pre /\ Forall frame_segment post /\
    (start = 6 /\ pre = wired_header /\
     post = [seg (6 + len p) (6 + len p + 1) KChecksum None LFrame;
             seg (6 + len p + 1) (6 + len p + 1 + 1) KStopByte None LFrame] \/
     start = 10 /\ pre = wireless_header) /\
    data = dpre ++ p ++ dpost /\ len dpre = start /\ bytes_ok p /\
    annotate_frame cf data = (body <- annotate_application_layer cf start p ;; Ok (pre ++ body ++ post)).
Proof.
  intros Hb Hc. revert Hb. destruct Hc as [data' f a payload Hw|data' fr Hnw Hnc Hm]; intros Hb.
  - apply (wired_ok_iff cf) in Hw as Hw'.
    assert (Hl : exists x c a', data' = long_layout x c a' payload) by (inversion Hw; subst; eauto).
    destruct Hl as (x & c & a' & El).
    set (l := N.of_nat (length payload) + 2) in *.
    exists wired_header, [seg (6 + len payload) (6 + len payload + 1) KChecksum None LFrame;
                          seg (6 + len payload + 1) (6 + len payload + 1 + 1) KStopByte None LFrame],
      [0x68; l; l; x; c; a'], [sum8 (c :: a' :: payload); 0x16].
    split; [header_segs|]. split; [header_segs|]. split; [left; auto|]. split; [exact El|]. split; [reflexivity|].
    split. { rewrite El in Hb. apply (bytes_ok_app [0x68; l; l; x; c; a']) in Hb as [_ Hb]. now apply bytes_ok_app in Hb. }
    unfold annotate_frame, annotate_wired. rewrite Hw'. cbn [map_err bind]. unfold annotate_long_or_control.
    assert (Ld : len data' = len payload + 8).
    { rewrite El. unfold long_layout. rewrite !len_cons, len_app. cbn [len length]. rewrite !len_cons. change (len (@nil N)) with 0. lia. }
    replace (match payload with [] => Ok [] | _ :: _ => if false then Ok [seg 6 (6 + len payload) KUnknown None LAppHeader]
               else annotate_application_layer cf 6 payload end)
      with (annotate_application_layer cf 6 payload) by now destruct payload.
    replace (6 + len payload <? len data') with true by (symmetry; apply N.ltb_lt; lia).
    replace (6 + len payload + 1 <? len data') with true by (symmetry; apply N.ltb_lt; lia).
    destruct (annotate_application_layer cf 6 payload) as [body|e|] eqn:E; cbn [bind]; try reflexivity.
    exfalso. eapply application_no_error; exact E.
  - apply (wireless_ok_iff _ _ Hb) in Hm as Hm'. pose proof (wireless_len _ _ Hm') as L.
    destruct (inner_body cf data' fr Hm') as (dpre & dpost & Ed & Lp & _ & Ei).
    exists wireless_header, (match dpost with [] => [] | _ => [seg (len data' - 2) (len data') KCrc None LFrame] end), dpre, dpost.
    split; [header_segs|]. split; [destruct dpost; header_segs|]. split; [right; auto|]. split; [exact Ed|]. split; [exact Lp|].
    split. { rewrite Ed in Hb. apply bytes_ok_app in Hb as [_ Hb]. now apply bytes_ok_app in Hb. }
    unfold annotate_frame.
    assert (Hw : exists e, annotate_wired cf data' = Err (AError e)).
    { unfold annotate_wired. destruct (wired_try_from cf data') as [wf|e|pp] eqn:E.
      - exfalso. apply wired_ok_iff in E. exact (Hnw _ E).
      - cbn. eauto.
      - exfalso. assert (P : is_panic (wired_try_from cf data')) by (rewrite E; eexists; reflexivity).
        apply wired_panic_iff in P. lia. }
    destruct Hw as [e ->].
    destruct (strip_cases data' (repeat 0 512) Hb) as [[-> _]|(head & hi & lo & enc & content & E1 & E2 & E3 & _)].
    + cbn [no_fuel map_err bind]. rewrite Ei.
      destruct (annotate_application_layer cf 10 (wf_data fr)) as [body|e'|] eqn:E; cbn [bind]; try reflexivity.
      exfalso. eapply application_no_error; exact E.
    + exfalso. exact (Hnc _ _ _ _ E1 E2 E3).
Qed.

(** * Encrypted payloads *)
Lemma filter_frame l : Forall frame_segment l -> filter (fun s => match s_kind s with KEncryptedPayload => true | _ => false end) l = [].
Proof. induction 1 as [|s l (_ & _ & _ & H) F IH]; [reflexivity|]. cbn. destruct (s_kind s); try exact IH. congruence. Qed.
Lemma filter_header l : Forall header_segment l -> filter (fun s => match s_kind s with KEncryptedPayload => true | _ => false end) l = [].
Proof. induction 1 as [|s l (_ & _ & _ & H) F IH]; [reflexivity|]. cbn. destruct (s_kind s); try exact IH. congruence. Qed.

Lemma encrypted_annotation cf data start p block : bytes_ok data -> carries data start p -> encrypted_message p block ->
  exists segs, annotate_frame cf data = Ok segs /\
    (forall s, In s segs -> record_kind (s_kind s) = false) /\
    filter (fun s => match s_kind s with KEncryptedPayload => true | _ => false end) segs =
      match block with
      | [] => []
      | _ => [seg (start + len p - len block) (start + len p) KEncryptedPayload None LRecordField]
      end /\
    slice data (start + len p - len block) (start + len p) = block.
Proof.
  intros Hb Hc He. destruct (carries_annotate cf _ _ _ Hb Hc) as (pre & post & dpre & dpost & Fp & Fq & _ & Ed & Ls & Bp & Ea).
  destruct (encrypted_after_header cf p block He Bp) as [Lb Ha]. destruct (Ha start) as (hd & Fh & Eh).
  rewrite Eh in Ea. cbn [payload_segments bind] in Ea.
  eexists. split; [exact Ea|].
  assert (Esuf : exists q, p = q ++ block).
  { clear - He. induction He as [| | |cc acc rest block He [q ->]]; [eexists; reflexivity..|].
    exists ([0x8C; cc; acc] ++ q). now rewrite app_assoc. }
  destruct Esuf as [q Eq].
  split; [|split].
  - intros s Hs. repeat (apply in_app_iff in Hs as [Hs|Hs]).
    + rewrite Forall_forall in Fp. apply Fp in Hs. apply Hs.
    + rewrite Forall_forall in Fh. apply Fh in Hs. apply Hs.
    + destruct block; [destruct Hs|]. destruct Hs as [<-|[]]. reflexivity.
    + rewrite Forall_forall in Fq. apply Fq in Hs. apply Hs.
  - rewrite !filter_app, (filter_frame pre), (filter_frame post), (filter_header hd) by assumption. cbn [app].
    rewrite app_nil_r. destruct block as [|x block]; [reflexivity|]. cbn [filter seg s_kind].
    replace (start + len p - len (x :: block) + len (x :: block)) with (start + len p) by lia. reflexivity.
  - rewrite Ed, Eq. replace (dpre ++ (q ++ block) ++ dpost) with ((dpre ++ q) ++ block ++ dpost) by now rewrite <- !app_assoc.
    apply slice_app; rewrite ?len_app; rewrite Eq, ?len_app in Lb; lia.
Qed.

(** * Records of clear messages *)
Lemma clear_suffix p block : clear_message p block -> exists q, p = q ++ block.
Proof.
  induction 1 as [| | | |cc acc rest block He [q ->]| |]; try (eexists; reflexivity).
  - now exists [0x78].
  - exists ([0x8C; cc; acc] ++ q). now rewrite app_assoc.
Qed.
Lemma frame_group l g : Forall frame_segment l -> group l g = [].
Proof. intros F. apply group_none. eapply Forall_impl; [|exact F]. intros s H. apply H. Qed.
Lemma header_group l g : Forall header_segment l -> group l g = [].
Proof. intros F. apply group_none. eapply Forall_impl; [|exact F]. intros s H. apply H. Qed.

Lemma record_groups cf data start p block segs items : bytes_ok data -> carries data start p -> clear_message p block ->
  annotate_frame cf data = Ok segs -> records_all cf block None = Some items -> Forall (item_ok cf) items ->
  (forall k r, nth_error items k = Some (Ok r) -> fields data (group segs (N.of_nat k)) = record_parts r) /\
  (forall g, (forall k r, nth_error items k = Some (Ok r) -> g <> N.of_nat k) -> group segs g = []).
Proof.
  intros Hb Hc He Hs Hi Hok.
  destruct (carries_annotate cf _ _ _ Hb Hc) as (pre & post & dpre & dpost & Fp & Fq & _ & Ed & Ls & Bp & Ea).
  destruct (clear_after_header cf p block He Bp) as [Lb Ha]. destruct (Ha start) as (hd & Fh & Eh).
  rewrite Eh, Hs in Ea. cbn [payload_segments] in Ea. symmetry in Ea.
  apply bind_ok in Ea as (body & Ea & E2). apply bind_ok in Ea as (rest & Er & E1).
  apply Ok_inj in E1, E2. subst body segs.
  destruct (clear_suffix _ _ He) as [q Eq].
  apply records_all_iff in Hi. unfold annotate_data_records in Er.
  destruct (loop_groups cf _ _ _ _ _ _ items data (dpre ++ q) dpost Er) as [G1 G2]; [lia|exact Hi|exact Hok| | |].
  { rewrite Ed, Eq, <- !app_assoc. reflexivity. }
  { rewrite Eq, !len_app. lia. }
  assert (G : forall g, group (pre ++ (hd ++ rest) ++ post) g = group rest g).
  { intros g. rewrite !group_app, (frame_group pre), (frame_group post), (header_group hd) by assumption. cbn. apply app_nil_r. }
  split.
  - intros k r Hk. rewrite G. specialize (G1 k r Hk). now rewrite N.add_0_l in G1.
  - intros g Hg. rewrite G. apply G2. intros k r Hk. rewrite N.add_0_l. eauto.
Qed.

(** * Format A *)
Fixpoint full (bs : list N) : Prop :=
  match bs with [] => True | [b] => 1 <= b <= 16 | b :: bs => b = 16 /\ full bs end.

Lemma loops_format_a content enc : format_a_rest content enc -> bytes_ok enc -> forall fuel pre, (length enc < fuel)%nat ->
  exists bs, offset_map_loop fuel (pre ++ enc) (len pre) = Ok (blocks_map (len pre) bs 0) /\
    crc_positions_loop fuel (pre ++ enc) (len pre) = Ok (blocks_crc (len pre) bs) /\
    full bs /\ data_len bs = len content /\ blocks_len bs = len enc.
Proof.
  induction 1 as [|c hi lo Hl Hc|c hi lo content enc Hl Hc Hr IH]; intros Hb fuel pre Hf;
    (destruct fuel as [|fuel]; [lia|]); cbn [offset_map_loop crc_positions_loop].
  - exists []. rewrite app_nil_r. replace (len pre <? len pre) with false by (symmetry; apply N.ltb_irrefl).
    cbn. auto.
  - apply bytes_ok_app in Hb as [Hbc _].
    assert (Lc : len c = N.of_nat (length c)) by reflexivity.
    assert (Lt : len (pre ++ c ++ [hi; lo]) = len pre + len c + 2) by (rewrite !len_app; change (len [hi; lo]) with 2; lia).
    rewrite Lt. replace (len pre <? len pre + len c + 2) with true by (symmetry; apply N.ltb_lt; lia). cbn [negb].
    replace (len pre + len c + 2 - len pre) with (len c + 2) by lia.
    replace (len c + 2 <? 3) with false by (symmetry; apply N.ltb_ge; lia).
    replace (N.min 16 (len c + 2 - 2)) with (len c) by lia. rewrite len_nat.
    pose proof (find_block_first pre c hi lo [] ltac:(destruct c; [cbn in Hl; lia|discriminate]) Hbc Hc) as Hfb.
    cbn [app] in Hfb. rewrite Hfb. cbn [no_fuel map_err bind].
    exists [len c]. destruct fuel as [|fuel]; [rewrite app_length in Hf; cbn in Hf; lia|].
    cbn [offset_map_loop crc_positions_loop]. rewrite Lt.
    replace (len pre + len c + 2 <? len pre + len c + 2) with false by (symmetry; apply N.ltb_irrefl). cbn [negb bind].
    split; [reflexivity|]. split; [reflexivity|]. split; [cbn; lia|]. cbn [data_len blocks_len]. rewrite len_app. change (len [hi; lo]) with 2. split; lia.
  - apply bytes_ok_app in Hb as [Hbc Hb]. apply bytes_ok_app in Hb as [_ Hb].
    assert (Lc : len c = 16) by (unfold len; lia).
    assert (Lt : len (pre ++ c ++ [hi; lo] ++ enc) = len pre + 16 + 2 + len enc) by (rewrite !len_app, Lc; change (len [hi; lo]) with 2; lia).
    rewrite Lt. replace (len pre <? len pre + 16 + 2 + len enc) with true by (symmetry; apply N.ltb_lt; lia). cbn [negb].
    replace (len pre + 16 + 2 + len enc - len pre) with (18 + len enc) by lia.
    replace (18 + len enc <? 3) with false by (symmetry; apply N.ltb_ge; lia).
    replace (N.min 16 (18 + len enc - 2)) with (len c) by lia. rewrite len_nat.
    pose proof (find_block_first pre c hi lo enc ltac:(destruct c; [cbn in Hl; lia|discriminate]) Hbc Hc) as Hfb.
    rewrite Hfb. cbn [no_fuel map_err bind].
    specialize (IH Hb fuel (pre ++ c ++ [hi; lo])). rewrite !app_length in Hf. cbn in Hf.
    destruct IH as (bs & E1 & E2 & F & D & B); [lia|].
    replace ((pre ++ c ++ [hi; lo]) ++ enc) with (pre ++ c ++ [hi; lo] ++ enc) in E1, E2 by now rewrite <- !app_assoc.
    replace (len (pre ++ c ++ [hi; lo])) with (len pre + len c + 2) in E1, E2 by (rewrite !len_app; change (len [hi; lo]) with 2; lia).
    rewrite E1, E2. cbn [bind]. exists (len c :: bs).
    split; [reflexivity|]. split; [reflexivity|].
    split. { destruct bs; cbn; [lia|]. split; [lia|exact F]. }
    cbn [data_len blocks_len]. rewrite !len_app. change (len [hi; lo]) with 2. split; lia.
Qed.

Lemma place_full bs : full bs -> forall pos j, j < data_len bs -> place pos bs j = pos + j + 2 * (j / 16).
Proof.
  induction bs as [|b bs IH]; intros F pos j Hj; [cbn in Hj; lia|]. cbn [place].
  destruct bs as [|b2 bs].
  - cbn in F, Hj. replace (j <? b) with true by (symmetry; apply N.ltb_lt; lia). rewrite (N.div_small j) by lia. lia.
  - destruct F as [-> F]. destruct (j <? 16) eqn:E.
    + apply N.ltb_lt in E. rewrite (N.div_small j) by lia. lia.
    + apply N.ltb_ge in E. rewrite (IH F) by (cbn [data_len] in *; lia).
      assert (Hd : j / 16 = (j - 16) / 16 + 1).
      { replace j with ((j - 16) + 1 * 16) at 1 by lia. now rewrite N.div_add by lia. }
      lia.
Qed.
Lemma position_place bs j : full bs -> j < 10 + data_len bs -> place 0 (10 :: bs) j = format_a_position j.
Proof.
  intros F Hj. cbn [place]. unfold format_a_position. destruct (j <? 10) eqn:E; [lia|]. apply N.ltb_ge in E.
  rewrite place_full by (auto; lia). lia.
Qed.
Lemma place_or_crc bs : forall pos i, i < blocks_len bs ->
  (exists j, j < data_len bs /\ place pos bs j = pos + i) \/ in_crc (blocks_crc pos bs) (pos + i) = true.
Proof.
  induction bs as [|b bs IH]; intros pos i Hi; [cbn in Hi; lia|]. cbn [blocks_len] in Hi.
  destruct (N.ltb_spec i b) as [H|H].
  - left. exists i. cbn [data_len place]. split; [lia|]. now replace (i <? b) with true by (symmetry; now apply N.ltb_lt).
  - destruct (N.ltb_spec i (b + 2)) as [H2|H2].
    + right. cbn [blocks_crc in_crc existsb fst]. apply orb_true_iff. left. apply andb_true_iff.
      split; [apply N.leb_le|apply N.ltb_lt]; lia.
    + destruct (IH (pos + b + 2) (i - b - 2)) as [(j & Hj & Ep)|Hc]; [lia| |].
      * left. exists (j + b). cbn [data_len place]. split; [lia|].
        replace (j + b <? b) with false by (symmetry; apply N.ltb_ge; lia). replace (j + b - b) with j by lia. lia.
      * right. cbn [blocks_crc in_crc existsb]. apply orb_true_iff. right.
        replace (pos + b + 2 + (i - b - 2)) with (pos + i) in Hc by lia. exact Hc.
Qed.

Lemma format_a_rest_bound content enc : format_a_rest content enc -> 16 * (len enc - len content) <= 2 * len content + 30.
Proof.
  induction 1 as [|c hi lo Hl Hc|c hi lo content enc Hl Hc Hr IH].
  - cbn. lia.
  - rewrite len_app. change (len [hi; lo]) with 2. unfold len. lia.
  - rewrite !len_app. change (len [hi; lo]) with 2. assert (len c = 16) by (unfold len; lia).
    apply format_a_rest_le in Hr. lia.
Qed.
Lemma format_a_length frame encoded : format_a frame encoded -> len frame <= 256 -> len encoded <= 290 /\ 12 <= len encoded.
Proof.
  intros [head hi lo content enc Hl Hc Hr] L. rewrite !len_app in *. change (len [hi; lo]) with 2.
  pose proof (format_a_rest_bound _ _ Hr). pose proof (format_a_rest_le _ _ Hr). unfold len in *. lia.
Qed.
Lemma wireless_meaning_length data fr : bytes_ok data -> wireless_meaning data fr ->
  get data 0 = Some (len data - 1) /\ len data <= 256.
Proof.
  intros Hb (l & c & m0 & m1 & i0 & i1 & i2 & i3 & v & d & ci & rest & E & L & _).
  assert (l < 256). { rewrite E in Hb. cbn in Hb. now apply bytes_ok_cons in Hb. }
  unfold len. rewrite <- L. split; [|lia]. rewrite E. cbn. f_equal. lia.
Qed.

Lemma format_a_labels cf frame fr encoded plain : bytes_ok encoded -> bytes_ok frame ->
  format_a frame encoded -> wireless_meaning frame fr ->
  not_wired frame -> no_first_crc frame -> not_wired encoded ->
  annotate_frame cf frame = Ok plain ->
  exists segs, annotate_frame cf encoded = Ok segs /\
    (forall j, j < len frame -> label_at segs (format_a_position j) = label_at plain j) /\
    (forall i, i < len encoded -> (forall j, j < len frame -> i <> format_a_position j) ->
       label_at segs i = Some (KCrc, None, LFrame)).
Proof.
  intros Hb Hbf Hfa Hm Hnw Hnc Hnw' Hp.
  destruct (wireless_meaning_length _ _ Hbf Hm) as [H0 H256].
  destruct (format_a_length _ _ Hfa H256) as [L1 L2].
  destruct (strip_identity frame encoded (repeat 0 512) Hfa Hb) as [out' Hs]; [rewrite len_repeat; lia|exact H0|exact H256|].
  assert (Hinner : annotate_wireless_inner cf frame = Ok plain).
  { unfold annotate_frame in Hp. destruct (annotate_wired cf frame) as [ss|e0|] eqn:Ew; try discriminate.
    - exfalso. unfold annotate_wired in Ew. destruct (wired_try_from cf frame) as [w| |] eqn:E; try discriminate.
      apply wired_ok_iff in E. exact (Hnw _ E).
    - apply wired_no_error in Ew as (e1 & -> & Ew).
      destruct (strip_cases frame (repeat 0 512) Hbf) as [[Hs' _]|(head & hi & lo & enc & content & E1 & E2 & E3 & _)].
      + rewrite Hs' in Hp. cbn [no_fuel map_err bind] in Hp.
        destruct (annotate_wireless_inner cf frame) as [|e2|] eqn:Ei; try discriminate; [exact Hp|destruct e2; discriminate].
      + exfalso. exact (Hnc _ _ _ _ E1 E2 E3). }
  destruct (offsets_and_crcs encoded L2) as (bs0 & t0 & Em & Ec & _).
  assert (Hf : exists segs, annotate_wireless_format_a cf encoded frame = Ok segs).
  { unfold annotate_wireless_format_a. rewrite Em, Hinner, Ec. cbn [bind]. eauto. }
  destruct Hf as [segs Hf].
  destruct (format_a_annotation cf encoded frame (repeat 0 512) out' segs Hs Hf) as
    (bs & t & inner & Em' & Ec' & Ei & Ls & Le & _ & Hl & Hcrc).
  rewrite Hinner in Ei. apply Ok_inj in Ei. subst inner.
  exists segs. split.
  { unfold annotate_frame. destruct (annotate_wired cf encoded) as [ss|e0|pp] eqn:Ew.
    - exfalso. unfold annotate_wired in Ew. destruct (wired_try_from cf encoded) as [w| |] eqn:E; try discriminate.
      apply wired_ok_iff in E. exact (Hnw' _ E).
    - apply wired_no_error in Ew as (e1 & -> & Ew). rewrite Hs. cbn [no_fuel map_err bind]. now rewrite Hf.
    - exfalso. unfold annotate_wired in Ew. destruct (wired_try_from cf encoded) as [w| |pp'] eqn:E; try discriminate.
      + apply wired_ok_iff in E. exact (Hnw' _ E).
      + assert (P : is_panic (wired_try_from cf encoded)) by (rewrite E; eexists; reflexivity).
        apply wired_panic_iff in P. lia. }
  (* the blocks are those of the encoding *)
  inversion Hfa as [head hi lo content enc Hhl Hcrc0 Hr Ef Ee]. subst frame encoded.
  assert (Lh : len (head ++ [hi; lo]) = 12) by (rewrite len_app; unfold len; cbn; lia).
  assert (Lh10 : len head = 10) by (unfold len; lia).
  apply bytes_ok_app in Hb as [_ Hb]. apply (bytes_ok_app [hi; lo]) in Hb as [_ Hb].
  destruct (loops_format_a content enc Hr Hb (S (length (head ++ [hi; lo] ++ enc))) (head ++ [hi; lo])) as (bs' & M1 & M2 & F & D & B).
  { rewrite !app_length. lia. }
  rewrite Lh in M1, M2. rewrite <- app_assoc in M1, M2.
  unfold build_format_a_offset_map in Em'. unfold crc_positions in Ec'.
  rewrite M1 in Em'. rewrite M2 in Ec'. cbn [bind] in Em', Ec'.
  replace (len (head ++ [hi; lo] ++ enc) <? 12) with false in Em' by (symmetry; apply N.ltb_ge; lia).
  replace (12 <=? len (head ++ [hi; lo] ++ enc)) with true in Ec' by (symmetry; apply N.leb_le; lia).
  replace (N.min 10 (len (head ++ [hi; lo] ++ enc))) with 10 in Em' by lia.
  apply Ok_inj in Em', Ec'.
  assert (Em2 : blocks_map 0 (10 :: bs') 0 = blocks_map 0 (10 :: bs) t) by exact Em'.
  assert (Ec2 : blocks_crc 0 (10 :: bs') = blocks_crc 0 (10 :: bs)) by exact Ec'.
  assert (Lf : len (head ++ content) = 10 + data_len bs') by (rewrite len_app; lia).
  assert (Hpos : forall j, j < len (head ++ content) -> place 0 (10 :: bs) j = format_a_position j).
  { intros j Hj. rewrite <- (position_place bs' j F) by lia.
    assert (G : get (blocks_map 0 (10 :: bs) t) j = get (blocks_map 0 (10 :: bs') 0) j) by now rewrite Em2.
    rewrite !blocks_map_get in G by (cbn [data_len]; cbn [data_len] in Ls; lia). now injection G. }
  split.
  - intros j Hj. rewrite <- (Hpos j Hj). now apply Hl.
  - intros i Hi Hn. apply Hcrc. rewrite <- Ec2.
    destruct (place_or_crc (10 :: bs') 0 i) as [(j & Hj & Ep)|Hc].
    + cbn [blocks_len]. rewrite !len_app in Hi. change (len [hi; lo]) with 2 in Hi. lia.
    + exfalso. cbn [data_len] in Hj. apply (Hn j); [lia|]. rewrite <- (position_place bs' j F) by lia. lia.
    + exact Hc.
Qed.

(** * The same for an encrypted frame in Format A *)
Lemma label_in segs i l : label_at segs i = Some l -> exists s, In s segs /\ label s = l.
Proof.
  unfold label_at. destruct (find _ segs) as [s|] eqn:E; [|discriminate]. cbn. intros H. injection H as <-.
  apply find_some in E as [E _]. eauto.
Qed.
Lemma encrypted_format_a cf frame fr encoded block : bytes_ok encoded -> bytes_ok frame ->
  format_a frame encoded -> wireless_meaning frame fr ->
  not_wired frame -> no_first_crc frame -> not_wired encoded ->
  encrypted_message (wf_data fr) block ->
  exists segs, annotate_frame cf encoded = Ok segs /\
    (forall i k g l, i < len encoded -> label_at segs i = Some (k, g, l) -> record_kind k = false) /\
    (forall j, 10 + len (wf_data fr) - len block <= j < 10 + len (wf_data fr) ->
       label_at segs (format_a_position j) = Some (KEncryptedPayload, None, LRecordField)).
Proof.
  intros Hb Hbf Hfa Hm Hnw Hnc Hnw' He.
  assert (Hc : carries frame 10 (wf_data fr)) by now apply CarryWireless.
  destruct (encrypted_annotation cf frame 10 (wf_data fr) block Hbf Hc He) as (plain & Hp & Hk & Hf & _).
  destruct (format_a_labels cf frame fr encoded plain Hb Hbf Hfa Hm Hnw Hnc Hnw' Hp) as (segs & Hs & Hl & Hcrc).
  exists segs. split; [exact Hs|].
  destruct (carries_annotate cf _ _ _ Hbf Hc) as (pre & post & dpre & dpost & _ & _ & _ & Ed & Ls & Bp & _).
  assert (Lf : 10 + len (wf_data fr) <= len frame) by (rewrite Ed, !len_app; lia).
  split.
  - intros i k g l Hi Hlab.
    assert (D : (exists j, j < len frame /\ i = format_a_position j) \/ (forall j, j < len frame -> i <> format_a_position j)).
    { clear. induction (len frame) as [|n IH] using N.peano_ind; [right; intros j Hj; lia|].
      destruct IH as [(j & Hj & E)|H]; [left; exists j; split; [lia|exact E]|].
      destruct (N.eq_dec i (format_a_position n)) as [E|E]; [left; exists n; split; [lia|exact E]|right].
      intros j Hj. destruct (N.eq_dec j n) as [->|Hn]; [exact E|apply H; lia]. }
    destruct D as [(j & Hj & ->)|Hn].
    + rewrite Hl in Hlab by exact Hj. apply label_in in Hlab as (s & Hs' & E). injection E as <- _ _. now apply Hk.
    + rewrite (Hcrc i Hi Hn) in Hlab. injection Hlab as <- _ _. reflexivity.
  - intros j Hj. rewrite Hl by lia.
    destruct (frame_tiles cf frame plain Hp) as [[(rest & E) _]|Ht].
    { exfalso. apply (Hnw (SingleCharacter 0xE5)). rewrite E. constructor. }
    destruct (tiles_unique _ _ _ Ht j ltac:(lia)) as (s & _ & Hu).
    assert (Hin : In (seg (10 + len (wf_data fr) - len block) (10 + len (wf_data fr)) KEncryptedPayload None LRecordField) plain).
    { destruct block as [|x block]; [change (len (@nil N)) with 0 in Hj; lia|].
      assert (I : In (seg (10 + len (wf_data fr) - len (x :: block)) (10 + len (wf_data fr)) KEncryptedPayload None LRecordField)
                    (filter (fun s => match s_kind s with KEncryptedPayload => true | _ => false end) plain)) by (rewrite Hf; now left).
      apply filter_In in I. apply I. }
    unfold label_at. destruct (find _ plain) as [s'|] eqn:E.
    + apply find_some in E as [E1 E2]. apply covers_eqb in E2.
      assert (Es : s = s') by (apply Hu; auto).
      assert (E2' : s = seg (10 + len (wf_data fr) - len block) (10 + len (wf_data fr)) KEncryptedPayload None LRecordField)
        by (apply Hu; split; [exact Hin|unfold covers; cbn; lia]).
      rewrite <- Es, E2'. reflexivity.
    + exfalso. pose proof (find_none _ _ E _ Hin) as F. cbn in F.
      apply andb_false_iff in F as [F|F]; [apply N.leb_gt in F|apply N.ltb_ge in F]; lia.
Qed.

(** * Header labels *)
Lemma label_skip pre l i : Forall (fun s => s_end s <= i) pre -> label_at (pre ++ l) i = label_at l i.
Proof.
  induction 1 as [|s pre H F IH]; [reflexivity|]. cbn [app]. rewrite label_cons.
  replace (i <? s_end s) with false by (symmetry; now apply N.ltb_ge). now rewrite andb_false_r.
Qed.

(** labels of a segment list written relative to a start *)
Definition shift (base : N) (s : segment) : segment :=
  seg (base + s_start s) (base + s_end s) (s_kind s) (s_group s) (s_layer s).
Lemma label_shift base segs j : label_at (map (shift base) segs) (base + j) = label_at segs j.
Proof.
  induction segs as [|s segs IH]; [reflexivity|]. cbn [map]. rewrite !label_cons. cbn [shift seg s_start s_end].
  replace (base + s_start s <=? base + j) with (s_start s <=? j).
  2:{ destruct (N.leb_spec (s_start s) j), (N.leb_spec (base + s_start s) (base + j)); lia || reflexivity. }
  replace (base + j <? base + s_end s) with (j <? s_end s).
  2:{ destruct (N.ltb_spec j (s_end s)), (N.ltb_spec (base + j) (base + s_end s)); lia || reflexivity. }
  rewrite IH. reflexivity.
Qed.
Lemma label_first a segs b l i : tiles a segs b -> a <= i < b -> label_at (segs ++ l) i = label_at segs i.
Proof.
  intros T H. rewrite (label_app a segs b) by exact T.
  now replace ((a <=? i) && (i <? b)) with true by (symmetry; apply andb_true_iff; split; [apply N.leb_le|apply N.ltb_lt]; lia).
Qed.
Lemma tiles_shift base a segs b : tiles a segs b -> tiles (base + a) (map (shift base) segs) (base + b).
Proof.
  induction 1 as [|s rest b H T IH]; cbn [map]; [constructor|].
  change (base + s_start s) with (s_start (shift base s)). constructor; [cbn; lia|exact IH].
Qed.
Lemma labels_of_list base hd kinds rest l n :
  tiles 0 hd n -> N.of_nat (length kinds) = n ->
  (forall j k, nth_error kinds j = Some k -> label_at hd (N.of_nat j) = Some (k, None, l)) ->
  labels_from (map (shift base) hd ++ rest) base kinds l.
Proof.
  intros T L H j k Hk. apply (tiles_shift base) in T. rewrite N.add_0_r in T. assert (N.of_nat j < n).
  { assert (Hj : (j < length kinds)%nat) by (apply nth_error_Some; congruence). lia. }
  rewrite (label_first base _ (base + n)) by (auto; lia). rewrite label_shift. now apply H.
Qed.
Lemma labels_after pre l at_ kinds ly : Forall (fun s => s_end s <= at_) pre ->
  labels_from l at_ kinds ly -> labels_from (pre ++ l) at_ kinds ly.
Proof.
  intros F H j k Hk. rewrite label_skip; [now apply H|]. eapply Forall_impl; [|exact F]. intros s Hs. cbn in Hs. lia.
Qed.

Lemma frame_header_labels cf data start p segs : bytes_ok data -> carries data start p -> annotate_frame cf data = Ok segs ->
  labels_from segs 0 (if start =? 6 then wired_labels else wireless_labels) LFrame /\
  (start = 6 -> labels_from segs (6 + len p) [KChecksum; KStopByte] LFrame).
Proof.
  intros Hb Hc Hs.
  destruct (carries_annotate cf _ _ _ Hb Hc) as (pre & post & dpre & dpost & _ & _ & Hpre & Ed & Ls & Bp & Ea).
  rewrite Hs in Ea. symmetry in Ea. apply bind_ok in Ea as (body & Ea & E2). apply Ok_inj in E2. subst segs.
  destruct Hpre as [(-> & -> & ->)|(-> & ->)].
  - change (6 =? 6) with true. cbv iota. split.
    + change wired_header with (map (shift 0) wired_header).
      apply (labels_of_list 0 wired_header wired_labels _ LFrame 6).
      * repeat (apply tiles_seg; [reflexivity|]). constructor.
      * reflexivity.
      * intros j k Hk. do 6 (destruct j as [|j]; [injection Hk as <-; reflexivity|]). destruct j; discriminate Hk.
    + intros _. apply application_tiles in Ea as Tb. rewrite app_assoc. apply labels_after.
      * apply Forall_app. split; [repeat constructor; cbn; lia|].
        clear - Tb. induction Tb as [|s rest b H Tb IH]; [constructor|]. constructor; [|exact IH]. now apply tiles_le in Tb.
      * intros j k Hk. destruct j as [|[|j]].
        -- injection Hk as <-. rewrite label_cons. cbn [seg s_start s_end].
           replace ((6 + len p <=? 6 + len p + N.of_nat 0) && (6 + len p + N.of_nat 0 <? 6 + len p + 1)) with true; [reflexivity|].
           symmetry. apply andb_true_iff; split; [apply N.leb_le|apply N.ltb_lt]; lia.
        -- injection Hk as <-. rewrite !label_cons. cbn [seg s_start s_end].
           replace ((6 + len p <=? 6 + len p + N.of_nat 1) && (6 + len p + N.of_nat 1 <? 6 + len p + 1)) with false.
           2:{ symmetry. apply andb_false_iff; right; apply N.ltb_ge; lia. }
           replace ((6 + len p + 1 <=? 6 + len p + N.of_nat 1) && (6 + len p + N.of_nat 1 <? 6 + len p + 1 + 1)) with true; [reflexivity|].
           symmetry. apply andb_true_iff; split; [apply N.leb_le|apply N.ltb_lt]; lia.
        -- destruct j; discriminate Hk.
  - change (10 =? 6) with false. cbv iota. split; [|discriminate].
    change wireless_header with (map (shift 0) wireless_header).
    apply (labels_of_list 0 wireless_header wireless_labels _ LFrame 10).
    + repeat (apply tiles_seg; [reflexivity|]). constructor.
    + reflexivity.
    + intros j k Hk. do 10 (destruct j as [|j]; [injection Hk as <-; reflexivity|]). destruct j; discriminate Hk.
Qed.

Lemma header_before cf data start p segs : bytes_ok data -> carries data start p -> annotate_frame cf data = Ok segs ->
  exists pre body post, segs = pre ++ body ++ post /\ Forall (fun s => s_end s <= start) pre /\
    annotate_application_layer cf start p = Ok body /\ bytes_ok p.
Proof.
  intros Hb Hc Hs.
  destruct (carries_annotate cf _ _ _ Hb Hc) as (pre & post & dpre & dpost & _ & _ & Hpre & Ed & Ls & Bp & Ea).
  rewrite Hs in Ea. symmetry in Ea. apply bind_ok in Ea as (body & Ea & E2). apply Ok_inj in E2.
  exists pre, body, post. split; [now symmetry|]. split; [|auto].
  destruct Hpre as [(-> & -> & _)|(-> & ->)]; repeat constructor; cbn; lia.
Qed.

Lemma long_header_labelled cf data start ci i0 i1 i2 i3 m0 m1 v d acc st c0 c1 block segs :
  bytes_ok data -> ci = 0x72 \/ ci = 0x76 ->
  carries data start ([ci; i0; i1; i2; i3; m0; m1; v; d; acc; st; c0; c1] ++ block) ->
  annotate_frame cf data = Ok segs -> labels_from segs start long_header_labels LAppHeader.
Proof.
  intros Hb Hci Hc Hs. destruct (header_before _ _ _ _ _ Hb Hc Hs) as (pre & body & post & -> & Fp & Ea & Bp).
  apply labels_after; [exact Fp|]. apply bytes_ok_app in Bp as [Bp _]. unfold bytes_ok in Bp. rewrite !Forall_cons_iff in Bp.
  rewrite long_annotation in Ea by tauto. apply bind_ok in Ea as (rest & _ & Ea). apply Ok_inj in Ea. subst body.
  rewrite <- app_assoc.
  change (long_tpl_segments start) with (map (shift start) (map (fun s => seg (s_start s) (s_end s) (s_kind s) (s_group s) (s_layer s)) (long_tpl_segments 0))).
  apply (labels_of_list start _ long_header_labels _ LAppHeader 13).
  - repeat (apply tiles_seg; [reflexivity|]). constructor.
  - reflexivity.
  - intros j k Hk. do 13 (destruct j as [|j]; [injection Hk as <-; reflexivity|]). destruct j; discriminate Hk.
Qed.
Lemma short_header_labelled cf data start ci acc st c0 c1 block segs :
  bytes_ok data -> ci = 0x7A \/ 0xA1 <= ci <= 0xAF ->
  carries data start ([ci; acc; st; c0; c1] ++ block) ->
  annotate_frame cf data = Ok segs -> labels_from segs start short_header_labels LAppHeader.
Proof.
  intros Hb Hci Hc Hs. destruct (header_before _ _ _ _ _ Hb Hc Hs) as (pre & body & post & -> & Fp & Ea & Bp).
  apply labels_after; [exact Fp|]. apply bytes_ok_app in Bp as [Bp _]. unfold bytes_ok in Bp. rewrite !Forall_cons_iff in Bp.
  rewrite short_annotation in Ea by tauto. apply bind_ok in Ea as (rest & _ & Ea). apply Ok_inj in Ea. subst body.
  rewrite <- app_assoc.
  change (short_tpl_segments start) with (map (shift start) (map (fun s => seg (s_start s) (s_end s) (s_kind s) (s_group s) (s_layer s)) (short_tpl_segments 0))).
  apply (labels_of_list start _ short_header_labels _ LAppHeader 5).
  - repeat (apply tiles_seg; [reflexivity|]). constructor.
  - reflexivity.
  - intros j k Hk. do 5 (destruct j as [|j]; [injection Hk as <-; reflexivity|]). destruct j; discriminate Hk.
Qed.

(** * The hexview after decryption *)
Lemma replace_tiles cf display : forall segs a b out, tiles a segs b -> b <= len display ->
  replace_encrypted cf segs display = Ok out -> tiles a out b.
Proof.
  induction segs as [|s segs IH]; intros a b out T Hl H; cbn [replace_encrypted] in H.
  - apply Ok_inj in H. now subst.
  - apply tiles_head in T as (<- & Hs & T). apply bind_ok in H as (here & Hh & H). apply bind_ok in H as (rest & Hr & H).
    apply Ok_inj in H. subst out. apply (tiles_app _ _ (s_end s)); [|eapply IH; eassumption].
    assert (One : tiles (s_start s) [s] (s_end s)) by (constructor; [exact Hs|constructor]).
    destruct (s_kind s); try (apply Ok_inj in Hh; now subst).
    apply bind_ok in Hh as (pushed & Hp & Hh). apply Ok_inj in Hh. subst here.
    destruct (get_range display (s_start s) (s_end s)) as [d|] eqn:Eg.
    + apply data_records_tiles in Hp. pose proof Eg as Eg'. apply get_range_split in Eg' as (p & r & _ & _ & Ld).
      replace (s_start s + len d) with (s_end s) in Hp by lia. destruct pushed; [exact One|exact Hp].
    + apply Ok_inj in Hp. subst pushed. exact One.
Qed.
