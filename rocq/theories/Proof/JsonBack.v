(** The JSON of a decoded frame says everything about it: frames of equal JSON are equal. *)
From Coq Require Import List NArith ZArith Lia Bool String.
Import ListNotations.
From Verif Require Import Model.Base Model.Text Model.Core Model.F64 Model.Record Model.MbusData Model.Show Model.Output Model.Format Model.Json Model.Render
  Spec.TextSpec Spec.JsonSpec Proof.BaseFacts Proof.RenderFacts Proof.JsonFacts Proof.JsonDocs.
Open Scope N_scope.
Open Scope list_scope.

Definition told_once {A} (is : option json -> A -> Prop) : Prop := (forall o a b, is o a -> is o b -> a = b) /\ (forall a, ~ is None a).
Definition said_once {A} (is : A -> json -> Prop) : Prop := forall v a b, is a v -> is b v -> a = b.

Lemma text_once : told_once text_of.
Proof. split; unfold text_of; [congruence|discriminate]. Qed.
Lemma number_once : told_once number_of.
Proof. split; unfold number_of; [|discriminate]. intros o a b -> E. injection E. intros H. now apply dec_injective in H. Qed.
Lemma flag_once : told_once flag_of.
Proof. split; unfold flag_of; [congruence|discriminate]. Qed.
Lemma inside_once {A} (is : A -> json -> Prop) : said_once is -> told_once (fun o a => inside (is a) o).
Proof.
  intros H. split; [|intros a (v & E & _); discriminate]. intros o a b (v & -> & Ha) (w & E & Hb). injection E as <-. exact (H v a b Ha Hb).
Qed.
Lemma there_once {A} (is : option json -> A -> Prop) o x y : told_once is -> if_there is o x -> if_there is o y -> x = y.
Proof.
  intros (I & N) Hx Hy. destruct x as [a|], y as [b|]; cbn in Hx, Hy; subst.
  - f_equal. exact (I _ _ _ Hx Hy).
  - now apply N in Hx.
  - now apply N in Hy.
  - reflexivity.
Qed.
Lemma forall2_once {A} (is : A -> json -> Prop) (ok : A -> Prop) : (forall v a b, ok a -> ok b -> is a v -> is b v -> a = b) ->
  forall vs l k, Forall ok l -> Forall ok k -> Forall2 is l vs -> Forall2 is k vs -> l = k.
Proof.
  intros H. induction vs as [|v vs IH]; intros l k Fl Fk Hl Hk; inversion Hl; subst; inversion Hk; subst; [reflexivity|].
  inversion Fl; subst. inversion Fk; subst. f_equal; [eapply H; eauto|now apply IH].
Qed.
Lemma forall_true {A} (l : list A) : Forall (fun _ => True) l.
Proof. induction l; constructor; auto. Qed.
Lemma list_once {A} (is : A -> json -> Prop) o l k : said_once is -> list_of is o l -> list_of is o k -> l = k.
Proof.
  intros H (vs & -> & Hl) (ws & E & Hk). injection E as <-.
  apply (forall2_once is (fun _ => True) (fun v a b _ _ => H v a b) vs l k); auto using forall_true.
Qed.
Lemma empty_once {A} (is : A -> json -> Prop) o l k : said_once is -> if_not_empty is o l -> if_not_empty is o k -> l = k.
Proof.
  intros H Hl Hk. destruct l as [|a l], k as [|b k]; cbn [if_not_empty] in *; [reflexivity|..].
  - subst. destruct Hk as (vs & E & _). discriminate.
  - subst. destruct Hl as (vs & E & _). discriminate.
  - eapply list_once; eauto.
Qed.

Ltac both := repeat match goal with
  | H : _ /\ _ |- _ => destruct H
  end;
  repeat match goal with
  | H : text_of ?o ?a, K : text_of ?o ?b |- _ => pose proof (proj1 text_once _ _ _ H K); clear H K
  | H : number_of ?o ?a, K : number_of ?o ?b |- _ => pose proof (proj1 number_once _ _ _ H K); clear H K
  | H : flag_of ?o ?a, K : flag_of ?o ?b |- _ => pose proof (proj1 flag_once _ _ _ H K); clear H K
  | H : if_there text_of ?o ?a, K : if_there text_of ?o ?b |- _ => pose proof (there_once _ _ _ _ text_once H K); clear H K
  | H : if_there number_of ?o ?a, K : if_there number_of ?o ?b |- _ => pose proof (there_once _ _ _ _ number_once H K); clear H K
  end; subst.

Lemma frame_once : said_once says_frame.
Proof. intros v [a0 a1 a2 a3] [b0 b1 b2 b3] H K. unfold says_frame in *. cbn [fo_kind fo_function fo_address fo_control_field] in *. both. reflexivity. Qed.
Lemma identity_once : said_once says_identity.
Proof.
  intros v [a0 a1 a2 a3 a4 a5] [b0 b1 b2 b3 b4 b5] H K. unfold says_identity in *. cbn [id_source id_id id_manufacturer_code id_version id_device_type id_device_type_code] in *. both. reflexivity.
Qed.
Lemma access_once : said_once says_access.
Proof. intros v [] [] H K. unfold says_access in *. cbn [fst snd] in *. both. reflexivity. Qed.
Lemma status_once : said_once says_status.
Proof. intros v [[]] [[]] H K. unfold says_status in *. both. reflexivity. Qed.
Lemma configuration_once : said_once says_configuration.
Proof. intros v [] [] H K. unfold says_configuration in *. cbn [fst snd] in *. both. reflexivity. Qed.
Lemma ell_once : said_once says_ell.
Proof.
  intros v [a0 a1 a2 a3 a4 a5] [b0 b1 b2 b3 b4 b5] H K. unfold says_ell in *.
  cbn [eo_communication_control eo_access_number eo_receiver_manufacturer eo_receiver_address eo_session_number eo_payload_crc] in *. both. reflexivity.
Qed.
Lemma transport_once : said_once says_transport.
Proof.
  intros v [hk ac st co el] [hk' ac' st' co' el'] H K. unfold says_transport in *. cbn [to_header_kind to_access_numbers to_statuses to_configuration to_ell] in *.
  destruct H as (H1 & H2 & H3 & H4 & H5), K as (K1 & K2 & K3 & K4 & K5). f_equal.
  - exact (there_once _ _ _ _ text_once H1 K1).
  - exact (empty_once _ _ _ _ access_once H2 K2).
  - exact (empty_once _ _ _ _ status_once H3 K3).
  - exact (there_once _ _ _ _ (inside_once _ configuration_once) H4 K4).
  - exact (there_once _ _ _ _ (inside_once _ ell_once) H5 K5).
Qed.
Lemma security_once : said_once says_security.
Proof.
  intros v [a0 a1 a2 a3 a4 a5 a6] [b0 b1 b2 b3 b4 b5 b6] H K. unfold says_security in *.
  cbn [so_payload_protection so_mode so_mode_code so_decryption_state so_key_supplied so_encrypted_payload_hex so_decrypted_payload_hex] in *. both. reflexivity.
Qed.
Lemma raw_once : said_once says_raw.
Proof.
  intros v [a0 a1 a2 a3 a4 a5] [b0 b1 b2 b3 b4 b5] H K. unfold says_raw in *.
  cbn [rw_input rw_original_frame_hex rw_normalized_frame_hex rw_byte_length rw_format_a_crc_stripped rw_payload_hex] in *. both. reflexivity.
Qed.
Lemma diagnostic_once : said_once says_diagnostic.
Proof. intros v [a0 a1 a2 a3 a4] [b0 b1 b2 b3 b4] H K. unfold says_diagnostic in *. cbn [dg_severity dg_code dg_layer dg_message dg_offset_start] in *. both. reflexivity. Qed.
Lemma enrichment_once v c c' e e' : says_enrichment c e v -> says_enrichment c' e' v -> e = e'.
Proof. destruct e as [[]], e' as [[]]. unfold says_enrichment. intros H K. both. reflexivity. Qed.

Lemma parts_once : forall m (p q : list (text * (N + text))),
  let is := fun (part : text * (N + text)) (y : text * json) => fst y = fst part /\
                 match snd part with inl n => snd y = VNumber (dec n) | inr t => snd y = VString t end in
  Forall2 is p m -> Forall2 is q m -> p = q.
Proof.
  cbv zeta. induction m as [|[k v] m IH]; intros p q Hp Hq; inversion Hp as [|[k1 c1] ? ? ? [E1 V1] ?]; subst; inversion Hq as [|[k2 c2] ? ? ? [E2 V2] ?]; subst; [reflexivity|].
  cbn [fst snd] in *. f_equal; [|now apply IH]. subst. f_equal. destruct c1, c2; subst; try discriminate.
  - injection V2 as E. apply dec_injective in E. now subst.
  - injection V2 as E. now subst.
Qed.
Lemma value_once number v a b : apart number -> proper a -> proper b -> says_value number a v -> says_value number b v -> a = b.
Proof.
  intros Hn Pa Pb Ha Hb. destruct a as [t|x|p], b as [t'|x'|q]; cbn [says_value proper] in *;
    repeat match goal with H : exists _, _ |- _ => destruct H as (? & ? & ?) end; subst; try discriminate.
  - congruence.
  - injection Hb as E. f_equal. now apply Hn.
  - f_equal. match goal with H : VObject _ = VObject _ |- _ => injection H as <- end. eapply parts_once; eauto.
Qed.
Lemma record_once number v a b : apart number -> proper_record a -> proper_record b -> says_record number a v -> says_record number b v -> a = b.
Proof.
  intros Hn Pa Pb H K. destruct a as [i f sn ta su qu va un dc hh dh], b as [i' f' sn' ta' su' qu' va' un' dc' hh' dh'].
  unfold says_record, proper_record in *. cbn [ro_index ro_function ro_storage_number ro_tariff ro_subunit ro_quantities ro_value ro_unit ro_data_coding ro_header_hex ro_data_hex] in *.
  destruct H as (H1 & H2 & H3 & H4 & H5 & H6 & H7 & H8 & H9 & H10 & H11), K as (K1 & K2 & K3 & K4 & K5 & K6 & K7 & K8 & K9 & K10 & K11).
  assert (qu = qu') by (eapply list_once; [|exact H6|exact K6]; intros ? ? ? -> E; congruence).
  assert (va = va').
  { destruct va as [k x], va' as [k' x'], H7 as (w & E & A & B), K7 as (w' & E' & A' & B'). rewrite E in E'. injection E' as <-. cbn [vo_kind vo_value] in *. f_equal.
    - exact (proj1 text_once _ _ _ A A').
    - destruct x as [x|], x' as [x'|]; cbn [if_there] in B, B'.
      + destruct B as (y & By & B), B' as (y' & By' & B'). rewrite By in By'. injection By' as <-. f_equal. exact (value_once number y x x' Hn (Pa _ eq_refl) (Pb _ eq_refl) B B').
      + destruct B as (y & By & _). congruence.
      + destruct B' as (y & By & _). congruence.
      + reflexivity. }
  clear H6 K6 H7 K7 Pa Pb. both. reflexivity.
Qed.

Lemma decoded_once number v a b : apart number -> Forall proper_record (do_records a) -> Forall proper_record (do_records b) ->
  says_decoded number a v -> says_decoded number b v -> a = b.
Proof.
  intros Hn Pa Pb (H0 & H1 & H2 & H3 & H4 & H5 & H6 & H7 & H8 & H9 & H10) (K0 & K1 & K2 & K3 & K4 & K5 & K6 & K7 & K8 & K9 & K10).
  assert (E10 : do_enrichment a = do_enrichment b).
  { destruct (do_enrichment a) as [e|], (do_enrichment b) as [e'|]; cbn [if_there] in H10, K10.
    - destruct H10 as (c & _ & w & E & A), K10 as (c' & _ & w' & E' & A'). rewrite E in E'. injection E' as <-. f_equal. exact (enrichment_once _ _ _ _ _ A A').
    - destruct H10 as (c & _ & w & E & A). congruence.
    - destruct K10 as (c & _ & w & E & A). congruence.
    - reflexivity. }
  assert (E1 := proj1 text_once _ _ _ H1 K1). assert (E2 := proj1 text_once _ _ _ H2 K2). assert (E3 := proj1 (inside_once _ frame_once) _ _ _ H3 K3).
  assert (E5 := proj1 (inside_once _ transport_once) _ _ _ H5 K5). assert (E6 := proj1 (inside_once _ security_once) _ _ _ H6 K6).
  assert (E8 := proj1 (inside_once _ raw_once) _ _ _ H8 K8). assert (E9 := list_once _ _ _ _ diagnostic_once H9 K9).
  assert (E7 : do_records a = do_records b).
  { destruct H7 as (vs & Ev & F), K7 as (vs' & Ev' & F'). rewrite Ev in Ev'. injection Ev' as <-.
    refine (forall2_once (says_record number) proper_record _ vs _ _ Pa Pb F F'). intros w r r' P P' R R'. exact (record_once number w r r' Hn P P' R R'). }
  destruct H4 as (w & Ew & A & B), K4 as (w' & Ew' & A' & B'). rewrite Ew in Ew'. injection Ew' as <-.
  assert (Ea := there_once _ _ _ _ (inside_once _ identity_once) A A'). assert (Eb := empty_once _ _ _ _ identity_once B B').
  destruct a as [a0 a1 a2 a3 a4 a5 a6 a7 a8 a9 a10], b as [b0 b1 b2 b3 b4 b5 b6 b7 b8 b9 b10]. cbn [do_decode_state do_protocol do_frame do_identity do_alternate_identities do_transport do_security do_records do_raw do_diagnostics do_enrichment] in *. subst. reflexivity.
Qed.

(** two inputs of the same JSON decode to the same *)
Theorem json_lossless env rn data options data' options' t d d' : apart (rn_number rn) -> numerals (rn_number rn) ->
  render_bytes env rn data FJson options = Ok t -> render_bytes env rn data' FJson options' = Ok t ->
  decode_bytes env data (op_key options) (op_include_enrichment options) = Ok d ->
  decode_bytes env data' (op_key options') (op_include_enrichment options') = Ok d' -> d = d'.
Proof.
  intros Ha Hn H H' D D'. destruct (json_output _ _ _ _ _ Hn H) as (x & v & Dx & T & U & _ & S), (json_output _ _ _ _ _ Hn H') as (x' & v' & Dx' & T' & _ & _ & S').
  rewrite D in Dx. apply Ok_inj in Dx. subst x. rewrite D' in Dx'. apply Ok_inj in Dx'. subst x'. rewrite (U v' T') in S'.
  exact (decoded_once (rn_number rn) v d d' Ha (decoded_proper _ _ _ _ _ D) (decoded_proper _ _ _ _ _ D') S S').
Qed.
