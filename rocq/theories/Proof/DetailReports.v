(** Facts about reading records alone, notices, security, enrichment and the direction of a message. *)
From Coq Require Import String List NArith ZArith Lia Bool.
Import ListNotations.
From Verif Require Import Model.Base Model.Text Model.Core Model.Wired Model.Wireless Model.DataInfo Model.Record Model.Decrypt Model.UserData Model.Hex Model.MbusData Model.Show Model.Output
  Spec.CoreSpec Spec.TextSpec Spec.RecordSpec Spec.AppSpec Spec.OutputSpec Spec.DetailSpec
  Proof.BaseFacts Proof.TextFacts Proof.CoreFacts Proof.AppFacts Proof.RecordFacts Proof.IterFacts Proof.HexFacts Proof.ShowFacts Proof.OutputFacts Proof.OutputRecords Proof.OutputMore Proof.DetailFacts.
Open Scope N_scope.

(** ** Records alone *)
Lemma records_alone env data : bytes_ok data -> data <> [] ->
  exists items, laid_out (fun b => data_record_parse (env_config env) b None) data items /\
    read_result (env_record_message env) items (decode_data_records env data).
Proof.
  intros B N. destruct (records_all_decodes (env_config env) data None) as (l & E & D).
  exists l. split; [now apply decodes_laid_out|].
  destruct (decodes_shape _ _ _ _ D) as (rs & x & ->). pose proof (collect_records_of env data None rs x E) as C.
  unfold decode_data_records. destruct data as [|b data]; [contradiction|]. rewrite C. destruct x as [|e|p]; cbn [bind end_items].
  - rewrite app_nil_r. apply ReadAll. now apply listed_outs.
  - apply ReadError.
  - apply ReadPanic.
Qed.
Lemma records_alone_hex env input data : hex_input input data -> decode_data_records_hex env input = decode_data_records env data.
Proof. intros H. unfold decode_data_records_hex. apply decode_hex_exact in H. rewrite H. reflexivity. Qed.
Lemma records_alone_not_hex env input e : decode_hex_bytes input = Err e -> decode_data_records_hex env input = Err (OInvalidHex e).
Proof. intros H. unfold decode_data_records_hex. now rewrite H. Qed.

(** ** Direction *)
Lemma direction_of b c : b < 256 -> control_information_from b = Ok c ->
  (direction_from c = SlaveToMaster <-> from_meter b) /\ (direction_from c = MasterToSlave <-> to_meter b).
Proof.
  intros L H.
  assert (K : match control_information_from b with
              | Ok c => match direction_from c with
                        | SlaveToMaster => ((0x6E <=? b) && (b <=? 0x7F)) || ((0x8A <=? b) && (b <=? 0x8E)) || ((0xA0 <=? b) && (b <=? 0xAF))
                        | MasterToSlave =>
                            existsb (N.eqb b) [0x50; 0x51; 0x52; 0x54; 0x5A; 0x5B; 0x60; 0x61; 0x64; 0x65; 0x69; 0x6A; 0x6B; 0x6C; 0x6D; 0x80; 0x81; 0x82; 0x83; 0x84; 0x85; 0x89] ||
                            (((0x90 <=? b) && (b <=? 0x97)) || (existsb (N.eqb b) [0xB1; 0xB2; 0xB3; 0xB4; 0xB6] || ((0xB8 <=? b) && (b <=? 0xBF))))
                        end
              | _ => true end = true).
  { exact (sweep256 (fun b => match control_information_from b with
              | Ok c => match direction_from c with
                        | SlaveToMaster => ((0x6E <=? b) && (b <=? 0x7F)) || ((0x8A <=? b) && (b <=? 0x8E)) || ((0xA0 <=? b) && (b <=? 0xAF))
                        | MasterToSlave =>
                            existsb (N.eqb b) [0x50; 0x51; 0x52; 0x54; 0x5A; 0x5B; 0x60; 0x61; 0x64; 0x65; 0x69; 0x6A; 0x6B; 0x6C; 0x6D; 0x80; 0x81; 0x82; 0x83; 0x84; 0x85; 0x89] ||
                            (((0x90 <=? b) && (b <=? 0x97)) || (existsb (N.eqb b) [0xB1; 0xB2; 0xB3; 0xB4; 0xB6] || ((0xB8 <=? b) && (b <=? 0xBF))))
                        end
              | _ => true end) ltac:(vm_compute; reflexivity) b L). }
  rewrite H in K.
  assert (D : ~ (from_meter b /\ to_meter b)).
  { unfold from_meter, to_meter. cbn [In]. lia. }
  assert (Ex : forall l, existsb (N.eqb b) l = true <-> In b l).
  { intros l. rewrite existsb_exists. split; [intros (x & I & E); apply N.eqb_eq in E; now subst|intros I; exists b; split; [exact I|apply N.eqb_refl]]. }
  destruct (direction_from c).
  - rewrite !orb_true_iff, !andb_true_iff, !N.leb_le in K. assert (F : from_meter b) by (unfold from_meter; lia).
    split; split; auto; try discriminate. intros T. exfalso. auto.
  - rewrite !orb_true_iff, !andb_true_iff, !N.leb_le, !Ex in K. assert (F : to_meter b) by exact K.
    split; split; auto; try discriminate. intros T. exfalso. auto.
Qed.

(** ** Enrichment *)
Lemma enrichment_shown env data key enrich d : decode_bytes env data key enrich = Ok d ->
  (forall i c, enrich = true -> do_identity d = Some i -> id_manufacturer_code i = Some c -> do_enrichment d = env_registry env c) /\
  (enrich = false \/ do_identity d = None \/ (exists i, do_identity d = Some i /\ id_manufacturer_code i = None) -> do_enrichment d = None).
Proof.
  intros H. apply decode_builds in H as (pr & fr & nm & st & pl & u & rs & ae & id & sc & _ & H & _).
  apply build_fields in H as (_ & _ & _ & _ & _ & _ & _ & E). rewrite E. split.
  - intros i c -> -> Hc. cbn [and_then]. now rewrite Hc.
  - intros [->|[->|(i & -> & Hc)]]; [reflexivity|now destruct enrich|]. cbn [and_then]. rewrite Hc. now destruct enrich.
Qed.

(** ** Notices and the state of decryption *)
Definition text_decide (a b : text) : {a = b} + {a <> b} := list_eq_dec N.eq_dec a b.
Ltac differ := let K := fresh in intros K; vm_compute in K; discriminate K.
Lemma notices_shown env data key enrich d : decode_bytes env data key enrich = Ok d ->
  (forall x, In x (do_diagnostics d) -> In (dg_severity x, dg_code x, dg_layer x) notices) /\
  NoDup (map dg_code (do_diagnostics d)) /\
  (forall x, In x (do_diagnostics d) -> dg_code x <> txt "application.record_partial" -> dg_offset_start x = None).
Proof.
  intros H. apply decode_builds in H as (pr & fr & nm & st & pl & u & rs & ae & id & sc & _ & H & _).
  apply build_output_ok in H as (outs & re & _ & _ & _ & E & _). rewrite E. unfold early_diagnostics, notice.
  destruct ae as [e|], (sc_encrypted sc && negb (sc_decrypted sc)), (sc_decrypted sc), (sc_key_supplied sc), re as [[off m]|]; cbn [app map dg_code];
    (split; [|split]);
    try (intros x I; cbn [In] in I; repeat (destruct I as [<-|I]; [unfold notices; cbn [dg_severity dg_code dg_layer In]; tauto|]); destruct I);
    try (repeat (constructor; [cbn [In]; intros K; repeat (destruct K as [K|K]; [revert K; differ|]); destruct K|]); constructor);
    try (intros x I Nc; cbn [In] in I; repeat (destruct I as [<-|I]; [first [reflexivity|exfalso; apply Nc; reflexivity]|]); destruct I).
Qed.

(** ** Protection *)
Lemma opened_det p o1 i1 o2 i2 : opened p o1 i1 -> opened p o2 i2 -> hd_error i1 <> Some 0x8C -> hd_error i2 <> Some 0x8C -> i1 = i2.
Proof.
  intros H. revert o2 i2. induction H as [i|cc acc rest o i H IH]; intros o2 i2 H2 N1 N2; inversion H2; subst; auto.
  - now contradiction N1.
  - now contradiction N2.
  - eapply IH; eassumption.
Qed.
Lemma short_head_det h1 b1 h2 b2 a1 s1 c1 d1 a2 s2 c2 d2 : h1 ++ b1 = h2 ++ b2 ->
  short_head h1 a1 s1 c1 d1 -> short_head h2 a2 s2 c2 d2 -> d1 = d2.
Proof.
  intros E H1 H2. inversion H1; inversion H2; subst; cbn [app] in E; try (injection E; intros; subst; try lia; reflexivity);
  injection E; intros; subst; lia.
Qed.
Lemma short_head_hd h b a s c d : short_head h a s c d -> exists x, hd_error (h ++ b) = Some x /\ (x = 0x7A \/ 0xA0 <= x <= 0xAF).
Proof. intros H. inversion H; subst; cbn; eexists; (split; [reflexivity|]); lia. Qed.
Lemma opened_same x p o i : opened (x :: p) o i -> x <> 0x8C -> i = x :: p.
Proof. intros H N. inversion H; subst; [reflexivity|now contradiction N]. Qed.
Lemma has_mode_det p m1 m2 : has_mode p m1 -> has_mode p m2 -> m1 = m2.
Proof.
  intros H1 H2.
  (* a message opened to a short header has its mode *)
  assert (Sh : forall o head acc st c0 c1 block m, opened p o (head ++ block) -> short_head head acc st c0 c1 -> has_mode p m -> m = Some (c1 mod 32)).
  { intros o head acc st c0 c1 block m O S H. destruct (short_head_hd _ block _ _ _ _ S) as (x & Hx & Rx).
    destruct H as [ci i0 i1 i2 i3 k0 k1 v d acc' st' c0' c1' bl C|p o' head' acc' st' c0' c1' bl O' S'|p o' ci rest O' I|ci rest C].
    - apply opened_same in O; [|lia]. rewrite O in Hx. cbn in Hx. injection Hx as <-. lia.
    - destruct (short_head_hd _ bl _ _ _ _ S') as (x' & Hx' & Rx').
      assert (E : head ++ block = head' ++ bl) by (eapply opened_det; [exact O|exact O'|rewrite Hx|rewrite Hx']; intros K; injection K; lia).
      f_equal. f_equal. symmetry. eapply short_head_det; eassumption.
    - assert (E : head ++ block = ci :: rest).
      { eapply opened_det; [exact O|exact O'|rewrite Hx|cbn [hd_error]]; intros K; injection K as K; [lia|]. cbn [In] in I. lia. }
      rewrite E in Hx. cbn in Hx. injection Hx as ->. cbn [In] in I. lia.
    - apply opened_same in O; [|lia]. rewrite O in Hx. cbn in Hx. injection Hx as <-. lia. }
  destruct H1 as [ci i0 i1 i2 i3 k0 k1 v d acc st c0 c1 block C|p o head acc st c0 c1 block O S|p o ci rest O I|ci rest C].
  - inversion H2 as [ci' j0 j1 j2 j3 l0 l1 v' d' acc' st' c0' c1' bl C' E1 E2|p o' head' acc' st' c0' c1' bl O' S' E1 E2|p o' ci' rest' O' I' E1 E2|ci' rest' C' E1 E2].
    + reflexivity.
    + subst m2. apply (Sh o' head' acc' st' c0' c1' bl); try assumption. now apply ModeLong.
    + cbn [app] in O'. apply opened_same in O'; [|lia]. injection O' as -> _. cbn [In] in I'. lia.
    + subst. lia.
  - symmetry. eapply Sh; eassumption.
  - destruct H2 as [ci' j0 j1 j2 j3 l0 l1 v' d' acc' st' c0' c1' bl C'|p o' head' acc' st' c0' c1' bl O' S'|p o' ci' rest' O' I'|ci' rest' C']; try reflexivity.
    + cbn [app] in O. apply opened_same in O; [|lia]. injection O as -> _. cbn [In] in I. lia.
    + eapply Sh; [exact O'|exact S'|]. eapply ModeNone; eassumption.
  - inversion H2 as [ci' j0 j1 j2 j3 l0 l1 v' d' acc' st' c0' c1' bl C' E1 E2|p o' head' acc' st' c0' c1' bl O' S' E1 E2|p o' ci' rest' O' I' E1 E2|ci' rest' C' E1 E2]; try reflexivity.
    + subst. lia.
    + eapply Sh; [exact O'|exact S'|]. now apply ModeSession.
Qed.

Lemma bits_zero m : security_mode_to_bits (configuration_security_mode m) = 0 <-> is_no_encryption (configuration_security_mode m) = true.
Proof.
  unfold configuration_security_mode. set (x := N.land _ _). assert (L : x < 32) by (unfold x; rewrite land_31; lia).
  assert (K : eqb (security_mode_to_bits (security_mode_from_bits x) =? 0) (is_no_encryption (security_mode_from_bits x)) = true).
  { exact (sweep 32 (fun x => eqb (security_mode_to_bits (security_mode_from_bits x) =? 0) (is_no_encryption (security_mode_from_bits x))) ltac:(vm_compute; reflexivity) x L). }
  apply eqb_prop in K. rewrite <- K. symmetry. apply N.eqb_eq.
Qed.
Lemma protection payload u : bytes_ok payload -> app_meaning payload u -> ~ nested_session payload ->
  (fst (fst (security_fields (Some u))) = true <-> secured payload) /\
  (fst (fst (security_fields (Some u))) = false -> snd (security_fields (Some u)) = false).
Proof.
  intros B A Nn. destruct (transport_details payload u None B A Nn) as (_ & m & Hm & Em & _).
  assert (Se : forall ell h block, u = VariableShort ell h block -> ell_has_encryption ell = true ->
     is_no_encryption (configuration_security_mode (sh_configuration_field h)) = true /\ exists ci rest, payload = ci :: rest /\ (ci = 0x8D \/ ci = 0x8E)).
  { intros ell h block -> E. inversion A; subst; try discriminate E.
    - exfalso. match goal with W : with_ell _ _ _ |- _ => inversion W; subst; discriminate E end.
    - split; [reflexivity|]. cbn [app]. eauto.
    - split; [reflexivity|]. cbn [app]. eauto. }
  assert (P : forall k, has_mode payload (Some k) -> secured payload <-> k <> 0).
  { intros k Hk. split.
    - intros [(k' & Hk' & Nk)|(ci & rest & -> & C)].
      + pose proof (has_mode_det _ _ _ Hk Hk') as K. injection K as ->. exact Nk.
      + pose proof (has_mode_det _ _ _ Hk (ModeSession ci rest C)) as K. discriminate K.
    - intros Nk. left. eauto. }
  assert (Pn : has_mode payload None -> secured payload -> exists ci rest, payload = ci :: rest /\ (ci = 0x8D \/ ci = 0x8E)).
  { intros Hn [(k' & Hk' & Nk)|C]; [|exact C]. pose proof (has_mode_det _ _ _ Hn Hk') as K. discriminate K. }
  destruct u as [f|i ac s dt n1 n2|ell h block|ell h block|ell block]; cbn [security_fields fst snd option_map] in *; subst m.
  all: try (split; [|intros _; reflexivity]; split; [discriminate|]; intros Hp; apply (Pn Hm) in Hp as (ci & rest & -> & [->| ->]); inversion A; lia).
  - pose proof (P _ Hm) as Q. rewrite bits_zero in Q. split; [|reflexivity]. rewrite Q. now destruct (is_no_encryption _).
  - destruct (ell_has_encryption ell) eqn:Ee.
    + destruct (Se _ _ _ eq_refl Ee) as (Ne & Pr). rewrite Ne in *. cbn [andb fst snd option_map] in *. split; [|discriminate].
      split; [intros _; right; exact Pr|reflexivity].
    + cbn [andb fst snd option_map] in *. pose proof (P _ Hm) as Q. rewrite bits_zero in Q. split; [|reflexivity]. rewrite Q. now destruct (is_no_encryption _).
Qed.

Lemma prepare_payload aes u id key sc : prepare_security aes u id key = Ok sc ->
  sc_decrypted_payload sc <> None <-> sc_decrypted sc = true.
Proof.
  unfold prepare_security. destruct (security_fields u) as ((e, m), l). destruct (negb e).
  { intros H. injection H as <-. cbn. split; [congruence|discriminate]. }
  destruct key as [key|]; [|intros H; injection H as <-; cbn; split; [congruence|discriminate]].
  destruct (l && negb (is_some m)); [discriminate|]. intros H. bind_inv H. destruct (decrypt_user_data aes _ id key (repeat 0 512)).
  bind_inv H. bind_inv H. injection H as <-. cbn. split; [reflexivity|discriminate].
Qed.

Lemma mentioned l code : (exists x, In x l /\ dg_code x = code) <-> existsb (fun x => text_eqb (dg_code x) code) l = true.
Proof.
  rewrite existsb_exists. split; intros (x & I & E); exists x; (split; [exact I|]); now apply text_eqb_ok.
Qed.
Ltac settle :=
  repeat match goal with K : _ /\ _ |- _ => destruct K end;
  first [reflexivity | discriminate | congruence
        | match goal with K : _ |- _ => exfalso; vm_compute in K; discriminate K end
        | match goal with |- _ <> _ => differ end
        | match goal with K : _ <> _ |- _ => exfalso; apply K; reflexivity end ].
(** what every document says about protection, with the notices that go with it *)
Lemma security_shown env data key enrich d : decode_bytes env data key enrich = Ok d ->
  In (so_payload_protection (do_security d)) [txt "encrypted"; txt "unknown"; txt "cleartext"] /\
  so_key_supplied (do_security d) = is_some key /\
  (so_decryption_state (do_security d) = txt "key_missing" <-> so_payload_protection (do_security d) = txt "encrypted" /\ key = None) /\
  (so_decryption_state (do_security d) = txt "decrypted_unverified" <-> so_payload_protection (do_security d) = txt "encrypted" /\ key <> None) /\
  (so_decryption_state (do_security d) = txt "not_applicable" <-> so_payload_protection (do_security d) <> txt "encrypted") /\
  (mentions d (txt "security.key_missing") <-> so_payload_protection (do_security d) = txt "encrypted" /\ key = None) /\
  (mentions d (txt "security.decrypted_unverified") <-> so_payload_protection (do_security d) = txt "encrypted" /\ key <> None) /\
  (mentions d (txt "security.key_unused") <-> so_payload_protection (do_security d) <> txt "encrypted" /\ key <> None) /\
  (so_encrypted_payload_hex (do_security d) <> None -> so_payload_protection (do_security d) = txt "encrypted") /\
  (so_decrypted_payload_hex (do_security d) <> None <-> so_decryption_state (do_security d) = txt "decrypted_unverified").
Proof.
  intros H. apply decode_builds in H as (pr & fr & nm & st & pl & u & rs & ae & id & sc & P & H & _).
  pose proof (prepare_payload _ _ _ _ _ P) as Pp. apply prepare_fields in P as (Pe & _ & Pl & Pk & Pd).
  unfold build_output in H. bind_inv H. destruct a as (outs, re). destruct (meter_and_transport u id) as ((i1, i2), i3).
  injection H as <-. unfold mentions. cbn [do_security do_diagnostics so_payload_protection so_key_supplied so_decryption_state so_encrypted_payload_hex so_decrypted_payload_hex].
  unfold early_diagnostics, notice. rewrite Pk. rewrite <- Pe in Pd. rewrite Pd in *.
  assert (Xs : forall (A B : Prop), (A -> B) -> (B -> A) -> (A <-> B)) by tauto.
  destruct (sc_encrypted sc), (sc_ell_encrypted sc), key as [k|], (sc_decrypted_payload sc) as [dp|], ae as [e|], re as [[off m]|];
    cbn [andb negb is_some app] in *; try (exfalso; destruct Pp as (Pp1 & Pp2); first [specialize (Pp1 ltac:(discriminate)); discriminate|specialize (Pp2 eq_refl); congruence]);
    (split; [cbn [In]; tauto|]); (split; [reflexivity|]); rewrite !mentioned; repeat split; intros; settle.
Qed.

Lemma app_result_ex payload : bytes_ok payload -> exists u e, app_result payload u e.
Proof.
  intros B. unfold app_result. destruct (user_data_try_from payload) as [u|e|p] eqn:E.
  - exists (Some u), None. left. exists u. split; [|auto]. now apply dispatch_exact.
  - exists None, (Some e). right. eauto.
  - exfalso. apply (dispatch_no_panic payload B). exists p. exact E.
Qed.

Lemma message_output env data payload id key enrich d : bytes_ok data -> message data payload id -> decode_bytes env data key enrich = Ok d ->
  exists u e sc outs re, app_result payload u e /\ prepare_security (env_aes env) u id key = Ok sc /\
    collect_records env (records_of u sc) = Ok (outs, re) /\ do_records d = outs /\
    do_transport d = snd (meter_and_transport u id) /\
    so_payload_protection (do_security d) = (if sc_encrypted sc then txt "encrypted" else if sc_ell_encrypted sc then txt "unknown" else txt "cleartext") /\
    so_encrypted_payload_hex (do_security d) = (if sc_encrypted sc then Some (hex_string payload) else None) /\
    do_diagnostics d = early_diagnostics env e sc ++
      match re with
      | Some (offset, message) =>
          [{| dg_severity := txt "warning"; dg_code := txt "application.record_partial";
              dg_layer := txt "application"; dg_message := message; dg_offset_start := Some offset |}]
      | None => []
      end.
Proof.
  intros B M H. destruct (app_result_ex payload (message_bytes _ _ _ B M)) as (u & e & A).
  destruct (decode_message env data payload id u e B M A) as (pr & fr & nm & st & E). rewrite E in H. bind_inv H.
  unfold build_output in H. bind_inv H. destruct a0 as (outs, re). destruct (meter_and_transport u id) as ((i1, i2), i3) eqn:Em.
  injection H as <-. exists u, e, a, outs, re. rewrite Em. split; [exact A|]. split; [exact Ha|]. split; [exact Ha0|].
  split; [reflexivity|]. split; [reflexivity|]. split; [reflexivity|]. split; [reflexivity|]. reflexivity.
Qed.

Lemma refused_shown env data payload id key enrich d : bytes_ok data -> message data payload id -> decode_bytes env data key enrich = Ok d ->
  (mentions d (txt "application.partial") <-> ~ exists u, app_meaning payload u) /\
  (forall x, In x (do_diagnostics d) -> dg_code x = txt "application.partial" ->
     exists e, app_error payload e /\ dg_message x = env_application_message env e) /\
  ((~ exists u, app_meaning payload u) ->
     do_transport d = nothing_shown None /\ do_records d = [] /\ so_payload_protection (do_security d) = txt "cleartext").
Proof.
  intros B M H. pose proof (message_bytes _ _ _ B M) as Bp.
  destruct (message_output env data payload id key enrich d B M H) as (u & e & sc & outs & re & A & P & C & Eo & Et & Ep & _ & Ed).
  apply prepare_fields in P as Pf. destruct Pf as (Pe & _ & Pl & _ & Pd).
  unfold mentions. rewrite Ed. destruct A as [(x & A & -> & ->)|(x & A & -> & ->)].
  - assert (NM : forall y, In y (do_diagnostics d) -> dg_code y <> txt "application.partial").
    { intros y I. rewrite Ed in I. unfold early_diagnostics, notice in I. cbn [app] in I.
      destruct (sc_encrypted sc && negb (sc_decrypted sc)), (sc_decrypted sc), (sc_key_supplied sc), re as [[off m]|]; cbn [app In] in I;
        repeat (destruct I as [<-|I]; [differ|]); destruct I. }
    rewrite <- Ed. repeat split.
    + intros (y & I & E). exfalso. exact (NM y I E).
    + intros K. exfalso. apply K. eauto.
    + intros y I E. exfalso. exact (NM y I E).
    + exfalso. eauto.
    + exfalso. eauto.
    + exfalso. eauto.
  - assert (NA : ~ exists u, app_meaning payload u) by (intros (u & K); apply dispatch_exact in K; [congruence|exact Bp]).
    split; [|split].
    + split; [intros _; exact NA|]. intros _. eexists. split; [left; reflexivity|reflexivity].
    + intros y I E. unfold early_diagnostics, notice in I. cbn [app] in I. destruct I as [<-|I].
      * exists x. split; [now apply dispatch_errors|reflexivity].
      * exfalso. destruct (sc_encrypted sc && negb (sc_decrypted sc)), (sc_decrypted sc), (sc_key_supplied sc), re as [[off m]|]; cbn [app In] in I;
          repeat (destruct I as [<-|I]; [revert E; differ|]); destruct I.
    + intros _. cbn [security_fields fst snd] in Pe, Pl. rewrite Pe, Pl in Ep.
      assert (R : records_of None sc = None) by (unfold records_of; destruct (sc_decrypted_payload sc); [reflexivity|]; now destruct (sc_encrypted sc)).
      rewrite R in C. injection C as <- <-. rewrite Et. repeat split; assumption.
Qed.

Lemma protection_shown env data payload id u key enrich d : bytes_ok data -> message data payload id -> app_meaning payload u -> ~ nested_session payload ->
  decode_bytes env data key enrich = Ok d ->
  (secured payload -> so_payload_protection (do_security d) = txt "encrypted" /\ so_encrypted_payload_hex (do_security d) = Some (hex_string payload)) /\
  (~ secured payload -> so_payload_protection (do_security d) = txt "cleartext" /\ so_encrypted_payload_hex (do_security d) = None).
Proof.
  intros B M Am Nn H. pose proof (message_bytes _ _ _ B M) as Bp.
  destruct (message_output env data payload id key enrich d B M H) as (u' & e & sc & outs & re & A & P & C & Eo & Et & Ep & Ex & Ed).
  assert (u' = Some u) as ->.
  { apply dispatch_exact in Am; [|exact Bp]. destruct A as [(x & A & -> & _)|(x & A & _)]; [|congruence].
    apply dispatch_exact in A; [|exact Bp]. congruence. }
  apply prepare_fields in P as (Pe & _ & Pl & _ & Pd). destruct (protection payload u Bp Am Nn) as (S1 & S2). rewrite <- Pe, <- Pl in *.
  rewrite Ep, Ex. split; intros K.
  - apply S1 in K. rewrite K. auto.
  - destruct (sc_encrypted sc); [exfalso; apply K, S1; reflexivity|]. rewrite S2 by reflexivity. auto.
Qed.

Lemma mode_shown env data payload id u key enrich d : bytes_ok data -> message data payload id -> app_meaning payload u -> ~ nested_session payload ->
  decode_bytes env data key enrich = Ok d ->
  transport_shown payload (do_transport d) /\
  exists m, has_mode payload m /\ so_mode_code (do_security d) = m /\
    match m with
    | Some m => exists t, so_mode (do_security d) = Some t /\ mode_name m t
    | None => so_mode (do_security d) = None
    end.
Proof.
  intros B M Am Nn H. pose proof (message_bytes _ _ _ B M) as Bp.
  destruct (message_fields env data payload id (Some u) None key enrich d B M) as (Et & Em & Ec & _); [left; eauto|exact H|].
  destruct (transport_details payload u id Bp Am Nn) as (T & m & Hm & E1 & E2). rewrite Et, Em, Ec. split; [exact T|].
  exists m. split; [exact Hm|]. split; [exact E1|]. destruct m; [exact E2|]. now rewrite E2.
Qed.
