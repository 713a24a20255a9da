(** Errors and panics of the conversion to XML; the fixed data structure. *)
From Coq Require Import List NArith ZArith Lia Bool String.
Import ListNotations.
From Verif Require Import Model.Base Model.Text Model.Core Model.Wired Model.Wireless Model.F64 Model.DataInfo Model.ValueInfo Model.Record Model.Decrypt
  Model.UserData Model.Hex Model.MbusData Model.Escape Model.Show Model.Output Model.Rscada
  Spec.EscapeSpec Spec.TextSpec Spec.CoreSpec Spec.CrcSpec Spec.WiredSpec Spec.WirelessSpec Spec.DecryptSpec Spec.RecordSpec Spec.AppSpec Spec.AnnotateSpec
  Spec.MbusSpec Spec.OutputSpec
  Proof.BaseFacts Proof.CoreFacts Proof.EscapeFacts Proof.ShowFacts Proof.RecordFacts Proof.WirelessFacts Proof.WiredFacts Proof.IterFacts Proof.PanicFacts Proof.WiredProps Proof.AppFacts
  Proof.FormatAFacts Proof.MbusFacts
  Proof.OutputFacts Proof.OutputRecords Proof.OutputFrames Proof.OpenedFacts Proof.OutputMore Spec.XmlSpec Spec.RscadaSpec Proof.XmlFacts Proof.RscadaFacts Proof.RscadaMessages.
Open Scope N_scope.

(** *** Outcomes of the parts *)
Lemma render_items_cases powi items : forall i,
  (exists out, render_items powi i items = Ok out) \/ (exists p, render_items powi i items = Panic p /\ In (Panic p) items).
Proof.
  induction items as [|x items IH]; intros i; cbn [render_items]; [eauto|].
  destruct x as [r|e|p].
  - destruct (IH (i + 1)) as [(o & ->)|(p & -> & Hp)]; cbn [bind]; [eauto|right; exists p; split; [reflexivity|now right]].
  - destruct (IH i) as [(o & ->)|(p & -> & Hp)]; [eauto|right; exists p; split; [reflexivity|now right]].
  - right. exists p. split; [reflexivity|now left].
Qed.
(** the outcome is a text, or the panic of reading the records *)
Definition text_or_panic (cf : config) (rs : option data_records) (x : outcome xml_error text) : Prop :=
  (exists out, x = Ok out) \/
  (exists block hdr items p, x = Panic p /\ rs = Some (records_new block hdr) /\ records_all cf block hdr = Some items /\ In (Panic p) items).
Lemma render_records_cases cf powi rs : of_block rs -> text_or_panic cf rs (render_records cf powi rs).
Proof.
  intros [->|(block & hdr & ->)]; [left; eexists; reflexivity|]. cbn [render_records rs_data records_new].
  destruct (records_all_decodes cf block hdr) as (l & E & _). pose proof E as E'. unfold records_all in E'.
  cbn [rs_data records_new] in E'. rewrite E'.
  destruct (render_items_cases powi l 0) as [(o & ->)|(p & -> & Hp)]; cbn [map_err]; [left; eauto|].
  right. exists block, hdr, l, p. auto.
Qed.
Lemma variable_cases cf powi h rs : of_block rs -> text_or_panic cf rs (render_variable cf powi h rs).
Proof.
  intros H. unfold render_variable. destruct (render_records_cases cf powi rs H) as [(o & ->)|(bl & hd & it & p & -> & K)]; cbn [bind].
  - left. eauto.
  - right. exists bl, hd, it, p. auto.
Qed.
Lemma wireless_cases cf powi id a s g rs : of_block rs -> text_or_panic cf rs (render_wireless_variable cf powi id a s g rs).
Proof.
  intros H. unfold render_wireless_variable. destruct (render_records_cases cf powi rs H) as [(o & ->)|(bl & hd & it & p & -> & K)]; cbn [bind].
  - left. eauto.
  - right. exists bl, hd, it, p. auto.
Qed.
Lemma xml_decrypt_cases env u id key :
  (exists d, xml_decrypt env (Some u) id key = Ok d) \/
  (exists e, (e = XPayloadLength \/ exists d, e = XDecryption d) /\ xml_decrypt env (Some u) id key = Err e).
Proof.
  unfold xml_decrypt. cbn [ok_or bind]. destruct (decrypt_user_data (env_aes env) u id key (repeat 0 512)) as [[n|e|p] o] eqn:E; cbn [map_err bind].
  - destruct (get_to o n); cbn [ok_or]; [left; eauto|right; eexists; split; [left; reflexivity|reflexivity]].
  - right; eexists; split; [right; eexists; reflexivity|reflexivity].
  - destruct (decrypt_user_total _ _ _ _ _ _ _ E).
Qed.
(** a text, the panic of reading records, or a failure to decrypt *)
Definition xml_cases (env : environment) (u : option user_data_block) (id : option manufacturer_id) (rs : option data_records)
  (key : option (list N)) (x : outcome xml_error text) : Prop :=
  text_or_panic (env_config env) rs x \/
  (exists k d hdr, key = Some k /\ xml_decrypt env u id k = Ok d /\ text_or_panic (env_config env) (Some (records_new d hdr)) x) \/
  (key <> None /\ exists e, (e = XPayloadLength \/ exists d, e = XDecryption d) /\ x = Err e).
Lemma of_none : of_block None.
Proof. left. reflexivity. Qed.
Lemma text_or_panic_none cf rs x : text_or_panic cf None x -> text_or_panic cf rs x.
Proof. intros [K|(b & h & i & p & _ & K & _)]; [left; exact K|discriminate K]. Qed.
Lemma optional_cases env powi h u rs id key : of_block rs ->
  xml_cases env (Some u) id rs key (render_with_optional_decryption env powi h (Some u) rs id key).
Proof.
  intros H. unfold render_with_optional_decryption. destruct (negb _); [left; now apply variable_cases|].
  destruct key as [key|]; [|left; eapply text_or_panic_none, variable_cases, of_none].
  right. destruct (xml_decrypt_cases env u id key) as [(d & E)|(e & He & E)]; rewrite E; cbn [bind].
  - left. exists key, d. eexists. split; [reflexivity|]. split; [exact E|]. apply variable_cases. right. eauto.
  - right. split; [discriminate|]. eauto.
Qed.
Lemma wireless_optional_cases env powi m a s g key u : md_user_data m = Some u -> of_block (md_data_records m) ->
  xml_cases env (Some u) (Some (wf_manufacturer_id (md_frame m))) (md_data_records m) key (render_wireless_with_optional_decryption env powi m a s g key).
Proof.
  intros Hu H. unfold render_wireless_with_optional_decryption. rewrite Hu. destruct (negb _); [left; now apply wireless_cases|].
  destruct key as [key|]; [|left; eapply text_or_panic_none, wireless_cases, of_none].
  right. destruct (xml_decrypt_cases env u (Some (wf_manufacturer_id (md_frame m))) key) as [(d & E)|(e & He & E)]; rewrite E; cbn [bind].
  - left. exists key, d. eexists. split; [reflexivity|]. split; [exact E|]. apply wireless_cases. right. eauto.
  - right. split; [discriminate|]. eauto.
Qed.
Lemma air_cases env powi m key : of_block (md_data_records m) ->
  xml_cases env (md_user_data m) (Some (wf_manufacturer_id (md_frame m))) (md_data_records m) key (render_wireless env powi m key).
Proof.
  intros H. unfold render_wireless. destruct (md_user_data m) as [u|] eqn:Eu; [|left; eapply text_or_panic_none, wireless_cases, of_none].
  destruct u as [s|n access status dtu c1 c2|ell h b|ell h b|ell b].
  - left; eapply text_or_panic_none, wireless_cases, of_none.
  - left. left. eauto.
  - apply optional_cases, H.
  - eapply wireless_optional_cases; [exact Eu|exact H].
  - left. now apply wireless_cases.
Qed.
Lemma application_of_block {E F} (fr : F) p m : with_application (E := E) fr p = Ok m -> of_block (md_data_records m).
Proof.
  unfold with_application. destruct (user_data_try_from p) as [x|e|q]; [| |discriminate]; intros H; apply Ok_inj in H; subst m; cbn;
    [|left; reflexivity].
  destruct x; cbn [block_records]; [left; reflexivity|left; reflexivity|right..]; do 2 eexists; reflexivity.
Qed.

(** *** Errors *)
Lemma wired_xml_cases env powi data m key : bytes_ok data -> mbus_wired_try_from (env_config env) data = Ok m ->
  (exists fr, wired_meaning data fr /\
     (forall f a ci t u, fr = LongFrame f a (ci :: t) -> In ci [0x72; 0x73; 0x76; 0x77] -> ~ app_meaning (ci :: t) u) /\
     render_from_bytes env powi data key = Err XUnsupportedWired) \/
  (exists f a p, wired_meaning data (LongFrame f a p) /\ with_application (E := mbus_error) (LongFrame f a p) p = Ok m /\
     xml_cases env (md_user_data m) None (md_data_records m) key (render_from_bytes env powi data key)).
Proof.
  intros B E. destruct (wired_data_ok _ _ _ B E) as [W L]. unfold render_from_bytes. rewrite E.
  pose proof E as E'. unfold mbus_wired_try_from in E'. apply bind_ok in E' as (fr & Ef & E'). apply map_err_ok in Ef. apply wired_ok_iff in Ef.
  assert (Eq : md_frame m = fr). { pose proof (wired_ok_iff (env_config env) data (md_frame m)). pose proof (wired_ok_iff (env_config env) data fr).
    assert (X : wired_try_from (env_config env) data = Ok (md_frame m)) by tauto. assert (Y : wired_try_from (env_config env) data = Ok fr) by tauto. congruence. }
  rewrite Eq in *.
  destruct fr as [c|f a|f a p|f a p].
  1, 2, 4: cbn [wired_payload layers] in L; destruct L as (L & _ & _); rewrite L; left; eexists; split; [exact Ef|]; split; [discriminate|reflexivity].
  pose proof (application_of_block _ _ _ E') as Ob.
  cbn [wired_payload layers] in L. destruct L as [(u & A & Eu & _)|(e & Ae & _ & Eu & _)]; rewrite Eu.
  - destruct u as [s|n access status dtu c1 c2|ell h b|ell h b|ell b].
    1, 4, 5: left; eexists; split; [exact Ef|]; split; [|reflexivity];
      intros f' a' ci t u' Ep Hin A'; injection Ep as _ _ Ep; subst p;
      inversion A; subst; cbn [In] in Hin; try lia;
      match goal with W : with_ell _ _ _ |- _ => inversion W; subst; lia end.
    + right. exists f, a, p. split; [exact Ef|]. split; [exact E'|]. left. left. eauto.
    + right. exists f, a, p. split; [exact Ef|]. split; [exact E'|].
      destruct key as [key|]; [apply optional_cases, Ob|left; apply variable_cases, Ob].
  - left. eexists. split; [exact Ef|]. split; [|reflexivity]. intros f' a' ci t u' Ep Hin A'. injection Ep as _ _ Ep. subst p.
    apply dispatch_exact in A'; [|eapply wired_payload_ok; eassumption]. unfold with_application in E'. rewrite A' in E'.
    apply Ok_inj in E'. subst m. discriminate Eu.
Qed.

Lemma xml_error_cases env powi data key e : bytes_ok data -> render_from_bytes env powi data key = Err e ->
  (e = XUnsupportedWired /\ exists fr, wired_meaning data fr /\
     forall f a ci t u, fr = LongFrame f a (ci :: t) -> In ci [0x72; 0x73; 0x76; 0x77] -> ~ app_meaning (ci :: t) u) \/
  (exists x, e = XNotAFrame x /\ ~ readable data) \/
  ((e = XPayloadLength \/ exists d, e = XDecryption d) /\ key <> None).
Proof.
  intros B H. destruct (mbus_wired_try_from (env_config env) data) as [m|we|p] eqn:Em.
  - destruct (wired_xml_cases env powi data m key B Em) as [(fr & W & N & K)|(f & a & p & W & _ & K)].
    + rewrite K in H. injection H as <-. left. split; [reflexivity|]. eauto.
    + rewrite H in K. destruct K as [[(o & K)|(? & ? & ? & ? & K & _)]|[(? & ? & ? & _ & _ & [(o & K)|(? & ? & ? & ? & K & _)])|(Hk & e' & He & K)]];
        try discriminate K. injection K as <-. right. right. auto.
  - unfold render_from_bytes in H. rewrite Em in H.
    assert (Es : exists s out, strip_format_a_crcs data (repeat 0 512) = Ok (s, out)).
    { destruct (strip_cases data (repeat 0 512) B) as [(E & _)|(? & ? & ? & ? & ? & _ & _ & _ & _ & _ & E)]; eauto. }
    destruct Es as (s & out & Es). rewrite Es in H. cbn [map_err bind] in H. pose proof (strip_normalized _ _ _ _ B Es) as Nm.
    set (w := match s with Some d => d | None => data end) in *. pose proof (normalized_bytes _ _ B Nm) as Bw.
    destruct (mbus_wireless_try_from w) as [m|x|q] eqn:Ew; cbn [map_err bind] in H; [| |discriminate H].
    + assert (Ob : of_block (md_data_records m)).
      { unfold mbus_wireless_try_from in Ew. apply bind_ok in Ew as (fr & _ & Ew). exact (application_of_block _ _ _ Ew). }
      pose proof (air_cases env powi m key Ob) as K. rewrite H in K.
      destruct K as [[(o & K)|(? & ? & ? & ? & K & _)]|[(? & ? & ? & _ & _ & [(o & K)|(? & ? & ? & ? & K & _)])|(Hk & e' & He & K)]];
        try discriminate K. injection K as <-. right. right. auto.
    + injection H as <-. right. left. eexists. split; [reflexivity|]. intros R.
      destruct R as [data fr W|data w' fr W R Wm].
      * destruct (wired_data_total (env_config env) _ _ B W) as (m & Em' & _). congruence.
      * pose proof (received_bytes _ _ B R) as Bw'. destruct (received_frame _ w' fr B Bw' R Wm) as (r & out' & Es' & En).
        rewrite Es in Es'. apply Ok_inj in Es'. injection Es' as <- <-. fold w in En. rewrite En in Ew.
        destruct (wireless_data w' Bw') as (_ & W2 & _). destruct (W2 fr Wm) as (m & Em' & _). congruence.
  - unfold render_from_bytes in H. rewrite Em in H. discriminate H.
Qed.

(** *** Panics *)
(** what the XML is made from *)
Lemma xml_of_message {E F} env (fr : F) p m id key block hdr : bytes_ok p -> with_application (E := E) fr p = Ok m ->
  (forall k, key = Some k -> cipher_of_bytes (env_aes env) k) -> id_bytes id ->
  md_data_records m = Some (records_new block hdr) \/
  (exists k, key = Some k /\ xml_decrypt env (md_user_data m) id k = Ok block) -> of_message (env_aes env) p key block.
Proof.
  intros B H K I [R|(k & -> & D)].
  - destruct (application_part _ _ _ {| sc_encrypted := false; sc_mode := None; sc_ell_encrypted := false; sc_decrypted := false; sc_key_supplied := false; sc_decrypted_payload := None |} block hdr B H eq_refl R) as (-> & pre & Ep).
    split; [rewrite Ep in B; apply bytes_ok_app in B; tauto|]. left. eauto.
  - unfold xml_decrypt in D. apply bind_ok in D as (u & Eu & D). destruct (md_user_data m) as [u'|] eqn:Em; [|discriminate Eu]. apply Ok_inj in Eu. subst u'.
    destruct (decrypt_user_data (env_aes env) u id k (repeat 0 512)) as [res o] eqn:Er. apply bind_ok in D as (n & En & D). apply map_err_ok in En. subst res.
    destruct (get_to o n) eqn:Eg; [|discriminate D]. apply Ok_inj in D. subst l.
    assert (A : app_meaning p u).
    { unfold with_application in H. destruct (user_data_try_from p) as [x|e|q] eqn:Ex; [| |discriminate H]; apply Ok_inj in H; subst m; cbn in Em; [|discriminate Em].
      injection Em as ->. now apply dispatch_exact in Ex. }
    destruct (user_data_opens (env_aes env) u id k (repeat 0 512) n o p (K k eq_refl) B A I Er) as (cipher & iv & plain & E1 & L & G & O & Bp).
    rewrite Eg in G. injection G as <-. split; [exact Bp|]. right. exists k, cipher, iv. auto.
Qed.
Lemma xml_panic env powi data key : bytes_ok data -> (forall k, key = Some k -> cipher_of_bytes (env_aes env) k) ->
  is_panic (render_from_bytes env powi data key) ->
  (overflow_checks (env_config env) = true /\ get data 0 = Some 0x68 /\ 4 <= len data <= 5) \/
  (exists bef suf, taken (env_aes env) data key (bef ++ suf) /\ panic_cause (env_config env) suf).
Proof.
  intros B Kc [p H]. destruct (mbus_wired_try_from (env_config env) data) as [m|we|q] eqn:Em.
  - right. destruct (wired_xml_cases env powi data m key B Em) as [(fr & W & N & K)|(f & a & pl & W & Ap & K)]; [congruence|].
    pose proof (wired_payload_ok _ _ _ _ B W) as Bp. destruct (wired_part _ _ _ _ W) as (pre' & post & Ew).
    rewrite H in K. destruct K as [[(o & K)|(block & hdr & items & q & K & Eb & A2 & A3)]|[(k & d & hd & Hk & Ed & [(o & K)|(block & hdr & items & q & K & Eb & A2 & A3)])|(Hk & e' & He & K)]];
        try discriminate K; (eapply taken_panic; [apply NormKeep|exact Ew| |exact A2|exact A3]);
        (eapply xml_of_message with (id := None) (hdr := hdr); [exact Bp|exact Ap|exact Kc|intros i Ei; discriminate Ei|]).
    + left. exact Eb.
    + right. injection Eb as <- <-. eauto.
  - right. unfold render_from_bytes in H. rewrite Em in H.
    assert (Es : exists s out, strip_format_a_crcs data (repeat 0 512) = Ok (s, out)).
    { destruct (strip_cases data (repeat 0 512) B) as [(E & _)|(? & ? & ? & ? & ? & _ & _ & _ & _ & _ & E)]; eauto. }
    destruct Es as (s & out & Es). rewrite Es in H. cbn [map_err bind] in H. pose proof (strip_normalized _ _ _ _ B Es) as Nm.
    set (w := match s with Some d => d | None => data end) in *. pose proof (normalized_bytes _ _ B Nm) as Bw.
    destruct (mbus_wireless_try_from w) as [m|x|q] eqn:Ew; cbn [map_err bind] in H; [|discriminate H|].
    + pose proof Ew as Ew'. unfold mbus_wireless_try_from in Ew'. apply bind_ok in Ew' as (fr & Ef & Ap). apply map_err_ok in Ef.
      apply wireless_ok_iff in Ef; [|exact Bw]. pose proof (wireless_payload_ok _ _ Bw Ef) as Bp.
      destruct (wireless_part _ _ Ef) as (pre' & post & Ew').
      assert (Ei : md_frame m = fr).
      { clear -Ap. unfold with_application in Ap. destruct (user_data_try_from (wf_data fr)); [| |discriminate Ap]; apply Ok_inj in Ap; subst m; reflexivity. }
      pose proof (air_cases env powi m key (application_of_block _ _ _ Ap)) as K. rewrite H, Ei in K.
      destruct K as [[(o & K)|(block & hdr & items & q & K & Eb & A2 & A3)]|[(k & d & hd & Hk & Ed & [(o & K)|(block & hdr & items & q & K & Eb & A2 & A3)])|(Hk & e' & He & K)]];
        try discriminate K; (eapply taken_panic; [exact Nm|exact Ew'| |exact A2|exact A3]);
        (eapply xml_of_message with (hdr := hdr); [exact Bp|exact Ap|exact Kc|exact (frame_id_bytes _ _ Bw Ef)|]).
      * left. exact Eb.
      * right. injection Eb as <- <-. eauto.
    + exfalso. destruct (wireless_data w Bw) as (_ & _ & _ & Np). apply Np. rewrite Ew. eexists. reflexivity.
  - left. apply wired_panic_iff. eapply wired_mbus_panic; [exact B|exact Em].
Qed.

(** *** The fixed data structure *)
Lemma unit_names kind name : kind < 256 -> kind mod 64 <> 0x0D -> kind mod 64 <> 0x0E -> counter_unit (kind mod 64) name -> blanked (fixed_unit kind) = name.
Proof.
  intros Hk N1 N2 U.
  assert (E : fixed_unit kind = fixed_unit (kind mod 64)).
  { unfold fixed_unit. cbv zeta. replace (N.land (kind mod 64) 0x3F) with (N.land kind 0x3F); [reflexivity|].
    change 0x3F with (N.ones 6). rewrite !N.land_ones. change (2 ^ 6) with 64. rewrite N.mod_mod by lia. reflexivity. }
  rewrite E. clear E. remember (kind mod 64) as k. clear Heqk.
  destruct U as [first u H|first u H|first u H| | | | |]; try reflexivity;
    cbn in H; repeat (destruct H as [H|H]; [injection H as <- <-; try (exfalso; lia); reflexivity|]); destruct H.
Qed.
Lemma media_names_fixed d u : d < 256 -> u < 256 -> blanked (fixed_medium d u) = nth (N.to_nat (d / 64 + 4 * (u / 64))) counter_media [].
Proof.
  intros Hd Hu. unfold fixed_medium. cbv zeta.
  assert (E1 : N.shiftr (N.land d 0xC0) 6 = d / 64) by (apply N.eqb_eq; revert d Hd; apply (sweep256 (fun d => N.shiftr (N.land d 0xC0) 6 =? d / 64)); vm_compute; reflexivity).
  assert (E2 : N.shiftr (N.land u 0xC0) 4 = 4 * (u / 64)) by (apply N.eqb_eq; revert u Hu; apply (sweep256 (fun u => N.shiftr (N.land u 0xC0) 4 =? 4 * (u / 64))); vm_compute; reflexivity).
  rewrite E1, E2. assert (D : d / 64 < 4) by (apply N.div_lt_upper_bound; lia). assert (U : u / 64 < 4) by (apply N.div_lt_upper_bound; lia).
  clear -D U. generalize dependent (d / 64). generalize dependent (u / 64). intros a Ha b Hb.
  assert (a = 0 \/ a = 1 \/ a = 2 \/ a = 3) as [ -> |[ -> |[ -> | -> ]]] by lia;
    assert (b = 0 \/ b = 1 \/ b = 2 \/ b = 3) as [ -> |[ -> |[ -> | -> ]]] by lia; reflexivity.
Qed.
Lemma stored_bit st : st < 256 -> negb (N.land st 0x40 =? 0) = ((st / 64) mod 2 =? 1).
Proof. intros H. apply eqb_prop. revert st H. apply (sweep256 (fun st => Bool.eqb (negb (N.land st 0x40 =? 0)) ((st / 64) mod 2 =? 1))). vm_compute. reflexivity. Qed.
Lemma fixed_xml env powi data payload id ci i0 i1 i2 i3 acc st d u a0 a1 a2 a3 b0 b1 b2 b3 rest n n1 n2 key :
  bytes_ok data -> payload = [ci; i0; i1; i2; i3; acc; st; d; u; a0; a1; a2; a3; b0; b1; b2; b3] ++ rest ->
  message data payload id -> ci = 0x73 \/ ci = 0x77 ->
  bcd_number [i0; i1; i2; i3] n -> bcd_number [a0; a1; a2; a3] n1 -> bcd_number [b0; b1; b2; b3] n2 ->
  exists out number access status f0 f1,
    render_from_bytes env powi data key = Ok out /\
    document out = Some ([ (txt "Id", number); (txt "Medium", nth (N.to_nat (d / 64 + 4 * (u / 64))) counter_media []);
                           (txt "AccessNumber", access); (txt "Status", status) ],
                         [ (txt "0", f0); (txt "1", f1) ]) /\
    written number n /\ written access acc /\ compact status [st] /\
    counter_record (fun code => code <> 0x0D /\ code <> 0x0E) st d n1 f0 /\
    counter_record (fun code => code <> 0x0D /\ code <> 0x0E) st u n2 f1.
Proof.
  intros B Ep M Hci Hn H1 H2. pose proof (message_bytes _ _ _ B M) as Bp.
  assert (A : app_meaning payload (FixedDataStructure n acc st (256 * d + u) n1 n2)) by (rewrite Ep; now apply AMFixed).
  assert (Bs : st < 256 /\ d < 256 /\ u < 256).
  { rewrite Ep in Bp. cbn [app] in Bp. repeat (apply bytes_ok_cons in Bp; let K := fresh "K" in destruct Bp as [K Bp]). auto. }
  destruct Bs as (Bs & Bd & Bu).
  assert (E : render_from_bytes env powi data key = Ok (render_fixed n acc st (256 * d + u) n1 n2)).
  { clear Ep. inversion M as [data' f a payload' W|data' w fr W R Wm]; subst.
    - now rewrite (render_wired env powi data f a _ _ key B W A).
    - destruct (render_air env powi data w fr B W R Wm) as (m & Ef & E & Ea & _). destruct (Ea _ A) as [Eu Er]. rewrite E.
      unfold render_wireless. rewrite Eu. reflexivity. }
  exists (render_fixed n acc st (256 * d + u) n1 n2). do 5 eexists. split; [exact E|]. split.
  { rewrite fixed_shown by exact Bs. unfold fixed_fields.
    replace ((256 * d + u) / 256) with d by (rewrite N.mul_comm, N.div_add_l by lia; rewrite (N.div_small u) by exact Bu; lia).
    replace ((256 * d + u) mod 256) with u by (rewrite N.add_comm, N.mul_comm, N.mod_add by lia; rewrite N.mod_small by exact Bu; reflexivity).
    rewrite media_names_fixed by assumption. reflexivity. }
  split; [apply dec_written|]. split; [apply dec_written|]. split; [now apply status_compact|].
  split; (do 2 eexists; split; [unfold RscadaFacts.counter_fields; rewrite stored_bit by exact Bs; reflexivity|]; split; [apply dec_written|]);
    intros name [K1 K2] Un; now apply unit_names.
Qed.
