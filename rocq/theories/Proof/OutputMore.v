(** Facts about decoding frames for display: Format A, keys, identities and records. *)
From Coq Require Import List NArith ZArith Lia Bool String.
Import ListNotations.
From Verif Require Import Model.Base Model.Text Model.Core Model.Wired Model.Wireless Model.DataInfo Model.ValueInfo Model.Record Model.Decrypt
  Model.UserData Model.Hex Model.MbusData Model.Show Model.Output
  Spec.CoreSpec Spec.TextSpec Spec.CrcSpec Spec.WiredSpec Spec.WirelessSpec Spec.DecryptSpec Spec.RecordSpec Spec.AppSpec Spec.AnnotateSpec Spec.MbusSpec Spec.OutputSpec
  Proof.BaseFacts Proof.CoreFacts Proof.RecordFacts Proof.WiredFacts Proof.WiredProps Proof.WirelessFacts Proof.FormatAFacts Proof.FormatAProps Proof.IterFacts Proof.PanicFacts
  Proof.AppFacts Proof.AppDecrypt Proof.HexFacts Proof.AnnotateApp Proof.MbusFacts Proof.OutputFacts Proof.OutputRecords Proof.OutputFrames Proof.ShowFacts.
Open Scope N_scope.

(** ** Format A *)
Lemma build_same env pr fr o o' nm nm' st st' pl u rs ae id sc en :
  same_result (build_output env pr fr o nm st pl u rs ae id sc en) (build_output env pr fr o' nm' st' pl u rs ae id sc en).
Proof.
  unfold build_output. destruct (collect_records env rs) as [[outs re]|e|q]; cbn [bind]; [|reflexivity..].
  destruct (meter_and_transport u id) as [[? ?] ?]. repeat split.
Qed.
Lemma received_same env data data' w fr key enrich :
  bytes_ok data -> bytes_ok data' -> not_wired data -> not_wired data' -> received data w -> received data' w -> wireless_meaning w fr ->
  same_result (decode_bytes env data key enrich) (decode_bytes env data' key enrich).
Proof.
  intros B B' W W' R R' Wm.
  assert (G : forall data, bytes_ok data -> not_wired data -> received data w -> exists st,
    decode_bytes env data key enrich =
     match mbus_wireless_try_from w with
     | Ok parsed => sc <- prepare_security (env_aes env) (md_user_data parsed) (Some (wf_manufacturer_id (md_frame parsed))) key ;;
                    build_wireless_output env data w st parsed (shown_records parsed sc) sc enrich
     | Err e => decode_bytes env data key enrich
     | Panic p => Panic p
     end).
  { clear - Wm. intros data B W R. pose proof (received_bytes _ _ B R) as Bw.
    pose proof (wireless_len _ _ Wm) as L. pose proof (received_len _ _ R) as L'.
    destruct (not_wired_error (env_config env) data W) as [e' Ew]; [lia|].
    destruct (received_frame data w fr B Bw R Wm) as (r & out & Es & En).
    exists (negb (len w =? len data)). unfold decode_bytes at 1. destruct data as [|b data]; [change (len []) with 0 in L'; lia|].
    unfold mbus_wired_try_from at 1. rewrite Ew. cbn [map_err bind]. rewrite Es. cbn [map_err bind]. rewrite En.
    destruct (mbus_wireless_try_from w) as [m|x|q] eqn:E; [reflexivity| |reflexivity].
    unfold decode_bytes. unfold mbus_wired_try_from. rewrite Ew. cbn [map_err bind]. rewrite Es. cbn [map_err bind]. rewrite En, E. reflexivity. }
  destruct (G _ B W R) as [st E]. destruct (G _ B' W' R') as [st' E']. rewrite E, E'.
  pose proof (received_bytes _ _ B R) as Bw. destruct (wireless_data w Bw) as (_ & W2 & _). destruct (W2 fr Wm) as (m & Em & _). rewrite Em.
  destruct (prepare_security _ _ _ _) as [sc|e|p]; cbn [bind]; [|reflexivity..].
  unfold build_wireless_output. apply build_same.
Qed.
Lemma format_a_same env data w fr key enrich :
  bytes_ok data -> format_a w data -> wireless_meaning w fr -> not_wired data -> not_wired w -> no_first_crc w ->
  same_result (decode_bytes env data key enrich) (decode_bytes env w key enrich).
Proof.
  intros B F Wm N1 N2 C. assert (R : received data w) by (right; exact F).
  pose proof (received_bytes _ _ B R) as Bw. eapply received_same; try eassumption. left. split; [reflexivity|exact C].
Qed.

(** ** A key for a message in clear *)
Lemma clear_key env data payload id block u key enrich :
  bytes_ok data -> message data payload id -> in_clear payload block -> app_meaning payload u ->
  match decode_bytes env data (Some key) enrich, decode_bytes env data None enrich with
  | Ok a, Ok b => same_but_key a b /\ so_key_supplied (do_security a) = true /\ mentions a (txt "security.key_unused")
  | Panic p, Panic q => p = q
  | _, _ => False
  end.
Proof.
  intros B M C A. pose proof (message_bytes _ _ _ B M) as Bp.
  destruct (decode_message env data payload id (Some u) None B M) as (pr & fr & nm & st & H); [left; eauto|].
  rewrite !H. destruct (clear_fields _ _ C Bp u A) as (_ & mode & Ef & _).
  unfold prepare_security. rewrite Ef. cbn [negb is_some bind].
  assert (Er : forall k, records_of (Some u) {| sc_encrypted := false; sc_mode := mode; sc_ell_encrypted := false; sc_decrypted := false;
     sc_key_supplied := k; sc_decrypted_payload := None |} = records_of (Some u) {| sc_encrypted := false; sc_mode := mode; sc_ell_encrypted := false; sc_decrypted := false;
     sc_key_supplied := false; sc_decrypted_payload := None |}) by reflexivity.
  rewrite (Er true).
  set (rs := records_of _ _). unfold build_output.
  destruct (collect_records env rs) as [[outs re]|e|p] eqn:Ec; cbn [bind]; [| |reflexivity].
  - destruct (meter_and_transport (Some u) id) as [[? ?] ?]. split; [|split; [reflexivity|]].
    + repeat split.
      * cbn [do_diagnostics early_diagnostics sc_encrypted sc_decrypted sc_key_supplied andb negb app]. intros [<-|Hin]; [|exact Hin].
        exfalso. apply H0. reflexivity.
      * cbn [do_diagnostics early_diagnostics sc_encrypted sc_decrypted sc_key_supplied andb negb app]. intros Hin. right. exact Hin.
    + eexists. split; [left; reflexivity|reflexivity].
  - assert (of_block rs) as Ob.
    { unfold rs. cbn [records_of sc_decrypted_payload sc_encrypted]. destruct (variable_block u); [right; do 2 eexists; reflexivity|left; reflexivity]. }
    exfalso. destruct Ob as [E|(bl & hd & E)]; rewrite E in Ec; [discriminate Ec|].
    destruct (collect_records_cases env bl hd) as [(? & ? & K)|(? & ? & K & _)]; rewrite K in Ec; discriminate Ec.
Qed.

(** ** The identity of the meter *)
Lemma flag_inj a b c a' b' c' : capital a -> capital b -> capital c -> capital a' -> capital b' -> capital c' ->
  flag_id a b c = flag_id a' b' c' -> a = a' /\ b = b' /\ c = c'.
Proof. unfold capital, flag_id. intros. lia. Qed.
Lemma show_number bytes n : bcd_number bytes n -> length bytes = 4%nat -> packed_digits bytes (show_identification n).
Proof.
  intros (ds & S & ->) L. destruct (spells_digits _ _ S) as [F E]. exists ds. split; [exact S|].
  unfold show_identification. replace 8%nat with (length ds) by lia. apply dec_pad_digits; [exact F|]. intros ->. cbn in E. lia.
Qed.
Lemma long_names ci i0 i1 i2 i3 m0 m1 v d acc st c0 c1 h : d < 256 -> long_header ci [i0; i1; i2; i3] m0 m1 v d acc st c0 c1 h ->
  names_meter (identity_from_long h) (txt "tpl.long") (if ci =? 0x76 then [i3; i2; i1; i0] else [i0; i1; i2; i3]) (m0 + 256 * m1) v d.
Proof.
  intros D (H1 & H2 & H3 & H4 & _). split; [reflexivity|]. split; [|split; [|split; [|split]]].
  - eexists. split; [reflexivity|]. destruct (ci =? 0x76); (apply show_number; [exact H1|reflexivity]).
  - intros a b c Ca Cb Cc Em. cbn [identity_from_long id_manufacturer_code].
    destruct H2 as [(a' & b' & c' & Ca' & Cb' & Cc' & Em' & ->)|[Hn _]]; [|exfalso; eapply Hn; [..|exact Em]; assumption].
    rewrite Em' in Em. apply flag_inj in Em as (-> & -> & ->); try assumption. reflexivity.
  - intros Hn. cbn [identity_from_long id_manufacturer_code].
    destruct H2 as [(a' & b' & c' & Ca' & Cb' & Cc' & Em' & _)|[_ ->]]; [exfalso; eapply Hn; [..|exact Em']; assumption|reflexivity].
  - cbn [identity_from_long id_version]. rewrite H3. reflexivity.
  - cbn [identity_from_long id_device_type_code]. rewrite H4, <- device_table, device_type_lossless by exact D. reflexivity.
Qed.
Lemma link_names m0 m1 i0 i1 i2 i3 v d ci id : d < 256 -> identity m0 m1 i0 i1 i2 i3 v d ci id ->
  names_meter (identity_from_wireless id) (txt "link.wireless") [i0; i1; i2; i3] (m0 + 256 * m1) v
    (if andb (0xA0 <=? ci) (ci <=? 0xAF) then d / 16 else d).
Proof.
  intros D (C1 & C2 & C3 & Em & Hn & Hv & Hd & _). split; [reflexivity|]. split; [|split; [|split; [|split]]].
  - eexists. split; [reflexivity|]. apply show_number; [exact Hn|reflexivity].
  - intros a b c Ca Cb Cc E. cbn. rewrite Em in E. apply flag_inj in E as (<- & <- & <-); try assumption. reflexivity.
  - intros H. exfalso. eapply H; [..|exact Em]; assumption.
  - cbn. now rewrite Hv.
  - cbn [identity_from_wireless id_device_type_code]. rewrite Hd, device_type_lossless; [reflexivity|].
    destruct (_ && _); [apply N.div_lt_upper_bound; lia|exact D].
Qed.
Lemma addressed_link data m0 m1 i0 i1 i2 i3 v d payload : bytes_ok data -> addressed data [m0; m1; i0; i1; i2; i3; v; d] payload ->
  exists id ci t, message data payload (Some id) /\ identity m0 m1 i0 i1 i2 i3 v d ci id /\ d < 256 /\
    (payload = ci :: t \/ payload = []).
Proof.
  intros B A. inversion A as [|data' l c link rest fr L W R Wm]; subst. pose proof (received_bytes _ _ B R) as Bw.
  exists (wf_manufacturer_id fr). assert (Wm' := Wm).
  destruct Wm as (l' & c' & m0' & m1' & i0' & i1' & i2' & i3' & v' & d' & ci & rest' & E & _ & _ & _ & Hid' & P).
  cbn [app] in E. injection E as <- <- <- <- <- <- <- <- <- <- E. exists ci.
  destruct P as [(hi & lo & P & _)|[P _]].
  - exists (tl (wf_data fr)). split; [econstructor; eassumption|]. split; [exact Hid'|].
    split; [cbn [app] in Bw; bytes_split Bw; assumption|].
    destruct (wf_data fr) as [|x t]; [right; reflexivity|]. cbn [app] in P. injection P as -> _. left. reflexivity.
  - exists rest'. split; [econstructor; eassumption|]. split; [exact Hid'|].
    split; [cbn [app] in Bw; bytes_split Bw; assumption|]. left. exact P.
Qed.
Lemma build_identity env pr fr o nm st pl u rs ae id sc en d : build_output env pr fr o nm st pl u rs ae id sc en = Ok d ->
  do_identity d = fst (fst (meter_and_transport u id)) /\ do_alternate_identities d = snd (fst (meter_and_transport u id)).
Proof.
  unfold build_output. intros H. apply bind_ok in H as ((outs & re) & _ & H).
  destruct (meter_and_transport u id) as [[? ?] ?]. apply Ok_inj in H. subst d. split; reflexivity.
Qed.
Lemma message_identity env data payload id u e key enrich d : bytes_ok data -> message data payload id -> app_result payload u e ->
  decode_bytes env data key enrich = Ok d ->
  do_identity d = fst (fst (meter_and_transport u id)) /\ do_alternate_identities d = snd (fst (meter_and_transport u id)).
Proof.
  intros B M A H. destruct (decode_message env data payload id u e B M A) as (pr & fr & nm & st & E). rewrite E in H.
  apply bind_ok in H as (sc & _ & H). eapply build_identity; exact H.
Qed.
Lemma sources_differ id h : identity_eqb (identity_from_wireless id) (identity_from_long h) = false.
Proof. reflexivity. Qed.
Lemma long_identity env data link ci i0 i1 i2 i3 m0 m1 v dv acc st c0 c1 block u key enrich d :
  bytes_ok data -> ci = 0x72 \/ ci = 0x76 ->
  addressed data link ([ci; i0; i1; i2; i3; m0; m1; v; dv; acc; st; c0; c1] ++ block) ->
  app_meaning ([ci; i0; i1; i2; i3; m0; m1; v; dv; acc; st; c0; c1] ++ block) u ->
  decode_bytes env data key enrich = Ok d ->
  (exists x, do_identity d = Some x /\
     names_meter x (txt "tpl.long") (if ci =? 0x76 then [i3; i2; i1; i0] else [i0; i1; i2; i3]) (m0 + 256 * m1) v dv) /\
  (link = [] -> do_alternate_identities d = []) /\
  (forall m0 m1 i0 i1 i2 i3 v dv, link = [m0; m1; i0; i1; i2; i3; v; dv] ->
     exists y, do_alternate_identities d = [y] /\ names_meter y (txt "link.wireless") [i0; i1; i2; i3] (m0 + 256 * m1) v dv).
Proof.
  intros B Hc Ad A H. destruct (addressed_message _ _ _ B Ad) as (Bl & id & M & _).
  pose proof (message_bytes _ _ _ B M) as Bp. cbn [app] in Bp. bytes_split Bp.
  destruct (app_long_inv _ _ _ _ _ _ _ _ _ _ _ _ _ _ _ Hc A) as (h & -> & Hh).
  split; [|split].
  - edestruct (message_identity env) as [Ei _]; [exact B|exact M|left; eexists; split; [exact A|split; reflexivity]|exact H|].
    rewrite Ei. eexists. split; [reflexivity|]. eapply long_names; [|exact Hh]. assumption.
  - intros ->. inversion Ad as [data' f a p W|data' l c lk rest fr L]; subst; [|discriminate L].
    edestruct (message_identity env) as [_ Ea]; [exact B|econstructor; exact W|left; eexists; split; [exact A|split; reflexivity]|exact H|].
    rewrite Ea. reflexivity.
  - intros n0 n1 j0 j1 j2 j3 w dw ->. destruct (addressed_link _ _ _ _ _ _ _ _ _ _ B Ad) as (id' & ci' & t & M' & Hid & Hd & E).
    edestruct (message_identity env) as [_ Ea]; [exact B|exact M'|left; eexists; split; [exact A|split; reflexivity]|exact H|].
    rewrite Ea. eexists. cbn [meter_and_transport fst snd]. rewrite sources_differ. cbn [negb]. split; [reflexivity|].
    assert (ci' = ci) as -> by (destruct E as [E|E]; [injection E as -> _; reflexivity|discriminate E]).
    pose proof (link_names _ _ _ _ _ _ _ _ _ _ Hd Hid) as K.
    replace (andb (0xA0 <=? ci) (ci <=? 0xAF)) with false in K; [exact K|]. destruct Hc as [->| ->]; reflexivity.
Qed.
Lemma link_identity env data m0 m1 i0 i1 i2 i3 v dv ci t key enrich d :
  bytes_ok data -> addressed data [m0; m1; i0; i1; i2; i3; v; dv] (ci :: t) ->
  ~ In ci [0x72; 0x73; 0x76; 0x77] -> decode_bytes env data key enrich = Ok d ->
  do_alternate_identities d = [] /\
  exists x, do_identity d = Some x /\
    names_meter x (txt "link.wireless") [i0; i1; i2; i3] (m0 + 256 * m1) v
      (if andb (0xA0 <=? ci) (ci <=? 0xAF) then dv / 16 else dv).
Proof.
  intros B Ad Hc H. destruct (addressed_link _ _ _ _ _ _ _ _ _ _ B Ad) as (id & ci' & t' & M & Hid & Hd & E).
  assert (ci' = ci) as -> by (destruct E as [E|E]; [injection E as -> _; reflexivity|discriminate E]).
  pose proof (message_bytes _ _ _ B M) as Bp.
  assert (R : exists u e, app_result (ci :: t) u e /\ forall x, u = Some x -> app_meaning (ci :: t) x).
  { destruct (user_data_try_from (ci :: t)) as [x|e|p] eqn:T.
    - apply dispatch_exact in T; [|exact Bp]. exists (Some x), None. split; [left; eauto|]. intros y Ey. injection Ey as <-. exact T.
    - exists None, (Some e). split; [right; eauto|]. discriminate.
    - exfalso. eapply dispatch_no_panic; [exact Bp|]. rewrite T. eexists. reflexivity. }
  destruct R as (u & e & R & Au). destruct (message_identity env _ _ _ _ _ _ _ _ B M R H) as [Ei Ea]. rewrite Ei, Ea.
  assert (K : meter_and_transport u (Some id) = (Some (identity_from_wireless id), [], snd (meter_and_transport u (Some id)))).
  { destruct u as [u|]; [|reflexivity]. specialize (Au u eq_refl).
    destruct u; try reflexivity; exfalso; inversion Au; subst;
      solve [match goal with K : with_ell _ _ _ |- _ => inversion K end
            |match goal with K : _ \/ _ |- _ => destruct K; subst; apply Hc; cbn; tauto end]. }
  rewrite K. cbn [fst snd]. split; [reflexivity|]. eexists. split; [reflexivity|]. now apply link_names.
Qed.
