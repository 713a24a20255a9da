(** Frames with their application layer; the frames shown after decryption. *)
From Coq Require Import List NArith Lia Bool.
Import ListNotations.
From Verif Require Import Model.Base Model.Core Model.Wired Model.Wireless Model.DataInfo Model.Record Model.Decrypt Model.UserData
  Model.MbusData Spec.CoreSpec Spec.CrcSpec Spec.WiredSpec Spec.WirelessSpec Spec.DecryptSpec Spec.AppSpec Spec.AnnotateSpec Spec.MbusSpec
  Proof.BaseFacts Proof.CoreFacts Proof.WiredFacts Proof.WirelessFacts Proof.FormatAFacts Proof.RecordFacts Proof.IterFacts
  Proof.WiredProps Proof.DecryptFacts Proof.AppFacts Proof.AppDecrypt Proof.FormatAProps Proof.AnnotateApp.
Open Scope N_scope.

(** * Layers *)
Lemma with_application_layers {E F} (fr : F) p (m : mbus_data F) : bytes_ok p ->
  with_application (E := E) fr p = Ok m -> md_frame m = fr /\ layers (Some p) m.
Proof.
  intros Hb. unfold with_application.
  destruct (user_data_try_from p) as [u|e|q] eqn:Eu; intros H; inversion H; subst; cbn; split; try reflexivity.
  - left. exists u. rewrite <- dispatch_exact by assumption. auto.
  - right. exists e. split; [apply dispatch_errors; assumption|auto].
Qed.
Lemma with_application_total {E F} (fr : F) p : bytes_ok p ->
  exists m, with_application (E := E) fr p = Ok m.
Proof.
  intros Hb. unfold with_application. pose proof (dispatch_no_panic p Hb) as Hp.
  destruct (user_data_try_from p) eqn:Eu; eauto. exfalso. apply Hp. eexists; reflexivity.
Qed.

Lemma wired_payload_ok data f a p : bytes_ok data -> wired_meaning data (LongFrame f a p) -> bytes_ok p.
Proof.
  intros Hb H. inversion H; subst. unfold long_layout in Hb. bytes_split Hb.
  match goal with K : bytes_ok (p ++ _) |- _ => apply bytes_ok_app in K; tauto end.
Qed.

Lemma wired_data_ok cf data m : bytes_ok data -> mbus_wired_try_from cf data = Ok m ->
  wired_meaning data (md_frame m) /\ layers (wired_payload (md_frame m)) m.
Proof.
  intros Hb H. unfold mbus_wired_try_from in H. bind_inv H. apply map_err_ok in Ha. apply wired_ok_iff in Ha.
  destruct a as [c|f ad|f ad p|f ad p]; try (inversion H; subst; cbn; split; [assumption|repeat split; reflexivity]).
  apply with_application_layers in H; [|eapply wired_payload_ok; eassumption].
  destruct H as [-> L]. split; [assumption|exact L].
Qed.
Lemma wired_data_total cf data fr : bytes_ok data -> wired_meaning data fr ->
  exists m, mbus_wired_try_from cf data = Ok m /\ md_frame m = fr.
Proof.
  intros Hb H. pose proof H as Hw. apply (wired_ok_iff cf) in Hw. unfold mbus_wired_try_from. rewrite Hw. cbn [map_err bind].
  destruct fr as [c|f ad|f ad p|f ad p]; try (eexists; split; [reflexivity|reflexivity]).
  pose proof (wired_payload_ok _ _ _ _ Hb H) as Hp.
  destruct (with_application_total (E := mbus_error) (LongFrame f ad p) p Hp) as [m Hm].
  exists m. split; [assumption|]. apply with_application_layers in Hm; tauto.
Qed.
Lemma wired_data_errors cf data e : bytes_ok data -> mbus_wired_try_from cf data = Err e ->
  exists e', e = MFrameError e' /\ wired_try_from cf data = Err e'.
Proof.
  intros Hb H. unfold mbus_wired_try_from in H. destruct (wired_try_from cf data) as [fr|e'|p] eqn:Ew; cbn in H; try discriminate.
  - destruct fr as [c|f ad|f ad p|f ad p]; try discriminate. apply wired_ok_iff in Ew.
    destruct (with_application_total (E := mbus_error) (LongFrame f ad p) p (wired_payload_ok _ _ _ _ Hb Ew)). congruence.
  - inversion H. eauto.
Qed.
Lemma wired_data cf data : bytes_ok data ->
  (forall m, mbus_wired_try_from cf data = Ok m ->
     wired_meaning data (md_frame m) /\ layers (wired_payload (md_frame m)) m) /\
  (forall fr, wired_meaning data fr -> exists m, mbus_wired_try_from cf data = Ok m /\ md_frame m = fr) /\
  (forall e, mbus_wired_try_from cf data = Err e ->
     exists e', e = MFrameError e' /\ wired_try_from cf data = Err e').
Proof.
  intros Hb. repeat split.
  - eapply wired_data_ok; eassumption.
  - eapply wired_data_ok; eassumption.
  - intros fr. apply wired_data_total; assumption.
  - intros e. apply wired_data_errors; assumption.
Qed.

Lemma wireless_payload_ok data fr : bytes_ok data -> wireless_meaning data fr -> bytes_ok (wf_data fr).
Proof.
  intros Hb (l & c & m0 & m1 & i0 & i1 & i2 & i3 & v & d & ci & rest & -> & _ & _ & _ & _ & P).
  apply bytes_ok_app in Hb. destruct Hb as [_ Hb]. destruct P as [(hi & lo & E & _)|[-> _]]; [|assumption].
  rewrite E in Hb. apply bytes_ok_app in Hb. tauto.
Qed.
Lemma wireless_data data : bytes_ok data ->
  (forall m, mbus_wireless_try_from data = Ok m ->
     wireless_meaning data (md_frame m) /\ layers (Some (wf_data (md_frame m))) m) /\
  (forall fr, wireless_meaning data fr -> exists m, mbus_wireless_try_from data = Ok m /\ md_frame m = fr) /\
  (forall e, mbus_wireless_try_from data = Err e ->
     exists e', e = MWirelessFrameError e' /\ wireless_try_from data = Err e') /\
  ~ is_panic (mbus_wireless_try_from data).
Proof.
  intros Hb. unfold mbus_wireless_try_from.
  assert (T : forall fr, wireless_meaning data fr -> exists m,
    with_application (E := mbus_error) fr (wf_data fr) = Ok m /\ md_frame m = fr /\ layers (Some (wf_data fr)) m).
  { intros fr H. pose proof (wireless_payload_ok _ _ Hb H) as Hp.
    destruct (with_application_total (E := mbus_error) fr (wf_data fr) Hp) as [m Hm]. exists m. split; [assumption|].
    apply with_application_layers in Hm; assumption. }
  destruct (wireless_try_from data) as [fr|e|p] eqn:Ew; cbn [map_err bind].
  - pose proof Ew as Hw. apply wireless_ok_iff in Hw; [|assumption]. destruct (T fr Hw) as (m & Hm & Hf & HL).
    rewrite Hm. repeat split.
    + replace (md_frame m0) with fr by congruence. assumption.
    + assert (m0 = m) by congruence. subst m0. rewrite Hf. exact HL.
    + intros fr' H'. exists m. split; [reflexivity|]. rewrite Hf. eapply wireless_meaning_unique; eassumption.
    + discriminate.
    + apply is_panic_Ok.
  - repeat split; try discriminate.
    + intros fr H. apply wireless_ok_iff in H; [congruence|assumption].
    + intros e' H. inversion H. eauto.
    + apply is_panic_Err.
  - exfalso. apply (wireless_panic data). eexists; exact Ew.
Qed.

(** * Records of both kinds *)
Lemma parse_without_header cf data h : lh_lsb_order h = false ->
  data_record_parse cf data (Some h) = data_record_parse cf data None.
Proof. intros E. unfold data_record_parse, coding_parse. rewrite E. reflexivity. Qed.
Lemma next_without_header cf fuel : forall o data h, lh_lsb_order h = false ->
  records_next cf fuel {| rs_offset := o; rs_data := data; rs_header := Some h |} =
  match records_next cf fuel {| rs_offset := o; rs_data := data; rs_header := None |} with
  | (r, s) => (r, {| rs_offset := rs_offset s; rs_data := rs_data s; rs_header := Some h |})
  end.
Proof.
  induction fuel as [|fuel IH]; intros o data h E; cbn [records_next rs_offset rs_data rs_header]; [reflexivity|].
  destruct (o <? len data); [|reflexivity]. destruct (get data o) as [b|]; [|reflexivity].
  destruct (get_from data o) as [rest|]; [|reflexivity]. rewrite parse_without_header by assumption.
  destruct (is_special_function b).
  - destruct (special_function b); unfold set_offset; cbn [rs_offset rs_data rs_header]; try reflexivity; apply IH; assumption.
  - destruct (data_record_parse cf rest None); reflexivity.
Qed.
Lemma next_data cf fuel : forall s r s', records_next cf fuel s = (r, s') -> rs_data s' = rs_data s /\ rs_header s' = rs_header s.
Proof.
  induction fuel as [|fuel IH]; intros s r s'; cbn [records_next]; [intros H; inversion H; auto|].
  destruct (_ <? _); [|intros H; inversion H; auto]. destruct (get _ _) as [b|]; [|intros H; inversion H; auto].
  destruct (get_from _ _) as [rest|]; [|intros H; inversion H; auto].
  destruct (is_special_function b).
  - destruct (special_function b); intros H; try (inversion H; subst; auto; fail); apply IH in H; exact H.
  - destruct (data_record_parse cf rest _); intros H; inversion H; auto.
Qed.
Lemma collect_without_header cf fuel : forall o data h, lh_lsb_order h = false ->
  collect cf fuel {| rs_offset := o; rs_data := data; rs_header := Some h |} =
  collect cf fuel {| rs_offset := o; rs_data := data; rs_header := None |}.
Proof.
  induction fuel as [|fuel IH]; intros o data h E; [reflexivity|]. cbn [collect]. unfold next. cbn [rs_data].
  rewrite next_without_header by assumption.
  destruct (records_next cf _ {| rs_offset := o; rs_data := data; rs_header := None |}) as [r s] eqn:En.
  apply next_data in En. destruct s as [o' d' h']. cbn in En. destruct En as [-> ->]. cbn [rs_offset rs_data].
  destruct r as [|[x|x|x]|]; try reflexivity; rewrite IH by assumption; reflexivity.
Qed.
Lemma records_without_header cf data h : lh_lsb_order h = false ->
  records_all cf data (Some h) = records_all cf data None.
Proof. apply collect_without_header. Qed.

Lemma with_application_records {E F} (fr : F) p (m : mbus_data F) u :
  with_application (E := E) fr p = Ok m -> md_user_data m = Some u ->
  md_data_records m = option_map (fun b => records_new b None) (variable_block u).
Proof.
  unfold with_application. destruct (user_data_try_from p) as [x|e|q]; intros H Hu; inversion H; subst; try discriminate.
  cbn in Hu. inversion Hu; subst. destruct u; reflexivity.
Qed.
Lemma wired_records_block cf data m u :
  mbus_wired_try_from cf data = Ok m -> md_user_data m = Some u ->
  md_data_records m = option_map (fun b => records_new b None) (variable_block u).
Proof.
  intros H Hu. unfold mbus_wired_try_from in H. bind_inv H.
  destruct a as [c|f ad|f ad p|f ad p]; try (inversion H; subst; discriminate).
  eapply with_application_records; eassumption.
Qed.
Lemma wireless_records_block data m u :
  mbus_wireless_try_from data = Ok m -> md_user_data m = Some u ->
  md_data_records m = option_map (fun b => records_new b None) (variable_block u).
Proof.
  intros H Hu. unfold mbus_wireless_try_from in H. bind_inv H. eapply with_application_records; eassumption.
Qed.
Lemma same_records cf u r (o : option data_records) :
  o = option_map (fun b => records_new b None) (variable_block u) ->
  user_data_records u = Some r -> ~ reversed u ->
  exists r', o = Some r' /\ records_all cf (rs_data r') (rs_header r') = records_all cf (rs_data r) (rs_header r).
Proof.
  intros -> E R. destruct u as [s| |ell h block|ell h block|ell block]; cbn in E |- *; try discriminate.
  - destruct (long_is_encrypted h); cbn in E; [discriminate|]. inversion E; subst.
    eexists; split; [reflexivity|]. cbn. symmetry. apply records_without_header.
    destruct (lh_lsb_order h) eqn:L; [|reflexivity]. exfalso. apply R. unfold reversed. eauto.
  - destruct (short_is_encrypted h); cbn in E; [discriminate|]. inversion E; subst. eauto.
  - inversion E; subst. eauto.
Qed.
Lemma wired_same_records cf data m u r :
  mbus_wired_try_from cf data = Ok m -> md_user_data m = Some u -> user_data_records u = Some r -> ~ reversed u ->
  exists r', md_data_records m = Some r' /\
    records_all cf (rs_data r') (rs_header r') = records_all cf (rs_data r) (rs_header r).
Proof. intros H Hu. apply same_records. eapply wired_records_block; eassumption. Qed.
Lemma wireless_same_records cf data m u r :
  mbus_wireless_try_from data = Ok m -> md_user_data m = Some u -> user_data_records u = Some r -> ~ reversed u ->
  exists r', md_data_records m = Some r' /\
    records_all cf (rs_data r') (rs_header r') = records_all cf (rs_data r) (rs_header r).
Proof. intros H Hu. apply same_records. eapply wireless_records_block; eassumption. Qed.

(** * Decryption with one key *)
Definition written (block out out' : list N) : Prop :=
  exists plain, len plain = len block /\ out' = plain ++ skipn (length block) out /\ len block <= len out.
Lemma cbc_written dec key iv block out n out' : keeps_blocks dec key ->
  decrypt_aes_cbc_into dec block key iv out = (Ok n, out') -> n = len block /\ written block out out'.
Proof.
  intros K H. destruct (cbc_into_safe dec dec key iv block out K) as [[E _]|[[E _]|(clear & E & L & _ & _ & _ & Ho)]];
    rewrite E in H; inversion H; subst. split; [reflexivity|].
  exists (clear ++ skipn (N.to_nat (len block - len block mod 16)) block). rewrite len_app, len_skipn, L, N2Nat.id.
  assert (len block mod 16 <= len block) by (apply N.mod_le; discriminate).
  repeat split; [lia| |assumption]. rewrite <- app_assoc. reflexivity.
Qed.
Lemma decrypt_into_written dec get_key c block out n out' key :
  get_key c = Ok key -> keeps_blocks dec key ->
  decrypt_into dec get_key block c out = (Ok n, out') -> n = len block /\ written block out out'.
Proof.
  intros Hk K. unfold decrypt_into. rewrite Hk.
  destruct (kc_security_mode c); try (intros H; discriminate H); try (apply cbc_written; assumption).
  destruct (len out <? len block) eqn:E; intros H; inversion H; subst. apply N.ltb_ge in E.
  split; [reflexivity|]. exists block. unfold write_prefix. auto.
Qed.

Lemma one_key_get m i key ctx kp : i < 2 ^ 32 -> one_key m i key = Ok kp ->
  mc_to_id (kc_manufacturer ctx) = m -> kc_identification_number ctx = i -> kp_get_key kp ctx = Ok key.
Proof.
  intros Hi H Em Ei.
  set (e := {| ke_manufacturer := m; ke_identification := i; ke_key := key |}).
  assert (kp = add_all [e] (kp_new 1)) by (unfold one_key in H; cbn in H; inversion H; reflexivity). subst kp.
  destruct (key_provider_history 1 [e] ctx) as [K _]; [repeat constructor; exact Hi|subst i; exact Hi|].
  rewrite K. cbn. rewrite Em, Ei, !N.eqb_refl. reflexivity.
Qed.
Lemma one_key_total m i key : exists kp, one_key m i key = Ok kp.
Proof. eexists. reflexivity. Qed.
Lemma one_key_answers m i key ctx kp k : one_key m i key = Ok kp -> kp_get_key kp ctx = Ok k -> k = key.
Proof.
  intros H. unfold one_key in H. cbn in H. inversion H; subst. unfold kp_get_key. cbn.
  change (index_range (E := decryption_error) [(compute_key_id m i, key)] 0 (0 + 1)) with
    (Ok (E := decryption_error) [(compute_key_id m i, key)]). cbn [bind find fst].
  destruct (compute_key_id m i =? compute_key_id (mc_to_id (kc_manufacturer ctx)) (kc_identification_number ctx)); congruence.
Qed.

Lemma decrypt_into_key dec get_key c block out n out' key :
  (forall k, get_key c = Ok k -> k = key) -> keeps_blocks dec key ->
  decrypt_into dec get_key block c out = (Ok n, out') -> n = len block /\ written block out out'.
Proof.
  intros Hk K H. destruct (get_key c) as [k| |] eqn:E.
  - pose proof (Hk k eq_refl). subst k. eapply decrypt_into_written; eassumption.
  - unfold decrypt_into in H. rewrite E in H. discriminate.
  - unfold decrypt_into in H. rewrite E in H. discriminate.
Qed.

Lemma with_key_written dec u id key out n out' : keeps_blocks dec key ->
  decrypt_variable_data_with_key dec u id key out = (Ok (Some n), out') ->
  exists block, variable_block u = Some block /\ variable_data_len u = len block /\ n = len block /\ written block out out' /\
    ((exists ell h, u = VariableLong ell h block /\ long_is_encrypted h = true) \/
     (exists ell h, u = VariableShort ell h block /\ short_is_encrypted h = true)).
Proof.
  intros K H. destruct u as [s| |ell h block|ell h block|ell block]; cbn [decrypt_variable_data_with_key] in H; try discriminate.
  - destruct (long_is_encrypted h) eqn:Ee; cbn [negb] in H; [|discriminate].
    destruct (lh_manufacturer h) as [m|e|p] eqn:Em; try discriminate.
    destruct (one_key (mc_to_id m) (lh_identification_number h) key) as [kp|e|p] eqn:Ek; try discriminate.
    cbn [decrypt_variable_data] in H. rewrite Ee, Em in H. cbn [negb] in H.
    destruct (decrypt_into _ _ block _ out) as [[n'|e|p] o] eqn:Ed; try discriminate.
    injection H as <- <-. apply decrypt_into_key with (key := key) in Ed;
      [|intros k; eapply one_key_answers; exact Ek|assumption].
    destruct Ed as [-> W]. exists block. repeat split; eauto.
  - destruct (short_is_encrypted h) eqn:Ee; cbn [negb] in H; [|discriminate].
    destruct id as [id|]; [|discriminate].
    destruct (one_key _ (mi_identification_number id) key) as [kp|e|p] eqn:Ek; try discriminate.
    cbn [decrypt_variable_data_with_context] in H. rewrite Ee in H. cbn [negb] in H.
    destruct (decrypt_into _ _ block _ out) as [[n'|e|p] o] eqn:Ed; try discriminate.
    injection H as <- <-. apply decrypt_into_key with (key := key) in Ed;
      [|intros k; eapply one_key_answers; exact Ek|assumption].
    destruct Ed as [-> W]. exists block. repeat split; eauto.
Qed.

(** * Where the variable data are *)
Lemma block_suffix p u block : app_meaning p u -> variable_block u = Some block -> exists pre, p = pre ++ block.
Proof.
  intros H. revert block. induction H; intros bl E; cbn in E; try discriminate; try (injection E as <-).
  - eexists; reflexivity.
  - exists [0x78]. reflexivity.
  - eexists; reflexivity.
  - eexists; reflexivity.
  - match goal with W : with_ell _ _ _ |- _ => destruct W end; cbn in E; injection E as <-;
      destruct (IHapp_meaning block eq_refl) as [pre ->]; exists ([0x8C; cc; acc] ++ pre); rewrite <- app_assoc; reflexivity.
  - eexists; reflexivity.
  - eexists; reflexivity.
Qed.

Lemma get_to_written block out out' : written block out out' -> exists plain,
  get_to out' (len block) = Some plain /\ len plain = len block /\ out' = plain ++ skipn (length block) out.
Proof.
  intros (plain & L & -> & _). exists plain. repeat split; [|assumption]. rewrite <- L. apply get_to_app.
Qed.
Lemma firstn_len {A} (pre l : list A) : firstn (N.to_nat (len pre)) (pre ++ l) = pre.
Proof. rewrite len_nat, firstn_app, Nat.sub_diag, firstn_O, app_nil_r. apply firstn_all. Qed.
Lemma skipn_len {A} (pre l : list A) : skipn (N.to_nat (len pre)) (pre ++ l) = l.
Proof. rewrite len_nat, skipn_app, Nat.sub_diag, skipn_all. reflexivity. Qed.
Lemma splice_mid pre block post src :
  vec_splice (pre ++ block ++ post) (len pre) (len pre + len block) src = Ok (pre ++ src ++ post).
Proof.
  unfold vec_splice. rewrite firstn_len, app_assoc, <- len_app, skipn_len, !len_app.
  destruct (_ && _) eqn:E; [reflexivity|].
  apply andb_false_iff in E. rewrite !N.leb_gt in E. lia.
Qed.
Lemma set_nth_mid {A} (pre : list A) x y post : set_nth (pre ++ x :: post) (length pre) y = pre ++ y :: post.
Proof. induction pre as [|z pre IH]; cbn; [reflexivity|]. rewrite IH. reflexivity. Qed.
Lemma set_at_mid pre x y post i : i = len pre -> set_at (pre ++ x :: post) i y = Some (pre ++ y :: post).
Proof.
  intros ->. unfold set_at. rewrite get_app_r, N.sub_diag, get_cons_0 by lia. rewrite len_nat, set_nth_mid. reflexivity.
Qed.
Lemma checked_sub_add a b : checked_sub (a + b) b = Some a.
Proof. unfold checked_sub. destruct (N.leb_spec b (a + b)); [|lia]. f_equal. lia. Qed.

Lemma encrypted_parse p u block : bytes_ok p -> app_meaning p u ->
  (exists ell h, u = VariableLong ell h block /\ long_is_encrypted h = true) \/
  (exists ell h, u = VariableShort ell h block /\ short_is_encrypted h = true) -> encrypted_message p block.
Proof.
  intros Hb H. revert block. induction H; intros bl [(ell & h' & E & Ee)|(ell & h' & E & Ee)]; try discriminate.
  - injection E as _ <- <-. unfold long_is_encrypted in Ee. rewrite short_encrypted_iff in Ee.
    match goal with K : long_header _ _ _ _ _ _ _ _ _ _ _ |- _ => destruct K as (_ & _ & _ & _ & Es & _) end. rewrite Es in Ee.
    cbn [app] in Hb. bytes_split Hb. cbn in Ee. rewrite config_mode in Ee by assumption. apply EncLong; assumption.
  - injection E as _ <- <-. rewrite short_encrypted_iff in Ee. cbn [app] in Hb. bytes_split Hb.
    cbn in Ee. rewrite config_mode in Ee by assumption. apply EncShort; assumption.
  - injection E as _ <- <-. rewrite short_encrypted_iff in Ee. cbn [app] in Hb. bytes_split Hb.
    cbn in Ee. rewrite config_mode in Ee by assumption. apply EncShortA0; assumption.
  - match goal with W : with_ell _ _ _ |- _ => destruct W end; discriminate.
  - apply EncEll. cbn [app] in Hb. bytes_split Hb. apply IHapp_meaning; [assumption|]. right.
    match goal with W : with_ell _ _ _ |- _ => destruct W end; [|discriminate]. injection E as _ <- <-. eauto.
  - injection E as _ <- <-. rewrite short_encrypted_iff in Ee. exfalso. apply Ee. reflexivity.
  - injection E as _ <- <-. rewrite short_encrypted_iff in Ee. exfalso. apply Ee. reflexivity.
Qed.

(** * The wired view *)
Lemma rebuild_wired x c a l old head block plain : len plain = len block -> l < 256 -> l = len (head ++ block) + 2 ->
  (display <- vec_splice (0x68 :: l :: l :: x :: c :: a :: (head ++ block) ++ [old; 0x16])
     (6 + len head) (6 + len head + len block) plain ;;
   some (checked_sub (len display) 6) (fun length =>
     if (255 <? length) || (len display <? 6) then Ok None else
     some (set_at display 1 length) (fun display =>
     some (set_at display 2 length) (fun display =>
     some (checked_sub (len display) 2) (fun checksum_index =>
     some (get_range display 4 checksum_index) (fun summed =>
     some (set_at display checksum_index (checksum summed)) (fun display =>
     Ok (Some display))))))))
  = Ok (E := unit) (Some (long_layout x c a (head ++ plain))).
Proof.
  intros Lp Hl El.
  set (pre := [0x68; l; l; x; c; a]).
  replace (0x68 :: l :: l :: x :: c :: a :: (head ++ block) ++ [old; 0x16])
    with ((pre ++ head) ++ block ++ [old; 0x16]) by (unfold pre; rewrite <- !app_assoc; reflexivity).
  replace (6 + len head) with (len (pre ++ head)) by (rewrite len_app; reflexivity).
  rewrite splice_mid. cbn [bind].
  assert (Ld : len ((pre ++ head) ++ plain ++ [old; 0x16]) = l + 6).
  { rewrite !len_app in *. change (len pre) with 6. change (len [old; 22]) with 2. lia. }
  rewrite Ld, checked_sub_add. cbn [some].
  destruct (N.ltb_spec 255 l); [lia|]. destruct (N.ltb_spec (l + 6) 6); [lia|]. cbn [orb].
  replace ((pre ++ head) ++ plain ++ [old; 0x16]) with ([0x68] ++ l :: (l :: x :: c :: a :: (head ++ plain) ++ [old; 0x16]))
    by (unfold pre; rewrite <- !app_assoc; reflexivity).
  rewrite set_at_mid by reflexivity. cbn [some].
  change ([0x68] ++ l :: (l :: x :: c :: a :: (head ++ plain) ++ [old; 0x16]))
    with ([0x68; l] ++ l :: (x :: c :: a :: (head ++ plain) ++ [old; 0x16])).
  rewrite set_at_mid by reflexivity. cbn [some].
  change ([0x68; l] ++ l :: (x :: c :: a :: (head ++ plain) ++ [old; 0x16]))
    with ([0x68; l; l; x] ++ (c :: a :: head ++ plain) ++ [old; 0x16]).
  set (body := c :: a :: head ++ plain).
  assert (Lb : len body = l) by (unfold body; rewrite !len_cons, !len_app in *; lia).
  assert (Ld' : len ([0x68; l; l; x] ++ body ++ [old; 0x16]) = (4 + len body) + 2).
  { rewrite !len_app. change (len [104; l; l; x]) with 4. change (len [old; 22]) with 2. lia. }
  rewrite Ld', checked_sub_add. cbn [some].
  change 4 with (len [0x68; l; l; x]). rewrite get_range_app. cbn [some].
  rewrite app_assoc. rewrite set_at_mid by (rewrite len_app; reflexivity). cbn [some].
  rewrite checksum_sum8. unfold long_layout, body. rewrite <- !app_assoc. cbn [app].
  replace (N.of_nat (length (head ++ plain)) + 2) with l; [rewrite <- !app_assoc; reflexivity|].
  change (N.of_nat (length (head ++ plain))) with (len (head ++ plain)). rewrite !len_app in *. lia.
Qed.

Lemma wired_view_frame cf dec data key display : bytes_ok data -> keeps_blocks dec key ->
  decrypted_wired_hexview cf dec data key = Ok (Some display) ->
  exists x c a f ad head block plain,
    data = long_layout x c a (head ++ block) /\ wired_meaning data (LongFrame f ad (head ++ block)) /\
    encrypted_message (head ++ block) block /\ len plain = len block /\
    display = long_layout x c a (head ++ plain) /\ wired_meaning display (LongFrame f ad (head ++ plain)).
Proof.
  intros Hb K H. unfold decrypted_wired_hexview in H.
  destruct (mbus_wired_try_from cf data) as [m|e|p] eqn:Em; try discriminate.
  destruct (md_user_data m) as [u|] eqn:Eu; cbn [some] in H; [|discriminate].
  destruct (wired_data_ok _ _ _ Hb Em) as [Wm L].
  destruct (variable_data_len u =? 0) eqn:E0; [discriminate|].
  destruct (decrypt_variable_data_with_key dec u None key (repeat 0 256)) as [res buffer] eqn:Ed.
  destruct res as [[n|]| |]; cbn [bind some] in H; try discriminate.
  apply with_key_written in Ed; [|assumption]. destruct Ed as (block & Vb & Vl & -> & W & Enc).
  destruct (md_frame m) as [c|f ad|f ad pl|f ad pl] eqn:Ef; cbn [wired_payload layers] in L;
    try (destruct L as (L & _); congruence).
  cbn [some] in H. destruct L as [(u' & Am & Eu' & _)|(e & _ & _ & Eu' & _)]; [|congruence].
  assert (u' = u) by congruence. subst u'.
  destruct (block_suffix _ _ _ Am Vb) as [head ->].
  inversion Wm as [| |x c a f' ad' pl' Hf Ha Hc E1 E2|]. subst f' ad' pl' data.
  pose proof (wired_payload_ok _ _ _ _ Hb Wm) as Hpl.
  rewrite Vl, len_app, checked_sub_add in H. cbn [some] in H.
  destruct (get_to_written _ _ _ W) as (plain & Ep & Lp & _). rewrite Ep in H. cbn [some] in H.
  unfold long_layout in Hb, H. cbv zeta in Hb, H. bytes_split Hb.
  rewrite (rebuild_wired _ _ _ _ _ _ _ _ Lp) in H; [|assumption|reflexivity].
  injection H as <-. exists x, c, a, f, ad, head, block, plain.
  split; [reflexivity|]. split; [exact Wm|]. split; [eapply encrypted_parse; eassumption|].
  split; [exact Lp|]. split; [reflexivity|]. apply WLong; assumption.
Qed.

(** * Messages decrypted with the right key *)
Lemma bcd_number_bound b0 b1 b2 b3 n : bcd_number [b0; b1; b2; b3] n -> n < 2 ^ 32.
Proof.
  intros (ds & S & ->). do 8 (destruct ds as [|? ds]; [cbn in S; tauto|]). destruct ds as [|? [|]]; cbn in S; try tauto.
  cbn [decimal]. change (2 ^ 32) with 4294967296. lia.
Qed.
Lemma with_key_sealed_in enc dec link plain cipher u id key output :
  sealed (enc key) link plain cipher -> bytes_ok cipher -> bytes_ok link -> len cipher <= len output ->
  inverse_cipher enc dec key -> length key = 16%nat ->
  (forall m0 m1 i0 i1 i2 i3 v d id', link = [m0; m1; i0; i1; i2; i3; v; d] ->
     identity m0 m1 i0 i1 i2 i3 v d 0x7A id' -> id = Some id') ->
  user_data_try_from cipher = Ok u ->
  exists head block clear out,
    cipher = head ++ block /\ plain = head ++ clear /\ len clear = len block /\ block <> [] /\
    variable_block u = Some block /\
    ((exists h, u = VariableLong None h block /\ lh_lsb_order h = false /\ long_is_encrypted h = true) \/
     (exists h, u = VariableShort None h block /\ short_is_encrypted h = true)) /\
    decrypt_variable_data_with_key dec u id key output = (Ok (Some (len block)), clear ++ out).
Proof.
  intros S Hb Hlb Hl Hinv Hk Hid Hu.
  pose proof (proj1 (dispatch_exact _ _ Hb) Hu) as Am.
  destruct S as [i0 i1 i2 i3 m0 m1 v d acc st c0 c1 a b c n iv blocks tail Ca Cb Cc Hm Hn Hiv Hbl Ht Hne
                |m0 m1 i0 i1 i2 i3 v d id' acc st c0 c1 iv blocks tail Hlink Hi Hiv Hbl Ht Hne].
  - set (hd := [0x72; i0; i1; i2; i3; m0; m1; v; d; acc; st; c0; c1]) in *.
    set (block := cbc_encrypt (enc key) iv blocks ++ tail) in *.
    assert (Liv : length iv = 16%nat) by (destruct Hiv as [[_ ->]|[_ ->]]; reflexivity).
    assert (Lb : len (concat blocks ++ tail) = len block).
    { unfold block, len. rewrite !app_length, (len_concat enc dec blocks Hbl).
      rewrite (cbc_encrypt_len enc dec key blocks Hinv iv Liv Hbl). reflexivity. }
    assert (Nb : block <> []).
    { intros E. apply (f_equal (@length N)) in E. unfold block in E. rewrite app_length in E.
      rewrite (cbc_encrypt_len enc dec key blocks Hinv iv Liv Hbl) in E. destruct blocks; [congruence|cbn in E; lia]. }
    apply bytes_ok_app in Hb. destruct Hb as [Hh Hbb]. rewrite len_app in Hl.
    unfold hd in Am. inversion Am; subst; try (exfalso; lia).
    match goal with K : long_header _ _ _ _ _ _ _ _ _ _ _ |- _ => destruct K as (Hidn & Hman & Hv & Hd & Hs & Hlsb) end.
    change (0x72 =? 0x76) with false in Hidn. cbv iota in Hidn.
    assert (En : lh_identification_number h = n).
    { apply bcd_number_ok in Hidn, Hn. rewrite Hidn in Hn. apply Ok_inj in Hn. exact Hn. }
    pose proof Hh as Hh'. bytes_split Hh'.
    assert (Em : lh_manufacturer h = Ok {| mc1 := a; mc2 := b; mc3 := c |}).
    { apply manufacturer_read_det in Hman; [|lia]. rewrite <- Hman.
      apply manufacturer_read_det; [lia|]. left. exists a, b, c. auto. }
    assert (Ee : long_is_encrypted h = true).
    { unfold long_is_encrypted. rewrite short_encrypted_iff, Hs. cbn [short_header sh_configuration_field].
      rewrite config_mode by assumption. destruct Hiv as [[-> _]|[-> _]]; discriminate. }
    exists hd, block, (concat blocks ++ tail), (skipn (length block) output).
    split; [reflexivity|]. split; [reflexivity|]. split; [exact Lb|]. split; [exact Nb|]. split; [reflexivity|].
    split; [left; exists h; split; [reflexivity|]; split; [exact Hlsb|exact Ee]|].
    cbn [decrypt_variable_data_with_key]. rewrite Ee, Em, En. cbn [negb].
    destruct (one_key_total (mc_to_id {| mc1 := a; mc2 := b; mc3 := c |}) n key) as [kp Ek]. rewrite Ek.
    rewrite (long_decrypts enc dec (kp_get_key kp) i0 i1 i2 i3 m0 m1 v d acc st c0 c1 a b c n key blocks tail
               output (VariableLong None h block) iv); try assumption.
    + fold block. rewrite <- app_assoc. reflexivity.
    + intros ctx K1 K2 K3 K4. eapply one_key_get; [eapply bcd_number_bound; exact Hn|exact Ek|rewrite K1; reflexivity|exact K2].
    + fold block. lia.
  - set (hd := [0x7A; acc; st; c0; c1]) in *.
    set (block := cbc_encrypt (enc key) iv blocks ++ tail) in *.
    assert (Liv : length iv = 16%nat) by (destruct Hiv as [[_ ->]|[_ ->]]; [subst link|]; reflexivity).
    assert (Lb : len (concat blocks ++ tail) = len block).
    { unfold block, len. rewrite !app_length, (len_concat enc dec blocks Hbl).
      rewrite (cbc_encrypt_len enc dec key blocks Hinv iv Liv Hbl). reflexivity. }
    assert (Nb : block <> []).
    { intros E. apply (f_equal (@length N)) in E. unfold block in E. rewrite app_length in E.
      rewrite (cbc_encrypt_len enc dec key blocks Hinv iv Liv Hbl) in E. destruct blocks; [congruence|cbn in E; lia]. }
    apply bytes_ok_app in Hb. destruct Hb as [Hh Hbb]. rewrite len_app in Hl.
    pose proof (Hid _ _ _ _ _ _ _ _ _ Hlink Hi) as ->.
    unfold hd in Am. inversion Am; subst; try (exfalso; lia).
    pose proof Hh as Hh'. unfold hd in Hh'. bytes_split Hh'. pose proof Hlb as Hlb'. bytes_split Hlb'.
    assert (Ee : short_is_encrypted (short_header acc st c0 c1) = true).
    { rewrite short_encrypted_iff. cbn [short_header sh_configuration_field].
      rewrite config_mode by assumption. destruct Hiv as [[-> _]|[-> _]]; discriminate. }
    exists hd, block, (concat blocks ++ tail), (skipn (length block) output).
    split; [reflexivity|]. split; [reflexivity|]. split; [exact Lb|]. split; [exact Nb|]. split; [reflexivity|].
    split; [right; eexists; split; [reflexivity|exact Ee]|].
    cbn [decrypt_variable_data_with_key]. rewrite Ee. cbn [negb].
    destruct (one_key_total (mc_to_id (mi_manufacturer_code id')) (mi_identification_number id') key) as [kp Ek]. rewrite Ek.
    rewrite (short_decrypts enc dec (kp_get_key kp) m0 m1 i0 i1 i2 i3 v d id' acc st c0 c1 key blocks tail
               output (VariableShort None (short_header acc st c0 c1) block) iv); try assumption.
    + fold block. rewrite <- app_assoc. reflexivity.
    + repeat (apply Forall_cons || apply Forall_nil); unfold byte_ok; assumption || lia.
    + intros ctx K1 K2 K3 K4. eapply one_key_get; [|exact Ek|rewrite K1; reflexivity|exact K2].
      destruct Hi as (_ & _ & _ & _ & (ds & Hds & ->) & _).
      eapply bcd_number_bound. exists ds. split; [exact Hds|reflexivity].
    + fold block. lia.
Qed.
Lemma with_key_sealed enc dec link plain cipher u id key :
  sealed (enc key) link plain cipher -> bytes_ok cipher -> bytes_ok link -> len cipher <= 256 ->
  inverse_cipher enc dec key -> length key = 16%nat ->
  (forall m0 m1 i0 i1 i2 i3 v d id', link = [m0; m1; i0; i1; i2; i3; v; d] ->
     identity m0 m1 i0 i1 i2 i3 v d 0x7A id' -> id = Some id') ->
  user_data_try_from cipher = Ok u ->
  exists head block clear out,
    cipher = head ++ block /\ plain = head ++ clear /\ len clear = len block /\ block <> [] /\
    variable_block u = Some block /\
    decrypt_variable_data_with_key dec u id key (repeat 0 256) = (Ok (Some (len block)), clear ++ out).
Proof.
  intros S Hb Hlb Hl Hinv Hk Hid Hu.
  destruct (with_key_sealed_in enc dec link plain cipher u id key (repeat 0 256) S Hb Hlb Hl Hinv Hk Hid Hu)
    as (head & block & clear & out & E1 & E2 & E3 & E4 & E5 & _ & E6).
  exists head, block, clear, out. auto 10.
Qed.

Lemma sealed_meaning enc link plain cipher : sealed enc link plain cipher -> bytes_ok cipher -> exists u, app_meaning cipher u.
Proof.
  intros S Hb.
  destruct S as [i0 i1 i2 i3 m0 m1 v d acc st c0 c1 a b c n iv blocks tail Ca Cb Cc Hm Hn Hiv Hbl Ht Hne
                |m0 m1 i0 i1 i2 i3 v d id' acc st c0 c1 iv blocks tail Hlink Hi Hiv Hbl Ht Hne].
  - eexists. apply AMLong with (h := {| lh_identification_number := n; lh_manufacturer := Ok {| mc1 := a; mc2 := b; mc3 := c |};
      lh_version := v; lh_device_type := device_code d; lh_short_tpl_header := short_header acc st c0 c1; lh_lsb_order := false |}).
    + left; reflexivity.
    + unfold long_header. cbn. repeat split; try reflexivity; [exact Hn|]. left. exists a, b, c. auto.
  - eexists. apply AMShort. left; reflexivity.
Qed.
Lemma wired_view_plain cf enc dec x c a f ad plain cipher key :
  sealed (enc key) [] plain cipher -> bytes_ok (long_layout x c a cipher) ->
  wired_meaning (long_layout x c a cipher) (LongFrame f ad cipher) ->
  inverse_cipher enc dec key -> length key = 16%nat ->
  decrypted_wired_hexview cf dec (long_layout x c a cipher) key = Ok (Some (long_layout x c a plain)).
Proof.
  intros S Hb Wm Hinv Hk.
  pose proof (wired_payload_ok _ _ _ _ Hb Wm) as Hc.
  assert (Hl : len cipher + 2 < 256) by (pose proof Hb as Hb'; unfold long_layout in Hb'; bytes_split Hb'; assumption).
  destruct (wired_data_total cf _ _ Hb Wm) as (m & Hm & Ef). pose proof (wired_data_ok _ _ _ Hb Hm) as [_ L].
  rewrite Ef in L. cbn [wired_payload layers] in L.
  assert (Eu : exists u, md_user_data m = Some u /\ user_data_try_from cipher = Ok u).
  { destruct L as [(u & A & E & _)|(e & A & E & _ & _)].
    - exists u. split; [exact E|]. apply dispatch_exact; assumption.
    - exfalso. apply sealed_meaning in S; [|assumption]. destruct S as [u A'].
      pose proof (proj2 (dispatch_exact _ _ Hc) A') as T.
      unfold mbus_wired_try_from in Hm. rewrite (proj2 (wired_ok_iff cf _ _) Wm) in Hm. cbn [map_err bind] in Hm.
      unfold with_application in Hm. rewrite T in Hm. inversion Hm; subst. discriminate E. }
  destruct Eu as (u & Eu & Tu).
  destruct (with_key_sealed enc dec [] plain cipher u None key S) as (head & block & clear & out & -> & -> & Lc & Nb & Vb & Ed);
    try assumption; try lia; try (constructor; fail).
  { intros; discriminate. }
  unfold decrypted_wired_hexview. rewrite Hm, Eu. cbn [some].
  assert (Vl : variable_data_len u = len block) by (destruct u; cbn in Vb |- *; congruence).
  rewrite Vl. destruct (len block =? 0) eqn:E0; [apply N.eqb_eq in E0; apply len_0 in E0; congruence|].
  rewrite Ed. cbn [bind some]. rewrite Ef. cbn [some]. rewrite len_app, checked_sub_add. cbn [some].
  rewrite <- Lc at 1. rewrite get_to_app. cbn [some].
  unfold long_layout at 1. cbv zeta.
  rewrite (rebuild_wired _ _ _ _ _ _ _ _ Lc); [reflexivity|exact Hl|reflexivity].
Qed.

(** * The wireless view *)
Lemma received_frame data w fr : bytes_ok data -> bytes_ok w -> received data w -> wireless_meaning w fr ->
  exists r out, strip_format_a_crcs data (repeat 0 512) = Ok (r, out) /\ match r with Some d => d | None => data end = w.
Proof.
  intros Hb Hw [[<- Nc]|Fa] Hm.
  - destruct (strip_cases data (repeat 0 512) Hb) as [[-> _]|(head & hi & lo & enc & content & E1 & E2 & E3 & _)].
    + eexists _, _. split; reflexivity.
    + exfalso. exact (Nc _ _ _ _ E1 E2 E3).
  - destruct (wireless_meaning_length _ _ Hw Hm) as [H0 H256]. destruct (format_a_length _ _ Fa H256) as [L1 L2].
    destruct (strip_identity w data (repeat 0 512) Fa Hb) as [out' Hs]; [rewrite len_repeat; lia|exact H0|exact H256|].
    rewrite Hs. eexists _, _. split; reflexivity.
Qed.

Lemma rebuild_wireless pre head block plain l : len plain = len block -> l + 1 = len (l :: pre ++ head ++ block) -> l < 256 ->
  (display <- vec_splice (l :: pre ++ head ++ block) (1 + len pre + len head) (1 + len pre + len head + len block) plain ;;
   Ok (E := unit) (Some
     (match checked_sub (len display) 1 with
      | Some length =>
          if length <=? 255 then match set_at display 0 length with Some d => d | None => display end else display
      | None => display
      end))) = Ok (Some (l :: pre ++ head ++ plain)).
Proof.
  intros Lp Ll Hl.
  replace (l :: pre ++ head ++ block) with ((l :: pre ++ head) ++ block ++ []) in *
    by (rewrite app_nil_r; cbn; rewrite <- app_assoc; reflexivity).
  replace (1 + len pre + len head) with (len (l :: pre ++ head)) by (rewrite len_cons, len_app; lia).
  rewrite splice_mid. cbn [bind]. rewrite app_nil_r in *.
  assert (Ld : len ((l :: pre ++ head) ++ plain) = l + 1) by (rewrite len_app in *; lia).
  rewrite Ld, checked_sub_add. destruct (N.leb_spec l 255); [|lia].
  cbn [app]. change (l :: (pre ++ head) ++ plain) with ([] ++ l :: (pre ++ head) ++ plain).
  rewrite set_at_mid by reflexivity. cbn [app]. rewrite <- app_assoc. reflexivity.
Qed.

(** a frame without trailing CRC *)
Lemma wireless_parts w fr : bytes_ok w -> wireless_meaning w fr -> w = firstn 10 w ++ wf_data fr ->
  exists l pre, firstn 10 w = l :: pre /\ len pre = 9 /\ l + 1 = len w /\ l < 256.
Proof.
  intros Hb Hm E. destruct (wireless_meaning_length _ _ Hb Hm) as [H0 H256].
  destruct Hm as (l & c & m0 & m1 & i0 & i1 & i2 & i3 & v & d & ci & rest & Ew & L & _).
  exists l, [c; m0; m1; i0; i1; i2; i3; v; d]. unfold len. rewrite <- L. rewrite Ew at 1.
  repeat split; try reflexivity. unfold len in H256. lia.
Qed.

Lemma wireless_view_frame dec data w fr key display : bytes_ok data -> bytes_ok w -> keeps_blocks dec key ->
  received data w -> wireless_meaning w fr -> w = firstn 10 w ++ wf_data fr ->
  decrypted_wireless_hexview dec data key = Ok (Some display) ->
  exists head block plain, wf_data fr = head ++ block /\ encrypted_message (head ++ block) block /\
    len plain = len block /\ display = firstn 10 w ++ head ++ plain.
Proof.
  intros Hb Hw K Hr Hm Hc H. unfold decrypted_wireless_hexview in H.
  destruct (received_frame _ _ _ Hb Hw Hr Hm) as (r & out & Es & Er). rewrite Es in H. cbn [bind] in H. rewrite Er in H.
  destruct (wireless_data w Hw) as (W1 & W2 & _ & _).
  destruct (W2 fr Hm) as (m & Em & Ef). rewrite Em in H.
  destruct (W1 m Em) as (_ & L). rewrite Ef in L.
  destruct (md_user_data m) as [u|] eqn:Eu; cbn [some] in H; [|discriminate].
  destruct (variable_data_len u =? 0) eqn:E0; [discriminate|].
  destruct (decrypt_variable_data_with_key dec u (Some (wf_manufacturer_id (md_frame m))) key (repeat 0 256)) as [res buffer] eqn:Ed.
  destruct res as [[n|]| |]; cbn [bind some] in H; try discriminate.
  apply with_key_written in Ed; [|assumption]. destruct Ed as (block & Vb & Vl & -> & W & Enc).
  cbn [layers] in L. destruct L as [(u' & Am & Eu' & _)|(e & _ & _ & Eu' & _)]; [|congruence].
  assert (u' = u) by congruence. subst u'.
  destruct (block_suffix _ _ _ Am Vb) as [head Eh].
  pose proof (wireless_payload_ok _ _ Hw Hm) as Hp.
  destruct (wireless_parts _ _ Hw Hm Hc) as (l & pre & E10 & Lpre & Ll & Hl).
  rewrite Ef, Vl in H. rewrite E10, Eh in Hc.
  assert (Lw : len w = 1 + len pre + len (wf_data fr)) by (rewrite Hc at 1; rewrite Eh; cbn [app]; rewrite len_cons, !len_app; lia).
  rewrite Lw, checked_sub_add, Eh, len_app, checked_sub_add in H. cbn [some] in H.
  destruct (get_to_written _ _ _ W) as (plain & Ep & Lp & _). rewrite Ep in H. cbn [some] in H.
  rewrite Hc in H. cbn [app] in H. rewrite rebuild_wireless in H; [|exact Lp| |exact Hl].
  - injection H as <-. exists head, block, plain. split; [exact Eh|].
    split; [rewrite <- Eh; eapply encrypted_parse; eassumption|]. split; [exact Lp|]. rewrite E10. reflexivity.
  - rewrite Ll, Hc. reflexivity.
Qed.

Lemma wireless_view_plain enc dec data l c link cipher fr key plain :
  let w := [l; c] ++ link ++ cipher in
  bytes_ok data -> bytes_ok w -> length link = 8%nat -> received data w -> wireless_meaning w fr -> wf_data fr = cipher ->
  sealed (enc key) link plain cipher -> inverse_cipher enc dec key -> length key = 16%nat ->
  decrypted_wireless_hexview dec data key = Ok (Some ([l; c] ++ link ++ plain)).
Proof.
  intros w Hb Hw Hlink Hr Hm Hc S Hinv Hk. unfold decrypted_wireless_hexview.
  destruct (received_frame _ _ _ Hb Hw Hr Hm) as (r & out & Es & Er). rewrite Es. cbn [bind]. rewrite Er.
  destruct (wireless_data w Hw) as (W1 & W2 & _ & _).
  destruct (W2 fr Hm) as (m & Em & Ef). rewrite Em.
  destruct (W1 m Em) as (_ & L). rewrite Ef in L.
  pose proof (wireless_payload_ok _ _ Hw Hm) as Hp. rewrite Hc in Hp.
  assert (Eu : exists u, md_user_data m = Some u /\ user_data_try_from cipher = Ok u).
  { destruct L as [(u & A & E & _)|(e & A & E & _ & _)].
    - exists u. split; [exact E|]. apply dispatch_exact; [assumption|]. rewrite <- Hc. exact A.
    - exfalso. apply sealed_meaning in S; [|assumption]. destruct S as [u A'].
      pose proof (proj2 (dispatch_exact _ _ Hp) A') as T.
      unfold mbus_wireless_try_from in Em. rewrite (proj2 (wireless_ok_iff _ _ Hw) Hm) in Em. cbn [map_err bind] in Em.
      unfold with_application in Em. rewrite Hc, T in Em.
      assert (md_application_error m = None) by (injection Em as <-; reflexivity). congruence. }
  destruct Eu as (u & Eu & Tu). rewrite Eu. cbn [some].
  destruct (wireless_meaning_length _ _ Hw Hm) as [H0 H256].
  assert (Hbl : bytes_ok link) by (unfold w in Hw; rewrite !bytes_ok_app in Hw; tauto).
  assert (Ll : l + 1 = len w).
  { assert (l = len w - 1) by (change (get w 0) with (Some l) in H0; congruence).
    assert (1 <= len w) by (unfold w; cbn [app]; rewrite len_cons; lia). lia. }
  assert (Lw : len w = 10 + len cipher) by (unfold w; rewrite !len_app; change (len [l; c]) with 2; unfold len; rewrite Hlink; lia).
  destruct (with_key_sealed enc dec link plain cipher u (Some (wf_manufacturer_id fr)) key S)
    as (head & block & clear & out' & Ecip & Epl & Lc & Nb & Vb & Ed); try assumption; try lia.
  { intros m0 m1 i0 i1 i2 i3 v d id' -> Hid. f_equal.
    destruct Hm as (l' & c' & m0' & m1' & i0' & i1' & i2' & i3' & v' & d' & ci & rest & E & _ & _ & _ & Hid' & _).
    unfold w in E. cbn [app] in E.
    injection E as <- <- <- <- <- <- <- <- <- <- E. bytes_split Hbl.
    apply (identity_unique m0 m1 i0 i1 i2 i3 v d 0x7A); try assumption.
    assert (C : ci = 0x72 \/ ci = 0x7A) by (destruct S; cbn [app] in E; injection E as <- _; auto).
    destruct C as [->| ->]; exact Hid'. }
  assert (Vl : variable_data_len u = len block) by (destruct u; cbn in Vb |- *; congruence).
  rewrite Vl. destruct (len block =? 0) eqn:E0; [apply N.eqb_eq in E0; apply len_0 in E0; congruence|].
  rewrite Ef, Ed. cbn [bind some]. rewrite Hc, Lw, checked_sub_add. cbn [some].
  rewrite Ecip, len_app, checked_sub_add. cbn [some]. rewrite <- Lc at 1. rewrite get_to_app. cbn [some].
  replace w with (l :: (c :: link) ++ head ++ block) in * by (unfold w; rewrite Ecip; reflexivity).
  replace 10 with (1 + len (c :: link)) by (rewrite len_cons; unfold len; rewrite Hlink; reflexivity).
  rewrite rebuild_wireless; [|exact Lc|exact Ll|lia]. rewrite Epl. reflexivity.
Qed.
