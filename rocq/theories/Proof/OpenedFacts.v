(** Where the records shown come from, with and without a key; the causes of panics. *)
From Coq Require Import List NArith ZArith Lia Bool String.
Import ListNotations.
From Verif Require Import Model.Base Model.Text Model.Core Model.Wired Model.Wireless Model.DataInfo Model.ValueInfo Model.Record Model.Decrypt
  Model.UserData Model.Hex Model.MbusData Model.Show Model.Output
  Spec.CoreSpec Spec.TextSpec Spec.CrcSpec Spec.WiredSpec Spec.WirelessSpec Spec.DecryptSpec Spec.RecordSpec Spec.AppSpec Spec.AnnotateSpec Spec.MbusSpec Spec.OutputSpec
  Proof.BaseFacts Proof.RecordFacts Proof.WiredFacts Proof.WiredProps Proof.WirelessFacts Proof.FormatAFacts Proof.FormatAProps Proof.IterFacts Proof.PanicFacts
  Proof.AppFacts Proof.AppDecrypt Proof.HexFacts Proof.AnnotateApp Proof.MbusFacts Proof.OutputFacts Proof.OutputRecords Proof.OutputFrames Proof.CoreFacts Proof.DecryptFacts.
Open Scope N_scope.

(** * CBC decryption *)
Lemma opened_cbc dec key n : forall iv data tail, (List.length data = 16 * n)%nat -> (List.length tail < 16)%nat ->
  opened (dec key) iv (data ++ tail) (cbc_decrypt dec key iv n data ++ tail).
Proof.
  induction n as [|n IH]; intros iv data tail L T.
  - destruct data; [|discriminate L]. cbn [cbc_decrypt app]. now apply OpenedRest.
  - cbn [cbc_decrypt]. rewrite <- (firstn_skipn 16 data) at 1. rewrite <- !app_assoc, xor_block_bytes.
    apply OpenedBlock; [rewrite firstn_length; lia|]. apply IH; [rewrite skipn_length; lia|exact T].
Qed.
Lemma lxor_byte a b : a < 256 -> b < 256 -> N.lxor a b < 256.
Proof.
  intros Ha Hb. destruct (N.eq_dec (N.lxor a b) 0) as [->|Nz]; [lia|].
  apply (N.log2_lt_pow2 _ 8); [lia|]. pose proof (N.log2_lxor a b) as L.
  assert (forall x, x < 256 -> N.log2 x < 8) as S.
  { intros x Hx. destruct (N.eq_dec x 0) as [->|Hz]; [reflexivity|]. apply N.log2_lt_pow2; [lia|exact Hx]. }
  pose proof (S a Ha). pose proof (S b Hb). lia.
Qed.
Lemma xor_ok a : forall b, bytes_ok a -> bytes_ok b -> bytes_ok (xor_bytes a b).
Proof.
  induction a as [|x a IH]; intros [|y b] A B; cbn [xor_bytes]; try constructor.
  - apply bytes_ok_cons in A as [A _]. apply bytes_ok_cons in B as [B _]. now apply lxor_byte.
  - apply bytes_ok_cons in A as [_ A]. apply bytes_ok_cons in B as [_ B]. now apply IH.
Qed.
Lemma opened_bytes dec iv cipher plain : opened dec iv cipher plain ->
  (forall b, List.length b = 16%nat -> bytes_ok b -> bytes_ok (dec b)) -> bytes_ok iv -> bytes_ok cipher -> bytes_ok plain.
Proof.
  induction 1 as [iv t T|iv c cs ps L O IH]; intros D I C; [exact C|]. apply bytes_ok_app in C as [C1 C2]. apply bytes_ok_app.
  split; [apply xor_ok; [now apply D|exact I]|]. now apply IH.
Qed.
Lemma cbc_opens dec key iv block out n out' : (forall b, List.length b = 16%nat -> bytes_ok b -> List.length (dec key b) = 16%nat) ->
  bytes_ok block -> decrypt_aes_cbc_into dec block key iv out = (Ok n, out') ->
  List.length iv = 16%nat /\ exists plain, get_to out' n = Some plain /\ opened (dec key) iv block plain.
Proof.
  intros K Bb H. unfold decrypt_aes_cbc_into in H. destruct (negb (len key =? 16)); [discriminate H|].
  destruct (N.eqb_spec (len iv) 16) as [Hi|Hi]; cbn [negb] in H; [|discriminate H]. split; [unfold len in Hi; lia|].
  destruct (N.eqb_spec (len block) 0) as [E|E]; [discriminate H|]. cbv zeta in H.
  set (m := len block - len block mod 16) in *.
  assert (Hr : len block mod 16 < 16) by (apply N.mod_lt; discriminate).
  assert (Hle : len block mod 16 <= len block) by (apply N.mod_le; discriminate).
  destruct (N.eqb_spec m 0) as [E0|E0].
  - destruct (len out <? len block); [discriminate H|]. injection H as <- <-. exists block. unfold write_prefix.
    split; [apply get_to_app|]. apply OpenedRest. unfold len in *. lia.
  - destruct (len out <? len block); [discriminate H|]. injection H as <- <-. unfold write_prefix at 1.
    set (clear := cbc_decrypt dec key iv (N.to_nat (m / 16)) (firstn (N.to_nat m) (write_prefix out block))).
    assert (Ef : firstn (N.to_nat m) (write_prefix out block) = firstn (N.to_nat m) block).
    { unfold write_prefix. rewrite firstn_app. replace (N.to_nat m - List.length block)%nat with 0%nat by (unfold m, len; lia).
      rewrite firstn_O, app_nil_r. reflexivity. }
    assert (Em : N.to_nat m = (16 * N.to_nat (m / 16))%nat).
    { assert (m = 16 * (m / 16)); [|lia]. apply N.div_exact; [discriminate|]. unfold m.
      rewrite (N.div_mod (len block) 16) at 1 by discriminate. replace (16 * (len block / 16) + len block mod 16 - len block mod 16) with ((len block / 16) * 16) by lia.
      apply N.mod_mul. discriminate. }
    assert (Lf : List.length (firstn (N.to_nat m) block) = (16 * N.to_nat (m / 16))%nat) by (rewrite firstn_length; unfold m, len in *; lia).
    assert (Lc : List.length clear = N.to_nat m).
    { unfold clear. rewrite Ef.
      assert (G : forall n iv data, bytes_ok data -> List.length iv = 16%nat -> List.length data = (16 * n)%nat -> List.length (cbc_decrypt dec key iv n data) = (16 * n)%nat).
      { clear -K. induction n as [|n IH]; intros iv data B Li Ld; [reflexivity|]. cbn [cbc_decrypt]. rewrite app_length, xor_block_bytes, xor_bytes_len.
        assert (L16 : List.length (firstn 16 data) = 16%nat) by (rewrite firstn_length; lia).
        rewrite K by (auto using bytes_ok_firstn). rewrite IH; [lia|now apply bytes_ok_skipn|exact L16|rewrite skipn_length; lia]. }
      rewrite G; [lia|now apply bytes_ok_firstn|unfold len in Hi; lia|exact Lf]. }
    rewrite Lc. exists (clear ++ skipn (N.to_nat m) block). split.
    + unfold write_prefix. rewrite skipn_app. replace (N.to_nat m - List.length block)%nat with 0%nat by (unfold m, len; lia). cbn [skipn].
      rewrite app_assoc. replace (len block) with (len (clear ++ skipn (N.to_nat m) block)) at 1; [apply get_to_app|].
      unfold len. rewrite app_length, Lc, skipn_length. unfold m, len. lia.
    + unfold clear. rewrite Ef. rewrite <- (firstn_skipn (N.to_nat m) block) at 1. apply opened_cbc; [exact Lf|].
      rewrite skipn_length. unfold m, len in *. lia.
Qed.

(** * The initialisation vector is made of bytes *)
Lemma u16_bytes v : v < 65536 -> bytes_ok (u16_to_le v).
Proof.
  intros H. unfold u16_to_le. repeat apply Forall_cons; [apply N.mod_lt; discriminate|apply N.div_lt_upper_bound; [discriminate|exact H]|constructor].
Qed.
Lemma bcd_byte_ok n : fst (bcd_byte n) < 256.
Proof.
  unfold bcd_byte. cbn [fst]. assert (n mod 10 < 10) by (apply N.mod_lt; discriminate).
  assert ((n / 10) mod 10 < 10) by (apply N.mod_lt; discriminate). generalize dependent (n mod 10). generalize dependent ((n / 10) mod 10).
  intros a Ha b Hb. assert (S : forall a b, a < 10 -> b < 10 -> N.lor (N.shiftl a 4) b < 256); [|now apply S].
  clear. intros a b Ha Hb. assert (N.shiftl a 4 < 256) by (rewrite N.shiftl_mul_pow2; change (2 ^ 4) with 16; lia).
  destruct (N.eq_dec (N.lor (N.shiftl a 4) b) 0) as [->|Nz]; [lia|]. apply (N.log2_lt_pow2 _ 8); [lia|]. rewrite N.log2_lor.
  assert (forall x, x < 256 -> N.log2 x < 8) as T.
  { intros x Hx. destruct (N.eq_dec x 0) as [->|Hz]; [reflexivity|]. apply N.log2_lt_pow2; [lia|exact Hx]. }
  pose proof (T _ H). assert (b < 256) as Hb' by lia. pose proof (T _ Hb'). lia.
Qed.
Lemma bcd_bytes n : bytes_ok (decimal_to_bcd n).
Proof.
  unfold decimal_to_bcd. pose proof (bcd_byte_ok n) as H0. destruct (bcd_byte n) as [b0 v0]. pose proof (bcd_byte_ok v0) as H1.
  destruct (bcd_byte v0) as [b1 v1]. pose proof (bcd_byte_ok v1) as H2. destruct (bcd_byte v1) as [b2 v2]. pose proof (bcd_byte_ok v2) as H3.
  destruct (bcd_byte v2) as [b3 v3]. repeat apply Forall_cons; try assumption. constructor.
Qed.
Lemma iv_ok c : kc_version c < 256 -> device_type_to_u8 (kc_device_type c) < 256 -> kc_access_number c < 256 -> bytes_ok (derive_iv c).
Proof.
  intros V D A. unfold derive_iv. rewrite !bytes_ok_app. split; [apply u16_bytes; unfold mc_to_id; apply N.mod_lt; discriminate|].
  split; [apply bcd_bytes|]. split; [repeat apply Forall_cons; try assumption; constructor|]. apply Forall_forall. intros x Hx. apply repeat_spec in Hx. now subst x.
Qed.

Lemma into_opens dec get_key c block out n out' key : cipher_of_bytes dec key -> (forall k, get_key c = Ok k -> k = key) ->
  kc_security_mode c <> NoEncryption -> kc_version c < 256 -> device_type_to_u8 (kc_device_type c) < 256 -> kc_access_number c < 256 ->
  bytes_ok block -> decrypt_into dec get_key block c out = (Ok n, out') ->
  exists iv plain, List.length iv = 16%nat /\ get_to out' n = Some plain /\ opened (dec key) iv block plain /\ bytes_ok plain.
Proof.
  intros K G M V D A B H. unfold decrypt_into in H. destruct (get_key c) as [k|e|p] eqn:Ek; try discriminate H.
  pose proof (G k eq_refl). subst k.
  assert (R : exists iv, bytes_ok iv /\ decrypt_aes_cbc_into dec block key iv out = (Ok n, out')).
  { destruct (kc_security_mode c); try discriminate H; [destruct M; reflexivity| |]; eexists; (split; [|exact H]).
    - apply iv_ok; assumption.
    - apply Forall_forall. intros x Hx. apply repeat_spec in Hx. subst x. reflexivity. }
  destruct R as (iv & I & H'). destruct (cbc_opens dec key iv block out n out') as (L & plain & P1 & P2); [|exact B|exact H'|].
  - intros b Lb Bb. now apply K.
  - exists iv, plain. repeat split; try assumption. eapply opened_bytes; [exact P2| |exact I|exact B]. intros b Lb Bb. now apply K.
Qed.

(** the meter named in a link layer is named with bytes *)
Definition id_bytes (id : option manufacturer_id) : Prop :=
  forall i, id = Some i -> mi_version i < 256 /\ device_type_to_u8 (mi_device_type i) < 256.
Definition header_bytes (u : user_data_block) : Prop :=
  match u with
  | VariableLong _ h _ => lh_version h < 256 /\ device_type_to_u8 (lh_device_type h) < 256 /\ sh_access_number (lh_short_tpl_header h) < 256
  | VariableShort _ h _ => sh_access_number h < 256
  | _ => True
  end.
Lemma code_byte d : d < 256 -> device_type_to_u8 (device_code d) < 256.
Proof. intros H. rewrite <- device_table by exact H. rewrite device_type_lossless; assumption. Qed.
Lemma message_header_bytes p u : app_meaning p u -> bytes_ok p -> header_bytes u.
Proof.
  induction 1; intros B; cbn [app] in B; cbn [header_bytes]; auto; try (bytes_split B; cbn; assumption).
  - match goal with K : long_header _ _ _ _ _ _ _ _ _ _ _ |- _ => destruct K as (_ & _ & -> & -> & -> & _) end.
    bytes_split B. split; [assumption|]. split; [now apply code_byte|assumption].
  - bytes_split B. match goal with W : with_ell _ _ _ |- _ => destruct W end; cbn [header_bytes] in *; auto.
Qed.
Lemma frame_id_bytes w fr : bytes_ok w -> wireless_meaning w fr -> id_bytes (Some (wf_manufacturer_id fr)).
Proof.
  intros B (l & c & m0 & m1 & i0 & i1 & i2 & i3 & v & d & ci & rest & -> & _ & _ & _ & I & _) i E. injection E as <-.
  destruct I as (_ & _ & _ & _ & _ & -> & -> & _). cbn [app] in B. bytes_split B. split; [assumption|].
  rewrite device_table; [apply code_byte|]; destruct (_ && _); try assumption; apply N.div_lt_upper_bound; lia.
Qed.

Lemma user_data_opens aes u id key out n out' p : cipher_of_bytes aes key -> bytes_ok p -> app_meaning p u -> id_bytes id ->
  decrypt_user_data aes u id key out = (Ok n, out') ->
  exists cipher iv plain, encrypted_message p cipher /\ List.length iv = 16%nat /\ get_to out' n = Some plain /\ opened (aes key) iv cipher plain /\ bytes_ok plain.
Proof.
  intros K B A I H. pose proof (message_header_bytes _ _ A B) as Hb.
  assert (Bl : forall block, variable_block u = Some block -> bytes_ok block).
  { intros block E. destruct (block_suffix _ _ _ A E) as (pre & ->). apply bytes_ok_app in B. tauto. }
  destruct u as [s|? ? ? ? ? ?|ell h block|ell h block|ell block]; cbn [decrypt_user_data] in H; try discriminate H; cbn [header_bytes] in Hb.
  - destruct (lh_manufacturer h) as [m|e|q] eqn:Em; try discriminate H.
    destruct (one_key (mc_to_id m) (lh_identification_number h) key) as [kp|e|q] eqn:Ek; try discriminate H.
    cbn [decrypt_variable_data] in H. destruct (long_is_encrypted h) eqn:Ee; cbn [negb] in H; [|discriminate H]. rewrite Em in H.
    destruct Hb as (V & D & Ac).
    apply into_opens with (key := key) in H; cbn; try assumption.
    + destruct H as (iv & plain & L & G & O & Bp). exists block, iv, plain. split; [|auto]. eapply encrypted_parse; eauto.
    + intros k. eapply one_key_answers, Ek.
    + intros E. unfold long_is_encrypted, short_is_encrypted in Ee. rewrite E in Ee. discriminate Ee.
    + now apply Bl.
  - destruct (is_no_encryption _) eqn:En; [discriminate H|]. destruct id as [id|]; [|discriminate H].
    destruct (one_key _ (mi_identification_number id) key) as [kp|e|q] eqn:Ek; try discriminate H.
    cbn [decrypt_variable_data_with_context] in H. destruct (short_is_encrypted h) eqn:Ee; cbn [negb] in H; [|discriminate H].
    destruct (I id eq_refl) as [V D].
    apply into_opens with (key := key) in H; cbn; try assumption.
    + destruct H as (iv & plain & L & G & O & Bp). exists block, iv, plain. split; [|auto]. eapply encrypted_parse; eauto.
    + intros k. eapply one_key_answers, Ek.
    + intros E. rewrite E in En. discriminate En.
    + now apply Bl.
Qed.

(** * The records shown *)
(** [taken] for the part of the frame that carries the message *)
Definition of_message (aes : list N -> list N -> list N) (p : list N) (key : option (list N)) (block : list N) : Prop :=
  bytes_ok block /\
  ((exists pre, p = pre ++ block) \/
   (exists k cipher iv, key = Some k /\ encrypted_message p cipher /\ List.length iv = 16%nat /\ opened (aes k) iv cipher block)).
Lemma of_message_taken aes data w pre p post key block : normalized data w -> w = pre ++ p ++ post -> of_message aes p key block ->
  taken aes data key block.
Proof.
  intros Nm -> (_ & [(q & ->)|(k & cipher & iv & -> & E & L & O)]).
  - apply TakenClear with (w := pre ++ (q ++ block) ++ post) (pre := pre ++ q) (post := post); [exact Nm|]. rewrite <- !app_assoc. reflexivity.
  - eapply TakenOpened; [exact Nm|reflexivity|exact E|exact L|exact O].
Qed.
Lemma taken_panic cf aes data w pre p post key block hdr items q : normalized data w -> w = pre ++ p ++ post -> of_message aes p key block ->
  records_all cf block hdr = Some items -> In (Panic q) items ->
  exists bef suf, taken aes data key (bef ++ suf) /\ panic_cause cf suf.
Proof.
  intros Nm Ew O R Hin. pose proof O as [Bb _]. destruct (iter_panic _ _ _ _ _ Bb R Hin) as (bef & suf & -> & Pc).
  exists bef, suf. split; [eapply of_message_taken; eassumption|exact Pc].
Qed.

Lemma shown_of_message {E F} aes (fr : F) p m id key sc block hdr : bytes_ok p -> with_application (E := E) fr p = Ok m ->
  (forall k, key = Some k -> cipher_of_bytes aes k) -> id_bytes id ->
  prepare_security aes (md_user_data m) id key = Ok sc -> shown_records m sc = Some (records_new block hdr) -> of_message aes p key block.
Proof.
  intros B H K I P R. destruct (sc_decrypted_payload sc) as [d|] eqn:Ed.
  - assert (X : exists u k n out', key = Some k /\ md_user_data m = Some u /\ decrypt_user_data aes u id k (repeat 0 512) = (Ok n, out') /\ get_to out' n = Some d).
    { unfold prepare_security in P. destruct (security_fields (md_user_data m)) as [[e mode] ell]. destruct e; cbn [negb] in P;
        [|apply Ok_inj in P; subst sc; discriminate Ed].
      destruct key as [k|]; [|apply Ok_inj in P; subst sc; discriminate Ed]. destruct (ell && _); [discriminate P|].
      apply bind_ok in P as (u & Eu & P). destruct (md_user_data m) as [u'|]; [|discriminate Eu]. apply Ok_inj in Eu. subst u'.
      destruct (decrypt_user_data aes u id k (repeat 0 512)) as [res o] eqn:Er. apply bind_ok in P as (n & En & P). apply map_err_ok in En. subst res.
      apply bind_ok in P as (d' & Eg & P). destruct (get_to o n) eqn:Eg'; [|discriminate Eg]. apply Ok_inj in Eg. subst l.
      apply Ok_inj in P. subst sc. injection Ed as <-. do 4 eexists. eauto. }
    destruct X as (u & k & n & out' & -> & Eu & Er & Eg).
    assert (A : app_meaning p u).
    { unfold with_application in H. destruct (user_data_try_from p) as [x|e|q] eqn:Ex; [| |discriminate H]; apply Ok_inj in H; subst m; cbn in Eu; [|discriminate Eu].
      injection Eu as ->. now apply dispatch_exact in Ex. }
    destruct (user_data_opens aes u id k (repeat 0 512) n out' p (K k eq_refl) B A I Er) as (cipher & iv & plain & E1 & L & G & O & Bp).
    rewrite Eg in G. injection G as <-.
    assert (block = d).
    { unfold shown_records in R. rewrite Ed, Eu in R. destruct u; cbn [decrypted_records] in R; try discriminate R; injection R as <- _; reflexivity. }
    subst d. split; [exact Bp|]. right. exists k, cipher, iv. auto.
  - destruct (application_part _ _ _ _ _ _ B H Ed R) as (_ & pre & Ep). split; [rewrite Ep in B; apply bytes_ok_app in B; tauto|]. left. eauto.
Qed.

Lemma decode_panic env data key enrich : bytes_ok data -> (forall k, key = Some k -> cipher_of_bytes (env_aes env) k) ->
  is_panic (decode_bytes env data key enrich) ->
  (overflow_checks (env_config env) = true /\ get data 0 = Some 0x68 /\ 4 <= len data <= 5) \/
  (exists bef suf, taken (env_aes env) data key (bef ++ suf) /\ panic_cause (env_config env) suf).
Proof.
  intros B Kc [p H]. unfold decode_bytes in H. destruct data as [|b data]; [discriminate H|].
  destruct (mbus_wired_try_from (env_config env) (b :: data)) as [m|we|q] eqn:Em.
  - right. destruct (prepare_cases (env_aes env) (md_user_data m) None key) as [(sc & E)|(code & E & _)]; rewrite E in H; cbn [bind] in H;
      [|discriminate H].
    pose proof (wired_of_block _ _ _ sc Em) as K. unfold build_wired_output in H.
    assert (X : exists block hdr items q, shown_records m sc = Some (records_new block hdr) /\
       records_all (env_config env) block hdr = Some items /\ In (Panic q) items).
    { destruct (md_frame m);
        (edestruct build_output_cases as [(d & K')|(bl & hd & it & q & K' & A1 & A2 & A3)]; [exact K|rewrite K' in H; discriminate H|]);
        do 4 eexists; eauto. }
    destruct X as (block & hdr & items & q & A1 & A2 & A3).
    unfold mbus_wired_try_from in Em. apply bind_ok in Em as (fr & Ef & Em). apply map_err_ok in Ef. apply wired_ok_iff in Ef.
    destruct fr as [c|f a|f a pl|f a pl].
    3: { pose proof (wired_payload_ok _ _ _ _ B Ef) as Bp. destruct (wired_part _ _ _ _ Ef) as (pre' & post & Ew).
         eapply taken_panic; [apply NormKeep|exact Ew| |exact A2|exact A3].
         eapply shown_of_message with (id := None); [exact Bp|exact Em|exact Kc|intros i Ei; discriminate Ei|exact E|exact A1]. }
    all: apply Ok_inj in Em; subst m; cbn in E; apply Ok_inj in E; subst sc; discriminate A1.
  - assert (Es : exists s out, strip_format_a_crcs (b :: data) (repeat 0 512) = Ok (s, out)).
    { destruct (strip_cases (b :: data) (repeat 0 512) B) as [(E & _)|(? & ? & ? & ? & ? & _ & _ & _ & _ & _ & E)]; eauto. }
    destruct Es as (s & out & Es). rewrite Es in H. cbn [map_err bind] in H. pose proof (strip_normalized _ _ _ _ B Es) as Nm.
    set (w := match s with Some d => d | None => b :: data end) in *.
    pose proof (normalized_bytes _ _ B Nm) as Bw.
    destruct (mbus_wireless_try_from w) as [m|x|q] eqn:Em2; [|discriminate H|].
    + right. destruct (prepare_cases (env_aes env) (md_user_data m) (Some (wf_manufacturer_id (md_frame m))) key)
        as [(sc & E)|(code & E & _)]; rewrite E in H; cbn [bind] in H; [|discriminate H].
      pose proof (wireless_of_block _ _ sc Em2) as K. unfold build_wireless_output in H.
      edestruct build_output_cases as [(d & K')|(block & hdr & items & q & K' & A1 & A2 & A3)]; [exact K|rewrite K' in H; discriminate H|].
      unfold mbus_wireless_try_from in Em2. apply bind_ok in Em2 as (fr & Ef & Em2). apply map_err_ok in Ef.
      apply wireless_ok_iff in Ef; [|exact Bw]. pose proof (wireless_payload_ok _ _ Bw Ef) as Bp.
      destruct (wireless_part _ _ Ef) as (pre' & post & Ew).
      assert (Ei : md_frame m = fr).
      { unfold with_application in Em2. destruct (user_data_try_from (wf_data fr)); [| |discriminate Em2]; apply Ok_inj in Em2; subst m; reflexivity. }
      rewrite Ei in E. eapply taken_panic; [exact Nm|exact Ew| |exact A2|exact A3].
      eapply shown_of_message; [exact Bp|exact Em2|exact Kc| |exact E|exact A1]. exact (frame_id_bytes _ _ Bw Ef).
    + exfalso. destruct (wireless_data w Bw) as (_ & _ & _ & Np). apply Np. rewrite Em2. eexists. reflexivity.
  - left. apply wired_panic_iff. eapply wired_mbus_panic; [exact B|exact Em].
Qed.
