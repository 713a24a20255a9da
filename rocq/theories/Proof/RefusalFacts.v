(** When and why an encrypted message is not decrypted. *)
From Coq Require Import String List NArith ZArith Lia Bool.
Import ListNotations.
From Verif Require Import Model.Base Model.Text Model.Core Model.Wired Model.Wireless Model.DataInfo Model.Record Model.Decrypt Model.UserData Model.Hex Model.MbusData Model.Show Model.Output
  Spec.CoreSpec Spec.TextSpec Spec.RecordSpec Spec.AppSpec Spec.AnnotateSpec Spec.MbusSpec Spec.OutputSpec Spec.RefusalSpec
  Proof.BaseFacts Proof.TextFacts Proof.CoreFacts Proof.DecryptFacts Proof.AppFacts Proof.MbusFacts Proof.OutputFacts Proof.OutputRecords Proof.OutputFrames Proof.AnnotateProps Proof.MbusProps Proof.OutputProps.
Open Scope N_scope.
Open Scope list_scope.

(** the block read from a message with a transport header *)
Lemma transport_long_only mode maker block p : transport p mode maker block ->
  forall u, app_meaning p u -> bytes_ok p ->
  (exists m h, maker = Some m /\ u = VariableLong None h block /\ manufacturer_read m (lh_manufacturer h) /\
     (sh_configuration_field (lh_short_tpl_header h) / 256) mod 32 = mode) \/
  (exists ell h, maker = None /\ u = VariableShort ell h block /\ ell_has_encryption ell = false /\ (sh_configuration_field h / 256) mod 32 = mode).
Proof.
  induction 1 as [ci i0 i1 i2 i3 m0 m1 v d acc st c0 c1 block C|ci acc st c0 c1 block C|x acc st c0 c1 block|cc acc rest mode maker block H IH];
    intros u A B.
  - left. cbn [app] in A, B. bytes_split B.
    inversion A; subst; try lia. eexists; eexists. split; [reflexivity|]. split; [reflexivity|].
    lazymatch goal with L : long_header _ _ _ _ _ _ _ _ _ _ _ |- _ => destruct L as (_ & M & _ & _ & S & _) end. split; [exact M|]. rewrite S. cbn. lia.
  - right. cbn [app] in A, B. bytes_split B.
    inversion A; subst; try lia; (eexists; eexists; split; [reflexivity|]; split; [reflexivity|]; split; [reflexivity|]; cbn; lia).
  - right. cbn [app] in A, B. bytes_split B.
    inversion A; subst; try lia; (eexists; eexists; split; [reflexivity|]; split; [reflexivity|]; split; [reflexivity|]; cbn; lia).
  - cbn [app] in A, B. assert (Br : bytes_ok rest) by (bytes_split B; assumption).
    inversion A; subst; try lia. destruct (IH _ ltac:(eassumption) Br) as [(m & h & -> & -> & _)|(ell & h & -> & -> & _ & E)].
    + lazymatch goal with W : with_ell _ _ _ |- _ => inversion W end.
    + right. lazymatch goal with W : with_ell _ _ _ |- _ => inversion W; subst end. eexists; eexists. split; [reflexivity|]. split; [reflexivity|]. split; [reflexivity|]. reflexivity.
Qed.

Lemma one_key_same m i key ctx kp : one_key m i key = Ok kp -> mc_to_id (kc_manufacturer ctx) = m -> kc_identification_number ctx = i ->
  kp_get_key kp ctx = Ok key.
Proof.
  intros H <- <-. unfold one_key in H. cbn in H. inversion H; subst. unfold kp_get_key. cbn [kp_entries kp_count].
  match goal with |- context [index_range [?x] 0 (0 + 1)] => change (index_range (E := decryption_error) [x] 0 (0 + 1)) with (Ok (E := decryption_error) [x]) end.
  cbn [bind find fst]. rewrite N.eqb_refl. reflexivity.
Qed.

(** the modes, from their number *)
Lemma mode_kind raw mode : (raw / 256) mod 32 = mode ->
  let m := configuration_security_mode raw in
  (mode = 0 /\ m = NoEncryption) \/ (mode = 5 /\ m = AesCbc128IvNonZero) \/ (mode = 7 /\ m = AesCbc128IvZero) \/
  (mode <> 0 /\ ~ aes_mode mode /\ is_no_encryption m = false /\
   forall dec get_key c data out k, kc_security_mode c = m -> get_key c = Ok k ->
     decrypt_into dec get_key data c out = (Err (UnsupportedMode m), out)).
Proof.
  intros <-. cbv zeta. rewrite <- configuration_mode. unfold aes_mode.
  destruct (configuration_security_mode raw) as [| | | | | | | | | | | | | | | |b] eqn:M; cbn [security_mode_to_bits is_no_encryption].
  1: left; auto.
  5: right; left; auto.
  6: right; right; left; auto.
  14:{ assert (16 <= N.land b 31).
       { unfold configuration_security_mode, security_mode_from_bits in M.
         repeat match type of M with (if ?x =? ?y then _ else _) = _ => destruct (N.eqb_spec x y); [discriminate M|] end.
         injection M as <-. rewrite !land_31 in *. lia. }
       right; right; right. split; [lia|]. split; [lia|]. split; [reflexivity|].
       intros dec get_key c data out k Ec Ek. unfold decrypt_into. rewrite Ek, Ec. reflexivity. }
  all: right; right; right; split; [lia|]; split; [lia|]; split; [reflexivity|];
    intros dec get_key c data out k Ec Ek; unfold decrypt_into; rewrite Ek, Ec; reflexivity.
Qed.

(** the outcome of a decryption in one of the two AES modes *)
Lemma cbc_outcome dec data key iv out : len key = 16 -> len iv = 16 -> len data <= len out ->
  (data = [] /\ decrypt_aes_cbc_into dec data key iv out = (Err InvalidDataLength, out)) \/
  (data <> [] /\ exists out', decrypt_aes_cbc_into dec data key iv out = (Ok (len data), out') /\ len data <= len out').
Proof.
  intros K I L. assert (P : forall a b : list N, len b <= len (write_prefix b a)).
  { intros a b. unfold write_prefix. rewrite len_app. unfold len. rewrite skipn_length. lia. }
  unfold decrypt_aes_cbc_into. rewrite K, I. cbn [N.eqb negb Pos.eqb].
  destruct (N.eqb_spec (len data) 0) as [Z|Z].
  { left. split; [destruct data; [reflexivity|unfold len in Z; cbn in Z; lia]|reflexivity]. }
  right. split; [intros ->; apply Z; reflexivity|].
  assert (Lt : (len out <? len data) = false) by (apply N.ltb_ge; exact L). rewrite Lt.
  destruct (_ =? 0).
  - eexists. split; [reflexivity|]. pose proof (P data out). lia.
  - eexists. split; [reflexivity|]. etransitivity; [|apply P]. etransitivity; [|apply P]. exact L.
Qed.

(** the outcome of a decryption, given the key *)
Lemma into_outcome dec get_key raw mode c block key out :
  (raw / 256) mod 32 = mode -> mode <> 0 -> kc_security_mode c = configuration_security_mode raw -> get_key c = Ok key ->
  len key = 16 -> len block <= len out ->
  (~ aes_mode mode -> exists m, decrypt_into dec get_key block c out = (Err (UnsupportedMode m), out)) /\
  (aes_mode mode -> block = [] -> decrypt_into dec get_key block c out = (Err InvalidDataLength, out)) /\
  (aes_mode mode -> block <> [] -> exists out', decrypt_into dec get_key block c out = (Ok (len block), out') /\ len block <= len out').
Proof.
  intros E Z Ec Ek Lk Lb.
  destruct (mode_kind raw mode E) as [(-> & M)|[(-> & M)|[(-> & M)|(_ & A & _ & H)]]]; [lia|..].
  - split; [intros A; destruct A; left; reflexivity|].
    assert (D : decrypt_into dec get_key block c out = decrypt_aes_cbc_into dec block key (derive_iv c) out) by (unfold decrypt_into; rewrite Ek, Ec, M; reflexivity).
    rewrite D. destruct (cbc_outcome dec block key (derive_iv c) out Lk) as [(-> & R)|(N & R)];
      [unfold len; rewrite derive_iv_len; reflexivity|exact Lb|..]; split; intros _ X; try contradiction; assumption.
  - split; [intros A; destruct A; right; reflexivity|].
    assert (D : decrypt_into dec get_key block c out = decrypt_aes_cbc_into dec block key (repeat 0 16) out) by (unfold decrypt_into; rewrite Ek, Ec, M; reflexivity).
    rewrite D. destruct (cbc_outcome dec block key (repeat 0 16) out Lk) as [(-> & R)|(N & R)];
      [reflexivity|exact Lb|..]; split; intros _ X; try contradiction; assumption.
  - split; [intros _; eexists; eapply H; eassumption|]. split; intros A'; contradiction.
Qed.

(** the outcome of a decryption of user data *)
Definition shown_of (r : outcome decryption_error N * list N) (block : list N) : Prop :=
  exists out', r = (Ok (len block), out') /\ len block <= len out'.
Lemma user_outcome dec payload mode maker block u id key :
  bytes_ok payload -> len payload <= 512 -> app_meaning payload u -> transport payload mode maker block -> mode <> 0 -> len key = 16 ->
  let r := decrypt_user_data dec u id key (repeat 0 512) in
  let known := sender_known maker id in
  security_fields (Some u) = (true, snd (fst (security_fields (Some u))), false) /\
  snd (fst (security_fields (Some u))) <> None /\
  (~ known -> exists e out, r = (Err e, out) /\ decryption_code e = failed_code) /\
  (known -> ~ aes_mode mode -> exists e out, r = (Err e, out) /\ decryption_code e = unsupported_code) /\
  (known -> aes_mode mode -> block = [] -> exists e out, r = (Err e, out) /\ decryption_code e = failed_code) /\
  (known -> aes_mode mode -> block <> [] -> shown_of r block).
Proof.
  intros B L A T Z K. cbv zeta.
  assert (Lb : len block <= len (repeat 0 512)).
  { assert (len block <= len payload) by (clear -T; induction T; rewrite len_app; lia). change (len (repeat 0 512)) with 512. lia. }
  assert (Ne : forall raw, (raw / 256) mod 32 = mode -> is_no_encryption (configuration_security_mode raw) = false).
  { intros raw E. destruct (mode_kind raw mode E) as [(-> & _)|[(_ & ->)|[(_ & ->)|(_ & _ & H & _)]]]; [lia|reflexivity..|exact H]. }
  destruct (transport_long_only _ _ _ _ T _ A B) as [(m & h & -> & -> & M & E)|(ell & h & -> & -> & En & E)].
  - pose proof (Ne _ E) as N0. cbn [security_fields fst snd sender_known decrypt_user_data]. rewrite N0. cbn [negb].
    split; [reflexivity|]. split; [discriminate|].
    destruct M as [(a & b & c & Ca & Cb & Cc & Em & Er)|(Nm & Er)]; rewrite Er.
    2:{ split; [intros _; do 2 eexists; split; reflexivity|].
        assert (F : forall P : Prop, (exists a b c, capital a /\ capital b /\ capital c /\ m = flag_id a b c) -> P).
        { intros P (a & b & c & Ca & Cb & Cc & Em). destruct (Nm a b c Ca Cb Cc Em). }
        repeat split; intros X; apply (F _ X). }
    split; [intros X; destruct X; exists a, b, c; auto|].
    destruct (one_key_total (mc_to_id {| mc1 := a; mc2 := b; mc3 := c |}) (lh_identification_number h) key) as [kp Ek]. rewrite Ek.
    unfold decrypt_variable_data. assert (Le : long_is_encrypted h = true).
    { unfold long_is_encrypted, short_is_encrypted. destruct (configuration_security_mode _); [discriminate N0|reflexivity..]. }
    rewrite Le, Er. cbn [negb].
    match goal with |- context [decrypt_into dec (kp_get_key kp) block ?c0] => set (ctx := c0) end.
    destruct (into_outcome dec (kp_get_key kp) _ mode ctx block key (repeat 0 512) E Z eq_refl
                (one_key_same _ _ _ ctx _ Ek eq_refl eq_refl) K Lb) as (U & V & W).
    split; [intros _ X; destruct (U X) as [m' ->]; do 2 eexists; split; reflexivity|].
    split; [intros _ X Y; rewrite (V X Y); do 2 eexists; split; reflexivity|].
    intros _ X Y. exact (W X Y).
  - pose proof (Ne _ E) as N0. cbn [security_fields fst snd sender_known decrypt_user_data]. rewrite N0, En. cbn [negb andb snd fst].
    split; [reflexivity|]. split; [discriminate|].
    destruct id as [id|].
    2:{ split; [intros _; do 2 eexists; split; reflexivity|]. repeat split; intros X; destruct X; reflexivity. }
    split; [intros X; destruct X; discriminate|].
    destruct (one_key_total (mc_to_id (mi_manufacturer_code id)) (mi_identification_number id) key) as [kp Ek]. rewrite Ek.
    unfold decrypt_variable_data_with_context. assert (Le : short_is_encrypted h = true).
    { unfold short_is_encrypted. destruct (configuration_security_mode _); [discriminate N0|reflexivity..]. }
    rewrite Le. cbn [negb].
    match goal with |- context [decrypt_into dec (kp_get_key kp) block ?c0] => set (ctx := c0) end.
    destruct (into_outcome dec (kp_get_key kp) _ mode ctx block key (repeat 0 512) E Z eq_refl
                (one_key_same _ _ _ ctx _ Ek eq_refl eq_refl) K Lb) as (U & V & W).
    split; [intros _ X; destruct (U X) as [m' ->]; do 2 eexists; split; reflexivity|].
    split; [intros _ X Y; rewrite (V X Y); do 2 eexists; split; reflexivity|].
    intros _ X Y. exact (W X Y).
Qed.

(** decoding a message with a key *)
Theorem refusals env data payload id mode maker block u key enrich :
  bytes_ok data -> message data payload id -> app_meaning payload u -> transport payload mode maker block -> mode <> 0 -> length key = 16%nat ->
  (~ sender_known maker id -> decode_bytes env data (Some key) enrich = Err (ODecryption failed_code)) /\
  (sender_known maker id -> ~ aes_mode mode -> decode_bytes env data (Some key) enrich = Err (ODecryption unsupported_code)) /\
  (sender_known maker id -> aes_mode mode -> block = [] -> decode_bytes env data (Some key) enrich = Err (ODecryption failed_code)) /\
  (sender_known maker id -> aes_mode mode -> block <> [] -> forall e, decode_bytes env data (Some key) enrich <> Err e).
Proof.
  intros B Ms A T Z K. pose proof (message_bytes _ _ _ B Ms) as Bp. pose proof (message_len _ _ _ B Ms) as Lp.
  destruct (decode_message env data payload id (Some u) None B Ms) as (pr & fr & nm & st & D); [left; exists u; auto|].
  specialize (D (Some key) enrich).
  destruct (user_outcome (env_aes env) payload mode maker block u id key Bp Lp A T Z ltac:(unfold len; rewrite K; reflexivity))
    as (Sf & Sn & H1 & H2 & H3 & H4).
  assert (Pe : forall e out, decrypt_user_data (env_aes env) u id key (repeat 0 512) = (Err e, out) ->
     decode_bytes env data (Some key) enrich = Err (ODecryption (decryption_code e))).
  { intros e out R. rewrite D. unfold prepare_security. rewrite Sf. cbn [negb andb ok_or bind]. rewrite R. reflexivity. }
  split; [intros X; destruct (H1 X) as (e & out & R & <-); eapply Pe, R|].
  split; [intros X Y; destruct (H2 X Y) as (e & out & R & <-); eapply Pe, R|].
  split; [intros X Y W; destruct (H3 X Y W) as (e & out & R & <-); eapply Pe, R|].
  intros X Y W e He. destruct (H4 X Y W) as (out' & R & Lo). rewrite D in He. unfold prepare_security in He. rewrite Sf in He.
  cbn [negb andb ok_or bind] in He. rewrite R in He. cbn [map_err bind] in He.
  rewrite (proj2 (get_to_ok out' (len block) (firstn (N.to_nat (len block)) out')) (conj Lo eq_refl)) in He. cbn [ok_or bind] in He.
  unfold records_of in He. cbn [sc_decrypted_payload] in He.
  edestruct build_output_cases as [(d & K')|(bl & hd & it & p & K' & _)]; [apply (decrypted_of_block (Some u) (firstn (N.to_nat (len block)) out'))|rewrite K' in He; discriminate He..].
Qed.

Theorem nothing_sealed env data payload id mode maker u key enrich :
  bytes_ok data -> message data payload id -> app_meaning payload u -> transport payload mode maker [] -> length key = 16%nat ->
  aes_mode mode -> decode_bytes env data (Some key) enrich = Err (ODecryption failed_code).
Proof.
  intros B Ms A T K Am. assert (Z : mode <> 0) by (destruct Am; lia).
  destruct (refusals env data payload id mode maker [] u key enrich B Ms A T Z K) as (H1 & _ & H3 & _).
  assert (D : sender_known maker id \/ ~ sender_known maker id).
  { pose proof (message_bytes _ _ _ B Ms) as Bp. unfold sender_known. destruct (transport_long_only _ _ _ _ T _ A Bp) as [(m & h & -> & -> & M & E)|(ell & h & -> & -> & En & E)].
    - destruct M as [(a & b & c & Ca & Cb & Cc & Em & _)|(N & _)]; [left; exists a, b, c; auto|right; intros (a & b & c & Ca & Cb & Cc & Em); exact (N a b c Ca Cb Cc Em)].
    - destruct id; [left; discriminate|right; intros X; apply X; reflexivity]. }
  destruct D as [D|D]; auto.
Qed.

(** a message sealed by the extended link layer *)
Theorem session_refused env data payload id u key enrich :
  bytes_ok data -> message data payload id -> app_meaning payload u ->
  (exists rest, payload = 0x8D :: rest \/ payload = 0x8E :: rest) ->
  decode_bytes env data (Some key) enrich = Err (ODecryption unsupported_code).
Proof.
  intros B Ms A (rest & P).
  destruct (decode_message env data payload id (Some u) None B Ms) as (pr & fr & nm & st & D); [left; exists u; auto|].
  rewrite D. destruct P as [-> | ->]; inversion A; subst; try lia; reflexivity.
Qed.

(** only encrypted messages are refused *)
Definition announces (u : user_data_block) : bool :=
  match u with
  | VariableLong _ h _ => negb (is_no_encryption (configuration_security_mode (sh_configuration_field (lh_short_tpl_header h))))
  | VariableShort _ h _ => negb (is_no_encryption (configuration_security_mode (sh_configuration_field h)))
  | _ => false
  end.
Lemma announced p u : app_meaning p u -> bytes_ok p -> announces u = true -> exists block, encrypted_message p block.
Proof.
  assert (Nz : forall acc st c0 c1, c0 < 256 ->
    negb (is_no_encryption (configuration_security_mode (sh_configuration_field (short_header acc st c0 c1)))) = true -> c1 mod 32 <> 0).
  { intros acc st c0 c1 L N Z. cbn [short_header sh_configuration_field] in N.
    destruct (mode_kind (c0 + 256 * c1) 0) as [(_ & M)|[(? & _)|[(? & _)|(? & _)]]]; try lia. rewrite M in N. discriminate. }
  induction 1 as [b rest f F|ci i0 i1 i2 i3 m0 m1 v d acc st c0 c1 block h C L|ci i0 i1 i2 i3 acc st d q a0 a1 a2 a3 b0 b1 b2 b3 rest id n1 n2 C|block
    |ci acc st c0 c1 block C|x acc st c0 c1 block|cc acc rest u u' A IH W|cc acc s0 s1 s2 s3 p0 p1 block|cc acc m0 m1 a0 a1 a2 a3 a4 a5 s0 s1 s2 s3 p0 p1 block];
    intros B S; try discriminate S; cbn [announces] in S.
  - destruct L as (_ & _ & _ & _ & Eh & _). rewrite Eh in S. eexists. apply EncLong; [exact C|].
    eapply Nz; [|exact S]. cbn [app] in B. bytes_split B. assumption.
  - eexists. apply EncShort; [exact C|]. eapply Nz; [|exact S]. cbn [app] in B. bytes_split B. assumption.
  - eexists. apply EncShortA0. eapply Nz; [|exact S]. cbn [app] in B. bytes_split B. assumption.
  - assert (Br : bytes_ok rest) by (cbn [app] in B; bytes_split B; assumption).
    destruct W as [e h block|e block]; [|discriminate S]. destruct (IH Br S) as [bl E]. exists bl. apply EncEll. exact E.
Qed.
Lemma encrypted_protected p u : app_meaning p u -> bytes_ok p -> fst (fst (security_fields (Some u))) = true -> protected p.
Proof.
  intros A B S. destruct (announces u) eqn:N.
  { destruct (announced _ _ A B N) as [block E]. eapply ProtTransport, E. }
  destruct A; cbn [security_fields fst snd announces] in *; try discriminate S; try congruence.
  - cbn [ell_has_encryption andb fst] in S. congruence.
  - cbn [ell_has_encryption andb fst] in S. congruence.
  - lazymatch goal with W : with_ell _ _ _ |- _ => destruct W end; cbn [security_fields ell_has_encryption ell_i ell_encryption andb fst announces] in *; congruence.
  - apply ProtEllII.
  - apply ProtEllIII.
Qed.
Lemma protected_forms p : protected p ->
  (exists mode maker block, transport p mode maker block /\ mode <> 0) \/ (exists rest, p = 0x8D :: rest \/ p = 0x8E :: rest).
Proof.
  intros [p' block E|cc acc s0 s1 s2 s3 p0 p1 block|cc acc m0 m1 a0 a1 a2 a3 a4 a5 s0 s1 s2 s3 p0 p1 block]; [left|right; eexists; left; reflexivity|right; eexists; right; reflexivity].
  induction E as [ci i0 i1 i2 i3 m0 m1 v d acc st c0 c1 block C H|ci acc st c0 c1 block C H|x acc st c0 c1 block H|cc acc rest block H IH].
  - do 3 eexists. split; [apply TransportLong; exact C|exact H].
  - do 3 eexists. split; [apply TransportShort; exact C|exact H].
  - do 3 eexists. split; [apply TransportShortA0|exact H].
  - destruct IH as (mode & maker & bl & T & Z). do 3 eexists. split; [apply TransportEll; exact T|exact Z].
Qed.
Lemma records_of_block u sc : of_block (records_of u sc).
Proof.
  unfold records_of. destruct (sc_decrypted_payload sc); [apply decrypted_of_block|]. destruct (sc_encrypted sc); [left; reflexivity|].
  destruct u as [u|]; [|left; reflexivity]. destruct (variable_block u); [right; do 2 eexists; reflexivity|left; reflexivity].
Qed.
Theorem refused_only env data payload id key enrich code :
  bytes_ok data -> message data payload id -> decode_bytes env data key enrich = Err (ODecryption code) ->
  key <> None /\ protected payload /\ exists u, app_meaning payload u.
Proof.
  intros B Ms H. pose proof (message_bytes _ _ _ B Ms) as Bp.
  destruct (user_data_try_from payload) as [u|e|p] eqn:E.
  - apply dispatch_exact in E; [|exact Bp].
    destruct (decode_message env data payload id (Some u) None B Ms) as (pr & fr & nm & st & D); [left; exists u; auto|]. rewrite D in H.
    destruct (prepare_cases (env_aes env) (Some u) id key) as [(sc & P)|(c & P & Hk & S)]; rewrite P in H; cbn [bind] in H.
    + exfalso. edestruct build_output_cases as [(d & K')|(bl & hd & it & p & K' & _)]; [apply (records_of_block (Some u) sc)|rewrite K' in H; discriminate H..].
    + split; [exact Hk|]. split; [eapply encrypted_protected; eassumption|eauto].
  - destruct (decode_message env data payload id None (Some e) B Ms) as (pr & fr & nm & st & D); [right; exists e; auto|]. rewrite D in H.
    unfold prepare_security in H. cbn [security_fields negb bind] in H.
    exfalso. edestruct build_output_cases as [(d & K')|(bl & hd & it & p & K' & _)]; [apply (records_of_block None)|rewrite K' in H; discriminate H..].
  - destruct (dispatch_no_panic payload Bp). rewrite E. eexists. reflexivity.
Qed.

(** ** Examples *)
Definition ex_refused (ci m0 m1 c1 : N) (block : list N) : list N := [ci; 0x78; 0x56; 0x34; 0x12; m0; m1; 1; 7; 0x55; 0; 0; c1] ++ block.
Lemma refusals_example : exists u1 u2 u3 u4,
  let p1 := ex_refused 0x72 0 0 5 (repeat 0x2F 16) in
  let p2 := ex_refused 0x72 0x24 0x40 9 (repeat 0x2F 16) in
  let p3 := ex_refused 0x72 0x24 0x40 7 [] in
  let p4 := [0x7A; 0x55; 0; 0; 5] ++ repeat 0x2F 16 in
  (bytes_ok (long_frame p1) /\ message (long_frame p1) p1 None /\ app_meaning p1 u1 /\ transport p1 5 (Some 0) (repeat 0x2F 16) /\ ~ sender_known (Some 0) None) /\
  (bytes_ok (long_frame p2) /\ message (long_frame p2) p2 None /\ app_meaning p2 u2 /\ transport p2 9 (Some 0x4024) (repeat 0x2F 16) /\ sender_known (Some 0x4024) None /\ ~ aes_mode 9) /\
  (bytes_ok (long_frame p3) /\ message (long_frame p3) p3 None /\ app_meaning p3 u3 /\ transport p3 7 (Some 0x4024) [] /\ aes_mode 7) /\
  (bytes_ok (long_frame p4) /\ message (long_frame p4) p4 None /\ app_meaning p4 u4 /\ transport p4 5 None (repeat 0x2F 16) /\ ~ sender_known None None).
Proof.
  do 4 eexists. cbv zeta. split; [|split; [|split]].
  - split; [lit|]. split; [apply long_message|]. split; [apply app_lit; [lit|vm_compute; reflexivity]|].
    split; [apply (TransportLong 0x72 0x78 0x56 0x34 0x12 0 0 1 7 0x55 0 0 5); now left|].
    intros (a & b & c & A & B & C & E). unfold capital, flag_id in *. lia.
  - split; [lit|]. split; [apply long_message|]. split; [apply app_lit; [lit|vm_compute; reflexivity]|].
    split; [apply (TransportLong 0x72 0x78 0x56 0x34 0x12 0x24 0x40 1 7 0x55 0 0 9); now left|].
    split; [exists 80, 65, 68; repeat split; vm_compute; discriminate|]. intros [E|E]; discriminate E.
  - split; [lit|]. split; [apply long_message|]. split; [apply app_lit; [lit|vm_compute; reflexivity]|].
    split; [apply (TransportLong 0x72 0x78 0x56 0x34 0x12 0x24 0x40 1 7 0x55 0 0 7); now left|]. right; reflexivity.
  - split; [lit|]. split; [apply long_message|]. split; [apply app_lit; [lit|vm_compute; reflexivity]|].
    split; [apply (TransportShort 0x7A 0x55 0 0 5); now left|]. intros E. apply E. reflexivity.
Qed.
Definition ex_session : list N := [0x8D; 0x20; 9; 1; 2; 3; 4; 5; 6] ++ repeat 0x2F 16.
Lemma session_example : exists u, bytes_ok (long_frame ex_session) /\ message (long_frame ex_session) ex_session None /\ app_meaning ex_session u.
Proof. eexists. split; [lit|]. split; [apply long_message|]. apply app_lit; [lit|vm_compute; reflexivity]. Qed.
Lemma decrypted_example : exists u d, bytes_ok (long_frame (ex_sealed ex_long_head)) /\ message (long_frame (ex_sealed ex_long_head)) (ex_sealed ex_long_head) None /\
  app_meaning (ex_sealed ex_long_head) u /\ (exists block, transport (ex_sealed ex_long_head) 5 (Some 0x4024) block /\ block <> []) /\ sender_known (Some 0x4024) None /\
  aes_mode 5 /\ decode_bytes ex_env (long_frame (ex_sealed ex_long_head)) (Some ex_key) false = Ok d /\ length (do_records d) = 1%nat.
Proof.
  do 2 eexists. split; [lit|]. split; [apply long_message|]. split; [apply app_lit; [lit|vm_compute; reflexivity]|].
  split; [eexists; split; [apply (TransportLong 0x72 0x78 0x56 0x34 0x12 0x24 0x40 1 7 0x55 0 0 5); now left|vm_compute; discriminate]|].
  split; [exists 80, 65, 68; repeat split; vm_compute; discriminate|]. split; [left; reflexivity|].
  split; [vm_compute; reflexivity|reflexivity].
Qed.
