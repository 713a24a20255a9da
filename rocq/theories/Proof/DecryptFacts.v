(** Initialisation vector, key store and CBC decryption. *)
From Verif Require Import Proof.BaseFacts Model.Core Model.Wireless Model.Decrypt Proof.CoreFacts
  Proof.WirelessFacts Proof.FormatAFacts Spec.CoreSpec Spec.WirelessSpec Spec.DecryptSpec.

Lemma iv_bytes m0 m1 i0 i1 i2 i3 v d ci id c :
  identity m0 m1 i0 i1 i2 i3 v d ci id ->
  m0 < 256 -> m1 < 256 -> d < 256 -> ~ (0xA0 <= ci <= 0xAF) ->
  kc_manufacturer c = mi_manufacturer_code id ->
  kc_identification_number c = mi_identification_number id ->
  kc_version c = mi_version id -> kc_device_type c = mi_device_type id ->
  derive_iv c = [m0; m1; i0; i1; i2; i3; v; d] ++ repeat (kc_access_number c) 8.
Proof.
  intros (H1 & H2 & H3 & Hm & (digits & Hs & Hn) & Hv & Hd & _) Hm0 Hm1 Hd256 Hci E1 E2 E3 E4.
  unfold derive_iv. rewrite E1, E2, E3, E4, Hn, Hv, Hd.
  rewrite mc_to_id_flag by (repeat split; apply H1 || apply H2 || apply H3).
  rewrite <- Hm. unfold u16_to_le.
  replace ((m0 + 256 * m1) mod 256) with m0 by lia.
  replace ((m0 + 256 * m1) / 256) with m1 by lia.
  rewrite (decimal_to_bcd_spells _ _ _ _ _ Hs).
  destruct ((160 <=? ci) && (ci <=? 175)) eqn:E; [lia|].
  rewrite device_type_lossless by assumption. reflexivity.
Qed.

Lemma iv_of_frame : forall data fr c, bytes_ok data -> wireless_try_from data = Ok fr ->
  (forall ci, nth_error data 10 = Some ci -> ~ (0xA0 <= ci <= 0xAF)) ->
  kc_manufacturer c = mi_manufacturer_code (wf_manufacturer_id fr) ->
  kc_identification_number c = mi_identification_number (wf_manufacturer_id fr) ->
  kc_version c = mi_version (wf_manufacturer_id fr) -> kc_device_type c = mi_device_type (wf_manufacturer_id fr) ->
  derive_iv c = firstn 8 (skipn 2 data) ++ repeat (kc_access_number c) 8.
Proof.
  intros data fr c B H Hci K1 K2 K3 K4. apply wireless_ok_iff in H; [|exact B].
  destruct H as (l & cc & m0 & m1 & i0 & i1 & i2 & i3 & v & d & ci & rest & E & _ & _ & _ & Hi & _). subst data.
  apply (iv_bytes m0 m1 i0 i1 i2 i3 v d ci _ c Hi); try assumption.
  - exact (proj1 (Forall_forall _ _) B m0 ltac:(cbn; tauto)).
  - exact (proj1 (Forall_forall _ _) B m1 ltac:(cbn; tauto)).
  - exact (proj1 (Forall_forall _ _) B d ltac:(cbn; tauto)).
  - now apply Hci.
Qed.


(** ** key store *)
Definition entry_of (e : key_entry) : N * list N :=
  (compute_key_id (ke_manufacturer e) (ke_identification e), ke_key e).

Definition store (n : nat) (l : list key_entry) (free : list (N * list N)) : key_provider :=
  {| kp_entries := map entry_of l ++ free; kp_count := len l |}.

Lemma set_nth_app {A} (l : list A) x y r : set_nth (l ++ x :: r) (length l) y = l ++ y :: r.
Proof. induction l as [|a l IH]; cbn [set_nth length app]; [reflexivity|]. rewrite IH. reflexivity. Qed.

Lemma add_key_store n l x free e :
  kp_add_key (store n l (x :: free)) (ke_manufacturer e) (ke_identification e) (ke_key e) =
  (Ok tt, store n (l ++ [e]) free).
Proof.
  unfold kp_add_key, store. cbn [kp_entries kp_count].
  replace (len l) with (len (map entry_of l)) by (unfold len; rewrite map_length; reflexivity).
  rewrite get_app_r by lia. rewrite N.sub_diag. change (get (x :: free) 0) with (Some x).
  rewrite len_nat, set_nth_app. f_equal. f_equal.
  - rewrite map_app, <- app_assoc. reflexivity.
  - unfold len. rewrite map_length, app_length. cbn [length]. lia.
Qed.

Lemma add_key_full n l e :
  kp_add_key (store n l []) (ke_manufacturer e) (ke_identification e) (ke_key e) =
  (Err InvalidDataLength, store n l []).
Proof.
  unfold kp_add_key, store. cbn [kp_entries kp_count]. rewrite app_nil_r.
  replace (len l) with (len (map entry_of l)) by (unfold len; rewrite map_length; reflexivity).
  rewrite (proj2 (get_none _ _)) by lia. reflexivity.
Qed.

Lemma add_all_store n adds : forall l free,
  exists free', add_all adds (store n l free) = store n (l ++ firstn (length free) adds) free'.
Proof.
  induction adds as [|e adds IH]; intros l free; unfold add_all; cbn [fold_left].
  - exists free. rewrite firstn_nil, app_nil_r. reflexivity.
  - destruct free as [|x free].
    + rewrite add_key_full. cbn [snd]. destruct (IH l []) as [free' H]. exists free'.
      unfold add_all in H. rewrite H. reflexivity.
    + rewrite add_key_store. cbn [snd]. destruct (IH (l ++ [e]) free) as [free' H]. exists free'.
      unfold add_all in H. rewrite H, <- app_assoc. reflexivity.
Qed.

Lemma kp_new_store n : kp_new n = store n [] (repeat (0, repeat 0 16) n).
Proof. reflexivity. Qed.

Lemma add_results_store n adds : forall l free,
  add_results adds (store n l free) =
  repeat (Ok tt) (Nat.min (length free) (length adds)) ++
  repeat (Err InvalidDataLength) (length adds - length free).
Proof.
  induction adds as [|e adds IH]; intros l free; unfold add_results.
  - rewrite Nat.min_0_r. reflexivity.
  - destruct free as [|x free].
    + rewrite add_key_full. cbn [fst snd length]. rewrite Nat.sub_0_r.
      specialize (IH l []). unfold add_results in IH. rewrite IH. cbn [length]. rewrite Nat.sub_0_r. reflexivity.
    + rewrite add_key_store. cbn [fst snd length].
      specialize (IH (l ++ [e]) free). unfold add_results in IH. rewrite IH. reflexivity.
Qed.

Lemma key_id_inj m i m' i' : i < 2 ^ 32 -> i' < 2 ^ 32 ->
  compute_key_id m i = compute_key_id m' i' <-> m = m' /\ i = i'.
Proof.
  intros Hi Hi'. unfold compute_key_id.
  assert (F : forall m i, i < 2 ^ 32 -> N.lor (N.shiftl m 32) i = m * 2 ^ 32 + i).
  { intros a b Hb. rewrite N.shiftl_mul_pow2.
    symmetry. rewrite N.add_nocarry_lxor; [|].
    - rewrite N.lxor_lor; [reflexivity|].
      apply N.bits_inj_0. intros k. rewrite N.land_spec.
      destruct (N.lt_ge_cases k 32) as [Hk|Hk]; [rewrite N.mul_pow2_bits_low by assumption; reflexivity|].
      replace (N.testbit b k) with false; [apply andb_false_r|]. symmetry.
      destruct (N.eq_0_gt_0_cases b) as [->|Hb0]; [apply N.bits_0|].
      apply N.bits_above_log2. apply N.log2_lt_pow2 in Hb; [lia|assumption].
    - apply N.bits_inj_0. intros k. rewrite N.land_spec.
      destruct (N.lt_ge_cases k 32) as [Hk|Hk]; [rewrite N.mul_pow2_bits_low by assumption; reflexivity|].
      replace (N.testbit b k) with false; [apply andb_false_r|]. symmetry.
      destruct (N.eq_0_gt_0_cases b) as [->|Hb0]; [apply N.bits_0|].
      apply N.bits_above_log2. apply N.log2_lt_pow2 in Hb; [lia|assumption]. }
  rewrite !F by assumption. change (2 ^ 32) with 4294967296 in *. split; [intros; lia|intros [-> ->]; reflexivity].
Qed.

Lemma find_first_key l m i :
  i < 2 ^ 32 -> Forall (fun e => ke_identification e < 2 ^ 32) l ->
  match find (fun e => fst e =? compute_key_id m i) (map entry_of l) with
  | Some (_, k) => first_key l m i = Some k
  | None => first_key l m i = None
  end.
Proof.
  intros Hi Hl. induction Hl as [|e l He Hl IH]; [reflexivity|].
  cbn [map find first_key entry_of fst].
  destruct (N.eqb_spec (compute_key_id (ke_manufacturer e) (ke_identification e)) (compute_key_id m i)) as [E|E].
  - apply key_id_inj in E as [-> ->]; [|assumption|assumption]. rewrite !N.eqb_refl. reflexivity.
  - destruct (N.eqb_spec (ke_manufacturer e) m) as [Em|Em]; [|exact IH].
    destruct (N.eqb_spec (ke_identification e) i) as [Ei|Ei]; [|exact IH].
    subst. contradiction.
Qed.

Lemma key_provider_history n adds c :
  Forall (fun e => ke_identification e < 2 ^ 32) adds -> kc_identification_number c < 2 ^ 32 ->
  kp_get_key (add_all adds (kp_new n)) c =
    match first_key (firstn n adds) (mc_to_id (kc_manufacturer c)) (kc_identification_number c) with
    | Some k => Ok k
    | None => Err KeyNotFound
    end
  /\ add_results adds (kp_new n) =
       repeat (Ok tt) (Nat.min n (length adds)) ++ repeat (Err InvalidDataLength) (length adds - n).
Proof.
  intros Ha Hc. split.
  - rewrite kp_new_store. destruct (add_all_store n adds [] (repeat (0, repeat 0 16) n)) as [free' ->].
    rewrite repeat_length. cbn [app]. unfold kp_get_key, store. cbn [kp_entries kp_count].
    assert (G := get_range_app [] (map entry_of (firstn n adds)) free').
    rewrite app_nil_l, len_nil, N.add_0_l in G.
    replace (len (firstn n adds)) with (len (map entry_of (firstn n adds)))
      by (unfold len; rewrite map_length; reflexivity).
    unfold index_range. rewrite G. cbn [bind].
    assert (Hf : Forall (fun e => ke_identification e < 2 ^ 32) (firstn n adds)).
    { apply Forall_forall. intros x Hx. rewrite Forall_forall in Ha. apply Ha.
      rewrite <- (firstn_skipn n adds). apply in_or_app; left; assumption. }
    assert (H := find_first_key (firstn n adds) (mc_to_id (kc_manufacturer c)) _ Hc Hf).
    destruct (find _ _) as [[? k]|]; rewrite H; reflexivity.
  - rewrite kp_new_store, add_results_store, repeat_length. reflexivity.
Qed.

(** ** CBC *)
Lemma xor_block_bytes a b : xor_block a b = xor_bytes a b.
Proof.
  revert b; induction a as [|x a IH]; intros [|y b]; try reflexivity.
  unfold xor_block in *. cbn [combine map fst snd xor_bytes]. rewrite IH. reflexivity.
Qed.

Lemma xor_bytes_len a b : length (xor_bytes a b) = Nat.min (length a) (length b).
Proof. revert b; induction a as [|x a IH]; intros [|y b]; cbn [xor_bytes length Nat.min]; auto. Qed.

Lemma xor_bytes_cancel a b : length a = length b -> xor_bytes (xor_bytes a b) b = a.
Proof.
  revert b; induction a as [|x a IH]; intros [|y b] H; try discriminate; [reflexivity|].
  cbn [xor_bytes]. injection H as H. rewrite IH by assumption.
  rewrite N.lxor_assoc, N.lxor_nilpotent, N.lxor_0_r. reflexivity.
Qed.

Section Cbc.
Variables enc dec : list N -> list N -> list N.

Lemma cbc_encrypt_len key blocks : inverse_cipher enc dec key -> forall iv,
  length iv = 16%nat -> Forall (fun b => length b = 16%nat) blocks ->
  length (cbc_encrypt (enc key) iv blocks) = (16 * length blocks)%nat.
Proof.
  intros Hi iv Hiv Hb. revert iv Hiv. induction Hb as [|p blocks Hp Hb IH]; intros iv Hiv; [reflexivity|].
  cbn [cbc_encrypt length]. cbv zeta.
  assert (Hx : length (xor_bytes p iv) = 16%nat) by (rewrite xor_bytes_len; lia).
  destruct (Hi _ Hx) as [Hl _]. rewrite app_length, Hl, IH by assumption. lia.
Qed.

Lemma cbc_inverse key blocks : inverse_cipher enc dec key -> forall iv,
  length iv = 16%nat -> Forall (fun b => length b = 16%nat) blocks ->
  cbc_decrypt dec key iv (length blocks) (cbc_encrypt (enc key) iv blocks) = concat blocks.
Proof.
  intros Hi iv Hiv Hb. revert iv Hiv. induction Hb as [|p blocks Hp Hb IH]; intros iv Hiv; [reflexivity|].
  cbn [cbc_encrypt length cbc_decrypt concat]. cbv zeta.
  assert (Hx : length (xor_bytes p iv) = 16%nat) by (rewrite xor_bytes_len; lia).
  destruct (Hi _ Hx) as [Hl Hd].
  rewrite firstn_app, skipn_app, Hl, Nat.sub_diag.
  rewrite firstn_all2, skipn_all2 by lia. cbn [firstn skipn app]. rewrite app_nil_r.
  rewrite xor_block_bytes, Hd, xor_bytes_cancel by lia. rewrite IH by assumption. reflexivity.
Qed.

Lemma len_concat blocks : Forall (fun b : list N => length b = 16%nat) blocks ->
  length (concat blocks) = (16 * length blocks)%nat.
Proof. induction 1 as [|p blocks Hp Hb IH]; [reflexivity|]. cbn [concat length]. rewrite app_length. lia. Qed.

Lemma cbc_into_inverse key iv blocks tail output :
  inverse_cipher enc dec key -> length key = 16%nat -> length iv = 16%nat ->
  Forall (fun b => length b = 16%nat) blocks -> (length tail < 16)%nat ->
  let data := cbc_encrypt (enc key) iv blocks ++ tail in
  data <> [] -> len data <= len output ->
  decrypt_aes_cbc_into dec data key iv output =
    (Ok (len data), concat blocks ++ tail ++ skipn (length data) output).
Proof.
  intros Hi Hk Hiv Hb Ht data Hne Hout.
  pose proof (cbc_encrypt_len key blocks Hi iv Hiv Hb) as Hcl.
  assert (Hlen : len data = 16 * len blocks + len tail).
  { unfold data, len. rewrite app_length, Hcl. lia. }
  assert (Ht' : len tail < 16) by (unfold len; lia).
  unfold decrypt_aes_cbc_into.
  assert (Hk' : len key = 16) by (unfold len; lia). assert (Hiv' : len iv = 16) by (unfold len; lia).
  rewrite Hk', Hiv'. cbn [N.eqb Pos.eqb negb].
  destruct (N.eqb_spec (len data) 0) as [E|E]; [apply len_0 in E; contradiction|].
  replace (len data - len data mod 16) with (16 * len blocks) by lia.
  destruct (N.ltb_spec (len output) (len data)) as [Hs|_]; [lia|].
  destruct (N.eqb_spec (16 * len blocks) 0) as [E0|E0].
  - assert (blocks = []) by (apply len_0; lia). subst blocks. cbn [cbc_encrypt concat app] in *.
    unfold write_prefix. reflexivity.
  - cbv zeta. unfold write_prefix.
    replace (firstn (N.to_nat (16 * len blocks)) (data ++ skipn (length data) output))
      with (cbc_encrypt (enc key) iv blocks).
    2:{ unfold data at 1. rewrite <- app_assoc, firstn_app.
        rewrite firstn_all2 by (rewrite Hcl; unfold len; lia).
        replace (N.to_nat (16 * len blocks) - length (cbc_encrypt (enc key) iv blocks))%nat with 0%nat
          by (rewrite Hcl; unfold len; lia).
        rewrite firstn_O, app_nil_r. reflexivity. }
    replace (N.to_nat (16 * len blocks / 16)) with (length blocks) by (unfold len; lia).
    rewrite cbc_inverse by assumption. f_equal.
    f_equal. rewrite len_concat by assumption. rewrite <- Hcl.
    unfold data at 1. rewrite <- app_assoc, skipn_app, Nat.sub_diag, skipn_all2 by lia. reflexivity.
Qed.

(** whatever the cipher does, lengths and errors *)
Lemma cbc_decrypt_len key n : (forall b, length b = 16%nat -> length (dec key b) = 16%nat) ->
  forall iv data, length iv = 16%nat -> (16 * n <= length data)%nat ->
  length (cbc_decrypt dec key iv n data) = (16 * n)%nat.
Proof.
  intros Hd. induction n as [|n IH]; intros iv data Hiv Hl; [reflexivity|].
  cbn [cbc_decrypt]. cbv zeta.
  assert (Hb : length (firstn 16 data) = 16%nat) by (rewrite firstn_length; lia).
  rewrite app_length, xor_block_bytes, xor_bytes_len, (Hd _ Hb), Hiv.
  rewrite IH; [lia|assumption|rewrite skipn_length; lia].
Qed.

Lemma cbc_into_safe key iv data output :
  (forall b, length b = 16%nat -> length (dec key b) = 16%nat) ->
  (decrypt_aes_cbc_into dec data key iv output = (Err InvalidKeyLength, output) /\ len key <> 16) \/
  (decrypt_aes_cbc_into dec data key iv output = (Err InvalidDataLength, output) /\ len key = 16 /\
     (len iv <> 16 \/ data = [] \/ len output < len data)) \/
  (exists clear, decrypt_aes_cbc_into dec data key iv output =
      (Ok (len data), clear ++ skipn (N.to_nat (len data - len data mod 16)) data ++ skipn (length data) output) /\
     len clear = len data - len data mod 16 /\
     len key = 16 /\ len iv = 16 /\ data <> [] /\ len data <= len output).
Proof.
  intros Hd. unfold decrypt_aes_cbc_into.
  destruct (N.eqb_spec (len key) 16) as [Hk|Hk]; cbn [negb]; [|left; auto]. right.
  destruct (N.eqb_spec (len iv) 16) as [Hi|Hi]; cbn [negb]; [|left; auto].
  destruct (N.eqb_spec (len data) 0) as [E|E]; [left; apply len_0 in E; auto|].
  assert (Hne : data <> []) by (intros ->; apply E; reflexivity).
  destruct (N.ltb_spec (len output) (len data)) as [Ho|Ho].
  { left. destruct (len data - len data mod 16 =? 0); auto. }
  right. destruct (N.eqb_spec (len data - len data mod 16) 0) as [E0|E0].
  - exists []. rewrite E0. cbn [N.to_nat skipn app]. unfold write_prefix. auto 10.
  - cbv zeta. unfold write_prefix.
    set (m := len data - len data mod 16) in *.
    set (clear := cbc_decrypt _ _ _ _ _).
    assert (Hcl : length clear = N.to_nat m).
    { unfold clear. rewrite cbc_decrypt_len.
      - unfold m. lia.
      - assumption.
      - unfold len in Hi; lia.
      - rewrite firstn_length, app_length. unfold m, len. lia. }
    exists clear. split; [|unfold len at 1; rewrite Hcl, N2Nat.id; auto].
    f_equal. f_equal. rewrite Hcl, skipn_app. f_equal.
    replace (N.to_nat m - length data)%nat with 0%nat by (unfold m, len; lia). reflexivity.
Qed.
End Cbc.

Lemma derive_iv_len c : length (derive_iv c) = 16%nat.
Proof. reflexivity. Qed.

Lemma decrypt_into_inverse enc dec get_key c key blocks tail output iv :
  inverse_cipher enc dec key -> length key = 16%nat ->
  Forall (fun b => length b = 16%nat) blocks -> (length tail < 16)%nat ->
  get_key c = Ok key ->
  (kc_security_mode c = AesCbc128IvNonZero /\ iv = derive_iv c) \/
  (kc_security_mode c = AesCbc128IvZero /\ iv = repeat 0 16) ->
  let data := cbc_encrypt (enc key) iv blocks ++ tail in
  data <> [] -> len data <= len output ->
  decrypt_into dec get_key data c output =
    (Ok (len data), concat blocks ++ tail ++ skipn (length data) output).
Proof.
  intros Hi Hk Hb Ht Hg Hm data Hne Ho.
  unfold decrypt_into. rewrite Hg.
  destruct Hm as [[-> ->]|[-> ->]]; apply cbc_into_inverse; try assumption; reflexivity.
Qed.

Lemma decrypt_into_refuses dec get_key c data output :
  (forall key, get_key c <> Ok key) \/
  (kc_security_mode c <> NoEncryption /\ kc_security_mode c <> AesCbc128IvZero /\
   kc_security_mode c <> AesCbc128IvNonZero) ->
  snd (decrypt_into dec get_key data c output) = output /\
  ~ is_ok (fst (decrypt_into dec get_key data c output)).
Proof.
  unfold decrypt_into. intros H.
  destruct (get_key c) as [key|e|p] eqn:Eg; cbn [fst snd].
  - destruct H as [H|(H1 & H2 & H3)]; [destruct (H key); reflexivity|].
    destruct (kc_security_mode c); try contradiction; cbn [fst snd]; split; try reflexivity; intros [a Ha]; discriminate.
  - split; [reflexivity|intros [a Ha]; discriminate].
  - split; [reflexivity|intros [a Ha]; discriminate].
Qed.

Lemma decrypt_into_plain dec get_key c key data output :
  get_key c = Ok key -> kc_security_mode c = NoEncryption ->
  decrypt_into dec get_key data c output =
    if len output <? len data then (Err InvalidDataLength, output)
    else (Ok (len data), data ++ skipn (length data) output).
Proof. intros Hg Hm. unfold decrypt_into. rewrite Hg, Hm. reflexivity. Qed.
