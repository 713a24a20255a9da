(** The annotated view of a decrypted frame. *)
From Coq Require Import List NArith Lia Bool String.
Import ListNotations.
From Verif Require Import Model.Base Model.Text Model.Core Model.Wired Model.Wireless Model.F64 Model.DataInfo Model.Record Model.Decrypt Model.UserData Model.Hex Model.Annotate Model.MbusData
  Model.Show Model.Output Model.Rscada Model.Format Model.Json Model.AnnotateText Model.JsonView Model.Render Model.Legacy Model.Serialize
  Spec.TextSpec Spec.FormatSpec Spec.WiredSpec Spec.WirelessSpec Spec.DecryptSpec Spec.AppSpec Spec.AnnotateSpec Spec.MbusSpec Spec.OutputSpec Spec.TooltipSpec Spec.JsonSpec Spec.JsonViewSpec Spec.SerializeSpec
  Proof.BaseFacts Proof.WiredFacts Proof.WirelessFacts Proof.FormatAFacts Proof.AppFacts Proof.RecordFacts
  Proof.IterFacts Proof.DecryptFacts Proof.AnnotateFacts Proof.AnnotatePanic Proof.AnnotateRecords Proof.AnnotateApp Proof.AnnotateProps Proof.MbusFacts Proof.OutputFacts Proof.SerializeFacts Proof.TooltipFacts Proof.JsonViewFacts.
Open Scope N_scope.
Open Scope list_scope.

Lemma replace_app cf display : forall a b out, replace_encrypted cf (a ++ b) display = Ok out ->
  exists x y, replace_encrypted cf a display = Ok x /\ replace_encrypted cf b display = Ok y /\ out = x ++ y.
Proof.
  induction a as [|s a IH]; intros b out H; cbn [app replace_encrypted] in *; [eauto|].
  apply bind_ok in H as (here & Eh & H). apply bind_ok in H as (rest & Er & H). apply Ok_inj in H. subst out.
  destruct (IH _ _ Er) as (x & y & Ex & Ey & ->). rewrite Eh, Ex. cbn [bind]. do 2 eexists. split; [reflexivity|]. split; [exact Ey|]. now rewrite app_assoc.
Qed.
Lemma replace_other cf display l : Forall (fun s => s_kind s <> KEncryptedPayload) l -> replace_encrypted cf l display = Ok l.
Proof. induction 1 as [|s l Hs _ IH]; [reflexivity|]. cbn [replace_encrypted]. rewrite IH. destruct (s_kind s); cbn; congruence. Qed.
Lemma suffix_of p block : encrypted_message p block -> exists q, p = q ++ block.
Proof.
  intros He. induction He as [| | |cc acc rest block He [q ->]]; [eexists; reflexivity..|].
  exists ([0x8C; cc; acc] ++ q). now rewrite app_assoc.
Qed.

Lemma view_labelled cf display start p block segs0 segs :
  bytes_ok display -> carries display start p -> encrypted_message p block -> block <> [] ->
  annotate_frame cf display = Ok segs0 -> replace_encrypted cf segs0 display = Ok segs -> labelled cf display block segs.
Proof.
  intros Hb Hc He Ne Hs0 Hs. split.
  { eapply replace_keeps_tiling; [|reflexivity|exact Hs]. eapply tiling_partial; [exact Hs0|].
    intros rest ->. inversion Hc as [d f a pl W|d fr Nw _ _]; subst; [inversion W|].
    destruct (Nw (SingleCharacter 0xE5)). constructor. }
  intros items Hi Hok.
  destruct (carries_annotate cf _ _ _ Hb Hc) as (pre & post & dpre & dpost & Fp & Fq & _ & Ed & Ls & Bp & Ea).
  destruct (encrypted_after_header cf p block He Bp) as [Lb Ha]. destruct (Ha start) as (hd & Fh & Eh).
  rewrite Eh, Hs0 in Ea. cbn [payload_segments bind] in Ea. apply Ok_inj in Ea. subst segs0.
  destruct (suffix_of _ _ He) as [q Eq].
  assert (K1 : forall l, Forall frame_segment l -> Forall (fun s => s_kind s <> KEncryptedPayload) l)
    by (intros l F; eapply Forall_impl; [|exact F]; intros s H; apply H).
  assert (K2 : Forall (fun s => s_kind s <> KEncryptedPayload) hd) by (eapply Forall_impl; [|exact Fh]; intros s H; apply H).
  apply replace_app in Hs as (x1 & y1 & E1 & Hs & ->). rewrite (replace_other _ _ _ (K1 _ Fp)) in E1. apply Ok_inj in E1. subst x1.
  apply replace_app in Hs as (x1 & x3 & Hs & E3 & ->). rewrite (replace_other _ _ _ (K1 _ Fq)) in E3. apply Ok_inj in E3. subst x3.
  apply replace_app in Hs as (x0 & x2 & E0 & Hs & ->). rewrite (replace_other _ _ _ K2) in E0. apply Ok_inj in E0. subst x0.
  destruct block as [|b0 block]; [easy|]. set (blk := b0 :: block) in *.
  cbn [replace_encrypted seg s_kind s_start s_end] in Hs.
  assert (Er : get_range display (start + len p - len blk) (start + len p - len blk + len blk) = Some blk).
  { rewrite Ed, Eq. replace (dpre ++ (q ++ blk) ++ dpost) with ((dpre ++ q) ++ blk ++ dpost) by now rewrite <- !app_assoc.
    rewrite Eq, len_app in *.
    replace (start + (len q + len blk) - len blk) with (len (dpre ++ q)) by (rewrite len_app; lia).
    apply get_range_app. }
  rewrite Er in Hs. apply bind_ok in Hs as (here & Hh & Hs). apply Ok_inj in Hs. rewrite app_nil_r in Hs. subst x2.
  apply bind_ok in Hh as (pushed & Hp & Hh). apply Ok_inj in Hh.
  apply records_all_iff in Hi. unfold annotate_data_records in Hp.
  destruct (loop_groups cf _ _ _ _ _ _ items display (dpre ++ q) dpost Hp) as [G1 G2]; [lia|exact Hi|exact Hok| | |].
  { rewrite Ed, Eq, <- !app_assoc. reflexivity. }
  { rewrite Eq, !len_app. lia. }
  assert (G : forall g, group (pre ++ (hd ++ here) ++ post) g = group pushed g).
  { intros g. rewrite !group_app, (frame_group pre), (frame_group post), (header_group hd) by assumption. cbn [app]. rewrite app_nil_r.
    subst here. destruct pushed; reflexivity. }
  split.
  - intros k r Hk. rewrite G. specialize (G1 k r Hk). now rewrite N.add_0_l in G1.
  - intros g Hg. rewrite G. apply G2. intros k r Hk. rewrite N.add_0_l. eauto.
Qed.

Lemma annotated_view env rn lr data input key display segs0 :
  annotate_frame (env_config env) data = Ok segs0 -> decrypted_hexview (env_config env) (env_aes env) data key = Ok (Some display) ->
  clean_and_convert input = data ->
  forall ds, annotate_frame (env_config env) display = Ok ds ->
  match replace_encrypted (env_config env) ds display with
  | Ok segs =>
      (exists t v l l0, render_annotated_bytes env rn data (Some key) = Ok t /\ only_value t v /\
        says_annotated display l (Some (data, l0)) v /\ map fst l = segs /\ map fst l0 = segs0) /\
      (exists t v l, serialize_mbus_data env rn lr input (txt "hexview-legacy") (Some key) = Ok t /\ only_value t v /\
        says_bytes v display l /\ flag_of (field v "decrypted") true /\ map fst l = segs)
  | Panic p => render_annotated_bytes env rn data (Some key) = Panic p /\
      serialize_mbus_data env rn lr input (txt "hexview-legacy") (Some key) = Panic p
  | Err _ => False
  end.
Proof.
  intros Ea Ed Ei ds Hd. unfold render_annotated_bytes, annotated_document.
  change (serialize_mbus_data env rn lr input (txt "hexview-legacy") (Some key)) with (parse_to_hexview env lr input (Some key)).
  unfold parse_to_hexview, hexview_text. rewrite Ei. cbv zeta. rewrite Ed.
  destruct (told_frame _ (rn_display rn) _ _ Ea) as (l0 & E0 & M0). rewrite E0. cbn [map_err bind].
  destruct (told_frame _ (rn_display rn) _ _ Hd) as (ld & E1 & M1). rewrite E1. cbn [map_err bind].
  destruct (told_frame _ (lr_display lr) _ _ Hd) as (lo & E2 & M2). rewrite E2. cbn [map_err bind].
  pose proof (replace_no_error (env_config env) display ds) as Hr.
  pose proof (replace_ranges (env_config env) (rn_display rn) ld display) as R1. rewrite M1 in R1.
  pose proof (replace_ranges (env_config env) (lr_display lr) lo display) as R2. rewrite M2 in R2.
  destruct (replace_encrypted _ _ _) as [segs|x|p]; [|exact (Hr x eq_refl)|].
  - destruct (replace_encrypted_told _ (rn_display rn) _ _) as [l|?|?]; try discriminate R1.
    destruct (replace_encrypted_told _ (lr_display lr) _ _) as [l'|?|?]; try discriminate R2.
    cbn [ranges map_err bind] in *. apply Ok_inj in R1, R2. split.
    + do 2 eexists. exists l, l0. split; [reflexivity|]. split; [apply fine_only, annotated_fine|]. split; [apply annotated_said|]. auto.
    + do 2 eexists. exists l'. split; [reflexivity|]. split; [apply fine_only, hexview_fine|]. destruct (hexview_said display l') as [H1 H2]. auto.
  - destruct (replace_encrypted_told _ (rn_display rn) _ _) as [?|?|?]; try discriminate R1.
    destruct (replace_encrypted_told _ (lr_display lr) _ _) as [?|?|?]; try discriminate R2.
    cbn [ranges map_err bind] in *. split; congruence.
Qed.

Lemma vector_encrypted c1 addr acc iv : vector c1 addr acc iv -> c1 mod 32 <> 0.
Proof. intros [[H _]|[H _]]; rewrite H; discriminate. Qed.
Lemma blocks_filled (blocks : list (list N)) tail : Forall (fun p => length p = 16%nat) blocks -> blocks <> [] -> concat blocks ++ tail <> [].
Proof. intros F Ne E. destruct F as [|b blocks Hb _]; [easy|]. destruct b; [discriminate Hb|discriminate E]. Qed.
Lemma sealed_encrypted enc link plain cipher : sealed enc link plain cipher ->
  exists head block cblock, plain = head ++ block /\ cipher = head ++ cblock /\
    encrypted_message plain block /\ encrypted_message cipher cblock /\ block <> [].
Proof.
  intros S. destruct S as [i0 i1 i2 i3 m0 m1 v d acc st c0 c1 a b c n iv blocks tail _ _ _ _ _ Hv F _ Ne
    |m0 m1 i0 i1 i2 i3 v d id acc st c0 c1 iv blocks tail _ _ Hv F _ Ne]; pose proof (vector_encrypted _ _ _ _ Hv) as Hm.
  - exists [0x72; i0; i1; i2; i3; m0; m1; v; d; acc; st; c0; c1]. do 2 eexists. split; [reflexivity|]. split; [reflexivity|].
    split; [apply EncLong; [now left|exact Hm]|]. split; [apply EncLong; [now left|exact Hm]|now apply blocks_filled].
  - exists [0x7A; acc; st; c0; c1]. do 2 eexists. split; [reflexivity|]. split; [reflexivity|].
    split; [apply EncShort; [now left|exact Hm]|]. split; [apply EncShort; [now left|exact Hm]|now apply blocks_filled].
Qed.
Lemma encrypted_block p b1 b2 : encrypted_message p b1 -> encrypted_message p b2 -> b1 = b2.
Proof.
  intros H. revert b2. induction H as [ci i0 i1 i2 i3 m0 m1 v d acc st c0 c1 block Hci|ci acc st c0 c1 block Hci|x acc st c0 c1 block|cc acc rest block _ IH]; intros b2 K;
    inversion K; subst; try reflexivity; try lia; auto.
Qed.

Lemma encrypted_annotates cf data start p block : bytes_ok data -> carries data start p -> encrypted_message p block ->
  exists segs, annotate_frame cf data = Ok segs.
Proof.
  intros B Hc He. destruct (carries_annotate cf _ _ _ B Hc) as (pre & post & dpre & dpost & _ & _ & _ & _ & _ & Bp & Ea).
  destruct (encrypted_after_header cf p block He Bp) as [_ Ha]. destruct (Ha start) as (hd & _ & Eh).
  rewrite Eh in Ea. cbn [payload_segments bind] in Ea. rewrite Ea. eauto.
Qed.
Lemma replace_panic cf display : bytes_ok display -> forall segs, is_panic (replace_encrypted cf segs display) -> suspect cf display.
Proof.
  intros B. induction segs as [|s segs IH]; intros H; [destruct (is_panic_Ok _ H)|]. cbn [replace_encrypted] in H.
  apply is_panic_bind in H as [H|(? & _ & H)].
  - destruct (s_kind s); try (destruct (is_panic_Ok _ H); fail).
    apply is_panic_bind in H as [H|(? & _ & H)]; [|destruct (is_panic_Ok _ H)].
    destruct (get_range _ _ _) as [part|] eqn:Eg; [|destruct (is_panic_Ok _ H)].
    eapply suspect_range; [exact Eg|]. eapply records_panic; [eapply range_bytes; eassumption|exact H].
  - apply is_panic_bind in H as [H|(? & _ & H)]; [auto|destruct (is_panic_Ok _ H)].
Qed.

(** what the annotated view and the older hex view show: the bytes [display] with the records of [block], or, if one of
    the records is such that reading it panics, they panic *)
Lemma view_cases env rn lr data input key display start p block segs0 :
  annotate_frame (env_config env) data = Ok segs0 -> decrypted_hexview (env_config env) (env_aes env) data key = Ok (Some display) ->
  clean_and_convert input = data -> bytes_ok display -> carries display start p -> encrypted_message p block -> block <> [] ->
  decrypted_view env rn lr data input key display block segs0.
Proof.
  intros Ea Ed Ei B Hc He Ne. destruct (encrypted_annotates (env_config env) _ _ _ _ B Hc He) as (ds & Hd).
  pose proof (annotated_view env rn lr data input key display segs0 Ea Ed Ei ds Hd) as V. pose proof (replace_panic (env_config env) display B ds) as P.
  destruct (replace_encrypted _ _ _) as [segs|x|q] eqn:Er; [|destruct V|].
  - destruct V as [V1 V2]. left. exists segs. split; [|split; [exact V1|exact V2]]. eapply view_labelled; eassumption.
  - destruct V as [V1 V2]. right. split; [now exists q|]. split; [now exists q|]. apply P. now exists q.
Qed.

Lemma layout_bytes x c a plain cipher : bytes_ok (long_layout x c a cipher) -> bytes_ok plain -> len plain = len cipher ->
  bytes_ok (long_layout x c a plain).
Proof.
  intros B Bp L. unfold long_layout in *. cbv zeta in *. bytes_split B.
  replace (N.of_nat (length plain) + 2) with (N.of_nat (length cipher) + 2) by (unfold len in L; lia).
  rewrite ?bytes_ok_cons, ?bytes_ok_app, ?bytes_ok_cons. unfold sum8 in *.
  repeat split; try assumption; try lia; try (apply N.mod_lt; discriminate). constructor.
Qed.
Lemma sealed_length enc dec key link plain cipher : sealed (enc key) link plain cipher -> length link = 8%nat \/ link = [] -> inverse_cipher enc dec key ->
  len plain = len cipher.
Proof.
  intros S L I. destruct S as [i0 i1 i2 i3 m0 m1 v d acc st c0 c1 a b c n iv blocks tail _ _ _ _ _ Hv F _ Ne
    |m0 m1 i0 i1 i2 i3 v d id acc st c0 c1 iv blocks tail Hl _ Hv F _ Ne].
  all: assert (Li : length iv = 16%nat) by (destruct Hv as [[_ ->]|[_ ->]]; subst; reflexivity).
  all: rewrite !len_app; unfold len; rewrite (cbc_encrypt_len enc dec key blocks I iv Li F).
  all: assert (Lc : length (concat blocks) = (16 * length blocks)%nat) by
    (clear - F; induction F as [|p blocks Hp _ IH]; [reflexivity|]; cbn [concat length]; rewrite app_length, Hp, IH; lia).
  all: rewrite Lc; reflexivity.
Qed.

Lemma view_wired env rn lr enc x c a f ad plain cipher block key input :
  let data := long_layout x c a cipher in
  sealed (enc key) [] plain cipher -> encrypted_message plain block -> bytes_ok data -> bytes_ok plain ->
  wired_meaning data (LongFrame f ad cipher) ->
  inverse_cipher enc (env_aes env) key -> length key = 16%nat -> clean_and_convert input = data ->
  exists segs0, annotate_frame (env_config env) data = Ok segs0 /\
    decrypted_view env rn lr data input key (long_layout x c a plain) block segs0.
Proof.
  intros data S He B Bp W I Hk Ei.
  destruct (sealed_encrypted _ _ _ _ S) as (head & block' & cblock & _ & _ & He' & Hc & Ne). rewrite (encrypted_block _ _ _ He He') in *.
  pose proof (sealed_length _ _ _ _ _ _ S (or_intror eq_refl) I) as L.
  destruct (encrypted_annotates (env_config env) data 6 cipher cblock B) as (segs0 & Ea); [econstructor; exact W|exact Hc|].
  exists segs0. split; [exact Ea|]. eapply view_cases; try eassumption.
  - unfold decrypted_hexview. unfold data. rewrite (wired_view_plain _ enc _ _ _ _ f ad plain cipher key S B W I Hk). reflexivity.
  - eapply layout_bytes; eassumption.
  - inversion W as [| |x' c' a' f' ad' pl' Hf Ha Hcl E1 E2|]. subst f' ad' pl'.
    apply CarryWired with f ad. now apply WLong.
Qed.

Lemma view_wireless env rn lr enc data l c link plain cipher block fr key input segs0 :
  let w := [l; c] ++ link ++ cipher in let display := [l; c] ++ link ++ plain in
  sealed (enc key) link plain cipher -> encrypted_message plain block ->
  bytes_ok data -> bytes_ok w -> bytes_ok display -> length link = 8%nat -> not_wired data ->
  received data w -> wireless_meaning w fr -> wf_data fr = cipher -> carries display 10 plain ->
  inverse_cipher enc (env_aes env) key -> length key = 16%nat -> clean_and_convert input = data ->
  annotate_frame (env_config env) data = Ok segs0 ->
  decrypted_view env rn lr data input key display block segs0.
Proof.
  intros w display S He B Bw Bd Ll Nw Hr W Hf Hc I Hk Ei Ea.
  destruct (sealed_encrypted _ _ _ _ S) as (head & block' & cblock & _ & _ & He' & _ & Ne). rewrite (encrypted_block _ _ _ He He') in *.
  eapply view_cases; try eassumption.
  unfold decrypted_hexview. rewrite (wireless_view_plain enc _ data l c link cipher fr key plain B Bw Ll Hr W Hf S I Hk).
  assert (K : 11 <= len data).
  { pose proof (received_len _ _ Hr). pose proof (wireless_len _ _ W). lia. }
  destruct (not_wired_error (env_config env) data Nw K) as (e & E).
  unfold decrypted_wired_hexview, mbus_wired_try_from. rewrite E. reflexivity.
Qed.
