(** The tooltips of a decrypted view; what they do not say; examples. *)
From Coq Require Import List NArith ZArith Lia Bool String.
Import ListNotations.
From Verif Require Import Model.Base Model.Text Model.Core Model.F64 Model.Wired Model.Wireless Model.DataInfo Model.ValueInfo
  Model.Record Model.MbusData Model.Hex Model.Show Model.Legacy Model.Annotate Model.AnnotateText Model.Output
  Spec.CoreSpec Spec.WiredSpec Spec.CrcSpec Spec.WirelessSpec Spec.RecordSpec Spec.AnnotateSpec Spec.DetailSpec Spec.LegacySpec Spec.TooltipSpec
  Proof.BaseFacts Proof.CoreFacts Proof.AppFacts Proof.WiredFacts Proof.WirelessFacts Proof.WiredProps Proof.FormatAFacts Proof.FormatAProps
  Proof.IterFacts Proof.RecordFacts Proof.AnnotateFacts Proof.AnnotateFormatA
  Proof.AnnotateRecords Proof.AnnotateApp Proof.AnnotateProps Proof.TooltipFacts Proof.TooltipTexts Proof.TooltipFrames Proof.TooltipFormatA
  Proof.OutputProps Proof.LegacyProps.
Open Scope N_scope.
Open Scope list_scope.

Lemma view_texts cf display radio shown : bytes_ok shown -> forall l out, replace_encrypted_told cf display l shown = Ok out ->
  forall s t, In (s, t) out -> In (s, t) l \/
    (right_text cf radio shown (s, t) /\
     exists e x, In (e, x) l /\ s_kind e = KEncryptedPayload /\ s_start e <= s_start s /\ s_end s <= s_end e).
Proof.
  intros Hb. induction l as [|[e x] l IH]; intros out H s t Hin; cbn [replace_encrypted_told] in H.
  { apply Ok_inj in H. subst out. destruct Hin. }
  apply bind_ok in H as (here & Hh & H). apply bind_ok in H as (rest & Hr & H). apply Ok_inj in H. subst out.
  apply in_app_iff in Hin as [Hin|Hin].
  2:{ destruct (IH _ Hr s t Hin) as [K|(K & e' & x' & A & B)]; [left; now right|right]. split; [exact K|]. exists e', x'. split; [now right|exact B]. }
  assert (Same : here = [(e, x)] -> In (s, t) ((e, x) :: l)) by (intros ->; destruct Hin as [Hin|[]]; now left).
  destruct (s_kind e) eqn:Ek; try (apply Ok_inj in Hh; left; apply Same; now symmetry).
  apply bind_ok in Hh as (pushed & Hp & Hh). apply Ok_inj in Hh.
  destruct pushed as [|y ys] eqn:Ep; [left; apply Same; now symmetry|]. rewrite <- Ep in *. subst here. right.
  destruct (get_range shown (s_start e) (s_end e)) as [d|] eqn:G; [|apply Ok_inj in Hp; subst pushed; discriminate].
  destruct (get_range_split _ _ _ _ G) as (pre & post & Ed & Lp & Ld). apply get_range_ok in G as (G1 & G2 & _).
  rewrite Ed in Hb. apply bytes_ok_app in Hb as [_ Hb]. apply bytes_ok_app in Hb as [Hb _].
  rewrite <- Lp in Hp. pose proof (records_good cf display radio pre d post pushed Hb Hp) as Gd. rewrite <- Ed in Gd.
  unfold good in Gd. rewrite Forall_forall in Gd. split; [exact (Gd _ Hin)|]. exists e, x. split; [now left|]. split; [exact Ek|].
  pose proof (records_ranges cf display (len pre) d) as R. rewrite Hp in R. symmetry in R. cbn [ranges] in R.
  apply data_records_tiles in R. pose proof (in_map fst _ _ Hin) as K. cbn [fst] in K.
  pose proof (tiles_start_ge _ _ _ R) as A. pose proof (tiles_nonempty _ _ _ R) as B. rewrite Forall_forall in A, B. specialize (A _ K). specialize (B _ K). cbn beta in A, B.
  pose proof (tiles_covers _ _ _ R s (s_end s - 1) K) as C. unfold covers in C. specialize (C ltac:(lia)). lia.
Qed.

Lemma view_values cf display shown : forall l out, replace_encrypted_told cf display l shown = Ok out ->
  forall s t, In (s, t) out -> s_kind s = KDataPayload -> In (s, t) l \/
    exists e x, In (e, x) l /\ s_kind e = KEncryptedPayload /\ s_start e <= s_start s /\ s_end s <= s_end e /\
    forall items, records_all cf (slice shown (s_start e) (s_end e)) None = Some items -> Forall not_readout items ->
    exists k r, nth_error items k = Some (Ok r) /\ s_group s = Some (N.of_nat k) /\ value_told display r t.
Proof.
  induction l as [|[e x] l IH]; intros out H s t Hin Hk; cbn [replace_encrypted_told] in H.
  { apply Ok_inj in H. subst out. destruct Hin. }
  apply bind_ok in H as (here & Hh & H). apply bind_ok in H as (rest & Hr & H). apply Ok_inj in H. subst out.
  apply in_app_iff in Hin as [Hin|Hin].
  2:{ destruct (IH _ Hr s t Hin Hk) as [K|(e' & x' & A & B)]; [left; now right|right]. exists e', x'. split; [now right|exact B]. }
  assert (Same : here = [(e, x)] -> In (s, t) ((e, x) :: l)) by (intros ->; destruct Hin as [Hin|[]]; now left).
  destruct (s_kind e) eqn:Ek; try (apply Ok_inj in Hh; left; apply Same; now symmetry).
  apply bind_ok in Hh as (pushed & Hp & Hh). apply Ok_inj in Hh.
  destruct pushed as [|y ys] eqn:Ep; [left; apply Same; now symmetry|]. rewrite <- Ep in *. subst here. right.
  destruct (get_range shown (s_start e) (s_end e)) as [d|] eqn:G; [|apply Ok_inj in Hp; subst pushed; discriminate].
  destruct (get_range_split _ _ _ _ G) as (pre & post & Ed & Lp & Ld). apply get_range_ok in G as (G1 & G2 & Gd).
  exists e, x. split; [now left|]. split; [exact Ek|].
  pose proof (records_ranges cf display (s_start e) d) as R. rewrite Hp in R. symmetry in R. cbn [ranges] in R.
  apply data_records_tiles in R. pose proof (in_map fst _ _ Hin) as K. cbn [fst] in K.
  pose proof (tiles_start_ge _ _ _ R) as A. pose proof (tiles_nonempty _ _ _ R) as B. rewrite Forall_forall in A, B. specialize (A _ K). specialize (B _ K). cbn beta in A, B.
  pose proof (tiles_covers _ _ _ R s (s_end s - 1) K) as C. unfold covers in C. specialize (C ltac:(lia)).
  split; [lia|]. split; [lia|]. intros items Hi Hok.
  assert (Es : slice shown (s_start e) (s_end e) = d) by (symmetry; exact Gd).
  rewrite Es in Hi. apply records_all_iff in Hi.
  unfold records_told in Hp. pose proof (loop_values cf display _ _ _ _ _ _ _ Hp ltac:(lia) Hi Hok) as F.
  rewrite Forall_forall in F. exact (F _ Hin Hk).
Qed.

(** ** What fails *)
Lemma second_start_refuted cf display : exists data fr l t x,
  bytes_ok data /\ wired_meaning data fr /\ frame_told cf display data = Ok l /\
  slice data 3 4 = [x] /\ x <> 0x68 /\ text_at l 3 = Some t /\ t = txt "Start: 0x68 (repeated)".
Proof.
  exists (long_layout 0 0x08 1 [0x78]), (LongFrame (RspUd false false) (Primary 1) [0x78]). do 3 eexists.
  split; [apply bytes_lit; vm_compute; reflexivity|]. split; [apply WLong; [cbn; auto 20|cbn; lia|discriminate]|].
  split; [destruct cf as [[] []]; vm_compute; reflexivity|]. split; [reflexivity|]. split; [discriminate|]. split; vm_compute; reflexivity.
Qed.
Lemma text_first_refuted display : exists data fr l t s,
  bytes_ok data /\ wired_meaning data fr /\ frame_told text_first display data = Ok l /\
  In (s, t) l /\ s_kind s = KPlaintextVif /\ slice data (s_start s) (s_end s) = [0x41; 0x74] /\
  t = txt "Plaintext VIF: ""A""".
Proof.
  exists (long_frame (0x78 :: ex_text_block)), (LongFrame (RspUd false false) (Primary 1) (0x78 :: ex_text_block)). do 2 eexists.
  exists (seg 10 12 KPlaintextVif (Some 0) LRecordField).
  split; [apply bytes_lit; vm_compute; reflexivity|]. split; [apply WLong; [cbn; auto 20|cbn; lia|discriminate]|].
  split; [vm_compute; reflexivity|]. split; [do 9 right; left; reflexivity|]. repeat split; vm_compute; reflexivity.
Qed.
Lemma number_refuted : exists d l,
  decode_bytes ex_env ex_wired_clear None false = Ok d /\ option_map id_id (do_identity d) = Some (Some (txt "12345678")) /\
  frame_told debug ex_display ex_wired_clear = Ok l /\ text_at l 7 = Some (txt "ID: 78563412").
Proof.
  do 2 eexists. split; [vm_compute; reflexivity|]. split; [vm_compute; reflexivity|]. split; vm_compute; reflexivity.
Qed.

(** ** Examples *)
Lemma wired_tooltips_example : exists fr l, bytes_ok ex_wired_clear /\ wired_meaning ex_wired_clear fr /\
  frame_told debug ex_display ex_wired_clear = Ok l /\ length l = 23%nat /\ get ex_wired_clear 3 = Some 0x68 /\
  plaintext_before_extension debug = false /\
  text_at l 4 = Some (txt "C Field: RSP_UD (ACD: false, DFC: false)") /\ text_at l 15 = Some (txt "Access Number: 9").
Proof.
  exists (LongFrame (RspUd false false) (Primary 1) ex_clear_message). eexists.
  split; [apply bytes_lit; vm_compute; reflexivity|]. split; [apply WLong; [cbn; auto 20|cbn; lia|discriminate]|].
  split; [vm_compute; reflexivity|]. repeat split; vm_compute; reflexivity.
Qed.
Lemma air_tooltips_example : exists fr l plain,
  bytes_ok ex_air_encoded /\ bytes_ok ex_air /\ format_a ex_air ex_air_encoded /\ wireless_meaning ex_air fr /\
  not_wired ex_air /\ no_first_crc ex_air /\ not_wired ex_air_encoded /\
  frame_told debug ex_display ex_air = Ok plain /\ frame_told debug ex_display ex_air_encoded = Ok l /\
  text_at l 12 = Some (txt "CI: 0x7A (Short TPL)") /\ text_at plain 10 = Some (txt "CI: 0x7A (Short TPL)").
Proof.
  destruct air_example as (fr & H1 & H2 & H3 & H4 & H5 & H6 & H7 & _). exists fr. do 2 eexists. repeat (split; [assumption|]).
  split; [vm_compute; reflexivity|]. split; [vm_compute; reflexivity|]. split; vm_compute; reflexivity.
Qed.
Lemma values_example : exists l items,
  bytes_ok ex_wired_clear /\ carries ex_wired_clear 6 ex_clear_message /\ clear_message ex_clear_message ex_clear_block /\
  frame_told debug ex_display ex_wired_clear = Ok l /\ records_all debug ex_clear_block None = Some items /\
  Forall not_readout items /\ text_at l 22 = Some (txt "1.5") /\ label_at (map fst l) 22 = Some (KDataPayload, Some 0, LRecordField).
Proof.
  do 2 eexists. split; [apply bytes_lit; vm_compute; reflexivity|]. split; [apply long_frame_carries|].
  split; [apply ClrLong; [now left|reflexivity]|].
  split; [vm_compute; reflexivity|]. split; [vm_compute; reflexivity|].
  split; [repeat (apply Forall_cons || apply Forall_nil); intros r E; apply Ok_inj in E; subst r; discriminate|].
  split; vm_compute; reflexivity.
Qed.
Lemma view_example : exists l out, bytes_ok (long_frame (sealed_head ++ ex_clear_block)) /\
  frame_told debug ex_display (long_frame (sealed_head ++ repeat 0x2F 11)) = Ok l /\
  replace_encrypted_told debug ex_display l (long_frame (sealed_head ++ ex_clear_block)) = Ok out /\
  text_at l 19 = Some (txt "Encrypted variable data") /\ text_at out 19 = Some (txt "DIF: 0x0C").
Proof.
  do 2 eexists. split; [apply bytes_lit; vm_compute; reflexivity|]. split; [vm_compute; reflexivity|].
  split; [vm_compute; reflexivity|]. split; vm_compute; reflexivity.
Qed.
Lemma view_values_example : exists l out items,
  frame_told debug ex_display (long_frame (sealed_head ++ repeat 0x2F 11)) = Ok l /\
  replace_encrypted_told debug ex_display l (long_frame (sealed_head ++ ex_clear_block)) = Ok out /\
  records_all debug ex_clear_block None = Some items /\ Forall not_readout items /\
  text_at out 22 = Some (txt "1.5") /\ label_at (map fst out) 22 = Some (KDataPayload, Some 0, LRecordField) /\
  exists e x, In (e, x) l /\ s_kind e = KEncryptedPayload /\
  slice (long_frame (sealed_head ++ ex_clear_block)) (s_start e) (s_end e) = ex_clear_block.
Proof.
  do 3 eexists. split; [vm_compute; reflexivity|]. split; [vm_compute; reflexivity|]. split; [vm_compute; reflexivity|].
  split; [repeat (apply Forall_cons || apply Forall_nil); intros r E; apply Ok_inj in E; subst r; discriminate|].
  split; [vm_compute; reflexivity|]. split; [vm_compute; reflexivity|]. do 2 eexists.
  let rec pick := ((left; reflexivity) + (right; pick)) in (split; [pick|]); (split; [reflexivity|]); vm_compute; reflexivity.
Qed.
