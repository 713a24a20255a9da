(** Consequences for Format A frames. *)
From Verif Require Import Proof.BaseFacts Model.Core Model.Wireless Proof.CrcFacts Proof.WirelessFacts
  Proof.WiredProps Proof.FormatAFacts Spec.CrcSpec Spec.WiredSpec Spec.WirelessSpec.

Lemma format_a_len frame encoded : format_a frame encoded -> 10 <= len frame /\ 12 <= len encoded.
Proof.
  destruct 1 as [head hi lo content enc Hh _ _]. rewrite !len_app. change (len [hi; lo]) with 2.
  unfold len; lia.
Qed.

Lemma strip_identity frame encoded output :
  format_a frame encoded -> bytes_ok encoded -> len encoded <= len output ->
  get frame 0 = Some (len frame - 1) -> len frame <= 256 ->
  exists output', strip_format_a_crcs encoded output = Ok (Some frame, output').
Proof.
  intros Hf Hok Ho H0 Hl. rewrite (strip_format_a frame encoded output Hf Hok Ho).
  replace (with_length frame) with frame; [eauto|].
  destruct frame as [|l rest]; [discriminate|].
  rewrite get_cons_0 in H0. rewrite len_cons in H0, Hl.
  assert (El : l = len rest + 1 - 1) by congruence.
  cbn [with_length]. fold (len rest). f_equal. lia.
Qed.

Lemma bytes_lit (l : list N) : forallb (fun b => b <? 256) l = true -> bytes_ok l.
Proof.
  rewrite forallb_forall. intros H. apply Forall_forall. intros x Hx. apply H in Hx. unfold byte_ok. lia.
Qed.

Definition ex_frame : list N :=
  [13; 0x44; 0x42; 0x04; 0x78; 0x56; 0x34; 0x12; 1; 7; 0x78; 0x0D; 0xFD; 0x11].
Definition ex_encoded : list N :=
  let head := firstn 10 ex_frame in let rest := skipn 10 ex_frame in
  let c1 := crc16_en13757 head in let c2 := crc16_en13757 rest in
  head ++ [c1 / 256; c1 mod 256] ++ rest ++ [c2 / 256; c2 mod 256].

Lemma ex_format_a : format_a ex_frame ex_encoded.
Proof.
  change ex_frame with (firstn 10 ex_frame ++ skipn 10 ex_frame).
  unfold ex_encoded. cbv zeta. apply FFrame; [reflexivity| |apply FLast].
  - apply crc_iff; [apply bytes_lit; reflexivity|vm_compute; reflexivity].
  - split; repeat constructor.
  - apply crc_iff; [apply bytes_lit; reflexivity|vm_compute; reflexivity].
Qed.

Lemma format_a_example : exists encoded output',
  format_a ex_frame encoded /\ len encoded = 18 /\
  strip_format_a_crcs encoded (repeat 0xAA 20) = Ok (Some ex_frame, output').
Proof.
  exists ex_encoded. eexists. split; [exact ex_format_a|]. split; [vm_compute; reflexivity|].
  vm_compute. reflexivity.
Qed.

Lemma format_a_corruption_refuted : exists frame encoded i b content output' fr,
  bytes_ok encoded /\ format_a frame encoded /\ (i < length encoded)%nat /\ b < 256 /\
  nth_error encoded i <> Some b /\
  strip_format_a_crcs (replace_byte encoded i b) (repeat 0 100) = Ok (Some content, output') /\
  content <> frame /\ wireless_try_from content = Ok fr.
Proof.
  exists ex_frame, ex_encoded, 14%nat, 0.
  eexists; eexists; eexists.
  split; [apply bytes_lit; vm_compute; reflexivity|].
  split; [exact ex_format_a|].
  split; [vm_compute; repeat constructor|].
  split; [reflexivity|].
  split; [vm_compute; discriminate|].
  split; [vm_compute; reflexivity|].
  split; [vm_compute; discriminate|].
  vm_compute. reflexivity.
Qed.

Lemma is_crc_bytes c hi lo hi' lo' :
  is_crc c (256 * hi + lo) -> is_crc c (256 * hi' + lo') -> lo < 256 -> lo' < 256 -> hi = hi' /\ lo = lo'.
Proof. intros H H' Hl Hl'. pose proof (is_crc_unique _ _ _ H H'). lia. Qed.

Lemma replace_bytes_ok l i b : bytes_ok l -> b < 256 -> bytes_ok (replace_byte l i b).
Proof.
  intros Hl Hb. unfold replace_byte. apply bytes_ok_app; split; [apply bytes_ok_firstn; assumption|].
  apply bytes_ok_cons; split; [assumption|apply bytes_ok_skipn; assumption].
Qed.

Lemma format_a_first_block frame encoded output i b :
  format_a frame encoded -> bytes_ok encoded -> (i < 12)%nat -> b < 256 ->
  nth_error encoded i <> Some b ->
  strip_format_a_crcs (replace_byte encoded i b) output = Ok (None, output).
Proof.
  intros Hf Hok Hi Hb Hn.
  pose proof (replace_bytes_ok encoded i b Hok Hb) as Hok'.
  destruct (strip_cases (replace_byte encoded i b) output Hok')
    as [[E _]|(head' & hi' & lo' & enc' & content' & Ed & Hh' & Hc' & _)]; [assumption|exfalso].
  destruct Hf as [head hi lo content enc Hh Hc Hr].
  assert (Hh2 : length head' = 10%nat) by (unfold len in Hh'; lia).
  rewrite Ed in Hok'.
  assert (Hokh' : bytes_ok head') by (apply bytes_ok_app in Hok' as [? _]; assumption).
  apply bytes_ok_app in Hok' as [_ Hok']. apply bytes_ok_app in Hok' as [Hok' _].
  apply bytes_ok_cons in Hok' as [_ Hok']. apply bytes_ok_cons in Hok' as [Hlo' _].
  pose proof Hok as Hok2. apply bytes_ok_app in Hok2 as [Hokh Hok2].
  apply bytes_ok_app in Hok2 as [Hok2 _].
  apply bytes_ok_cons in Hok2 as [_ Hok2]. apply bytes_ok_cons in Hok2 as [Hlo _].
  destruct (Nat.lt_ge_cases i 10) as [H10|H10].
  - rewrite replace_byte_app1 in Ed by lia.
    apply app_inj_len in Ed as [Eh Ed]; [|rewrite replace_byte_length; lia].
    cbn [app] in Ed. injection Ed as <- <- _.
    rewrite nth_error_app1 in Hn by lia.
    destruct (replace_split head i ltac:(lia)) as (p & o & r & -> & Hp & Hrep).
    rewrite Hrep in Eh. subst head'.
    rewrite nth_error_app2 in Hn by lia. replace (i - length p)%nat with 0%nat in Hn by lia.
    apply (crc_one_byte p o b r Hokh Hb); [cbn in Hn; congruence|].
    apply crc_iff in Hc; [|assumption]. apply crc_iff in Hc'; [|assumption]. congruence.
  - rewrite replace_byte_app2 in Ed by lia.
    apply app_inj_len in Ed as [<- Ed]; [|lia].
    rewrite nth_error_app2 in Hn by lia. rewrite Hh in *.
    destruct (is_crc_bytes _ _ _ _ _ Hc Hc' Hlo Hlo') as [<- <-].
    destruct (i - 10)%nat as [|[|k]] eqn:Ek; [| |lia];
      unfold replace_byte in Ed; cbn in Ed, Hn; injection Ed as Ed; congruence.
Qed.
