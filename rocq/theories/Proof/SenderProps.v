(** Wireless frames: what the sender put in comes out (C133). *)
From Coq Require Import List NArith Lia.
Import ListNotations.
From Verif Require Import Model.Base Model.Core Model.Wireless Spec.CoreSpec Spec.CrcSpec Spec.WiredSpec
  Spec.WirelessSpec Spec.SenderSpec Proof.BaseFacts Proof.CrcFacts Proof.WirelessFacts
  Proof.FormatAFacts Proof.FormatAProps.
Open Scope N_scope.

Lemma digits8 (l : list N) : length l = 8%nat ->
  exists a b c d e f g h, l = [a; b; c; d; e; f; g; h].
Proof.
  intros H. do 9 (destruct l as [|? l]; [try discriminate H|]); try discriminate H.
  do 8 eexists. reflexivity.
Qed.

Lemma header_shape s n : sender_ok s ->
  exists m0 m1 i0 i1 i2 i3,
    link_header s n = [9 + n; s_control s; m0; m1; i0; i1; i2; i3; s_version s; s_device s] /\
    m0 < 256 /\ m1 < 256 /\ i0 < 256 /\ i1 < 256 /\ i2 < 256 /\ i3 < 256 /\
    (let '(a, b, c) := s_letters s in m0 + 256 * m1 = flag_id a b c) /\
    spells (s_digits s) [i0; i1; i2; i3].
Proof.
  destruct s as [ct [[a b] c] ds v d]. unfold sender_ok, link_header. cbn [s_control s_letters s_digits s_version s_device].
  intros (Ha & Hb & Hc & Hl & Hd & Hct & Hv & Hdev).
  destruct (digits8 ds Hl) as (d0 & d1 & d2 & d3 & d4 & d5 & d6 & d7 & ->).
  repeat match goal with H : Forall _ (_ :: _) |- _ => inversion H; subst; clear H end.
  assert (F : flag_id a b c < 65536) by (unfold flag_id, capital in *; nia).
  exists (flag_id a b c mod 256), (flag_id a b c / 256), (16 * d1 + d0), (16 * d3 + d2), (16 * d5 + d4), (16 * d7 + d6).
  split; [reflexivity|].
  assert (flag_id a b c mod 256 < 256) by (apply N.mod_lt; lia).
  assert (flag_id a b c / 256 < 256) by (apply N.div_lt_upper_bound; lia).
  pose proof (N.div_mod (flag_id a b c) 256 ltac:(discriminate)) as D.
  cbn [spells]. repeat match goal with |- _ /\ _ => split end; try assumption; try exact I; try reflexivity; lia.
Qed.

Lemma header_ok s n : sender_ok s -> n <= 246 -> bytes_ok (link_header s n).
Proof.
  intros Hs Hn. destruct (header_shape s n Hs) as (m0 & m1 & i0 & i1 & i2 & i3 & -> & ? & ? & ? & ? & ? & ? & _ & _).
  destruct s as [ct [[a b] c] ds v d]. destruct Hs as (_ & _ & _ & _ & _ & Hct & Hv & Hdev). cbn in *.
  unfold bytes_ok. repeat (apply Forall_cons; [unfold byte_ok; lia|]). apply Forall_nil.
Qed.

(** the payload as the parser delimits it *)
Lemma parses s ci rest payload : sender_ok s -> bytes_ok (ci :: rest) -> len (ci :: rest) <= 246 ->
  payload_of (link_header s (len (ci :: rest))) (ci :: rest) payload ->
  exists fr, wireless_try_from (link_header s (len (ci :: rest)) ++ ci :: rest) = Ok fr /\
    comes_from s ci fr /\ wf_data fr = payload.
Proof.
  intros Hs Hok Hn Hp. pose proof (header_ok s _ Hs Hn) as Hh.
  destruct (header_shape s (len (ci :: rest)) Hs)
    as (m0 & m1 & i0 & i1 & i2 & i3 & E & ? & ? & ? & ? & ? & ? & Hf & Hsp).
  rewrite E in *.
  set (l := 9 + len (ci :: rest)) in *.
  destruct s as [ct [[a b] c] ds v d]. destruct Hs as (Ha & Hb & Hc & Hl & Hd & Hct & Hv & Hdev). cbn [s_control s_letters s_digits s_version s_device] in *.
  set (id := {| mi_manufacturer_code := {| mc1 := a; mc2 := b; mc3 := c |};
                mi_identification_number := decimal ds;
                mi_device_type := device_type_from_u8 (if andb (0xA0 <=? ci) (ci <=? 0xAF) then d / 16 else d);
                mi_version := v; mi_is_unique_globally := false |}).
  exists {| wf_control_field := ct; wf_function := ok_opt (function_try_from ct); wf_manufacturer_id := id; wf_data := payload |}.
  split; [|split].
  - apply wireless_ok_iff; [apply bytes_ok_app; split; assumption|].
    exists l, ct, m0, m1, i0, i1, i2, i3, v, d, ci, rest.
    split; [reflexivity|]. split.
    { subst l. change (N.of_nat (length ?x)) with (len x). rewrite len_app. 
      change (len [9 + len (ci :: rest); ct; m0; m1; i0; i1; i2; i3; v; d]) with 10. lia. }
    split; [reflexivity|]. split; [apply function_opt|]. split; [|exact Hp].
    unfold identity, id. cbn. repeat split; try assumption; try apply Ha; try apply Hb; try apply Hc.
    exists ds. split; [exact Hsp|reflexivity].
  - unfold comes_from, id. cbn. repeat split.
    intros Hr. destruct (N.leb_spec 0xA0 ci), (N.leb_spec ci 0xAF); cbn; try reflexivity; lia.
  - reflexivity.
Qed.

Lemma with_crc s ci payload hi lo : sender_ok s -> bytes_ok (ci :: payload ++ [hi; lo]) ->
  len (ci :: payload ++ [hi; lo]) <= 246 ->
  is_crc (link_header s (len (ci :: payload ++ [hi; lo])) ++ ci :: payload) (256 * hi + lo) ->
  exists fr, wireless_try_from (link_header s (len (ci :: payload ++ [hi; lo])) ++ ci :: payload ++ [hi; lo]) = Ok fr /\
    comes_from s ci fr /\ wf_data fr = ci :: payload.
Proof.
  intros Hs Hok Hn Hc. apply parses; try assumption.
  left. exists hi, lo. split; [reflexivity|exact Hc].
Qed.

Lemma without_crc s ci rest : sender_ok s -> bytes_ok (ci :: rest) -> len (ci :: rest) <= 246 ->
  (forall p hi lo, ci :: rest = p ++ [hi; lo] ->
     ~ is_crc (link_header s (len (ci :: rest)) ++ p) (256 * hi + lo)) ->
  exists fr, wireless_try_from (link_header s (len (ci :: rest)) ++ ci :: rest) = Ok fr /\
    comes_from s ci fr /\ wf_data fr = ci :: rest.
Proof. intros Hs Hok Hn Hc. apply parses; try assumption. right. split; [reflexivity|exact Hc]. Qed.

Lemma snoc2 {A} (p q : list A) a b c d : p ++ [a; b] = q ++ [c; d] -> p = q /\ a = c /\ b = d.
Proof.
  intros H. change [a; b] with ([a] ++ [b]) in H. change [c; d] with ([c] ++ [d]) in H.
  rewrite !app_assoc in H. apply app_inj_tail in H as [H ->]. apply app_inj_tail in H as [-> ->]. auto.
Qed.

(** a byte of the payload changed: the CRC no longer fits and is taken for payload *)
Lemma damaged s ci pre b post hi lo b' : sender_ok s -> bytes_ok (ci :: pre ++ b :: post ++ [hi; lo]) ->
  len (ci :: pre ++ b :: post ++ [hi; lo]) <= 246 -> b' < 256 -> b' <> b ->
  is_crc (link_header s (len (ci :: pre ++ b :: post ++ [hi; lo])) ++ ci :: pre ++ b :: post) (256 * hi + lo) ->
  exists fr,
    wireless_try_from (link_header s (len (ci :: pre ++ b :: post ++ [hi; lo])) ++ ci :: pre ++ b' :: post ++ [hi; lo]) = Ok fr /\
    comes_from s ci fr /\ wf_data fr = ci :: pre ++ b' :: post ++ [hi; lo].
Proof.
  intros Hs Hok Hn Hb Hne Hc.
  assert (L : len (ci :: pre ++ b :: post ++ [hi; lo]) = len (ci :: pre ++ b' :: post ++ [hi; lo])).
  { rewrite !len_cons, !len_app, !len_cons. reflexivity. }
  pose proof (header_ok s _ Hs Hn) as Hh.
  assert (Hok' : bytes_ok (ci :: pre ++ b' :: post ++ [hi; lo])).
  { apply bytes_ok_cons in Hok as [H1 Hok]. apply bytes_ok_app in Hok as [H2 Hok]. apply bytes_ok_cons in Hok as [_ Hok].
    apply bytes_ok_cons. split; [assumption|]. apply bytes_ok_app. split; [assumption|].
    apply bytes_ok_cons. split; assumption. }
  rewrite L in *. apply without_crc; try assumption.
  intros p hi' lo' E Hc'.
  replace (ci :: pre ++ b' :: post ++ [hi; lo]) with ((ci :: pre ++ b' :: post) ++ [hi; lo]) in E
    by (cbn; rewrite <- app_assoc; reflexivity).
  apply snoc2 in E as (<- & <- & <-).
  set (h := link_header _ _) in *.
  replace (h ++ ci :: pre ++ b :: post) with ((h ++ ci :: pre) ++ b :: post) in Hc by (rewrite <- app_assoc; reflexivity).
  replace (h ++ ci :: pre ++ b' :: post) with ((h ++ ci :: pre) ++ b' :: post) in Hc' by (rewrite <- app_assoc; reflexivity).
  assert (O1 : bytes_ok ((h ++ ci :: pre) ++ b :: post)).
  { apply bytes_ok_cons in Hok as [H1 Hok]. apply bytes_ok_app in Hok as [H2 Hok]. apply bytes_ok_cons in Hok as [H3 Hok].
    apply bytes_ok_app in Hok as [H4 _].
    apply bytes_ok_app. split; [apply bytes_ok_app; split; [assumption|apply bytes_ok_cons; split; assumption]|].
    apply bytes_ok_cons. split; assumption. }
  assert (O2 : bytes_ok ((h ++ ci :: pre) ++ b' :: post)).
  { apply bytes_ok_app in O1 as [H1 H2]. apply bytes_ok_cons in H2 as [_ H2].
    apply bytes_ok_app. split; [assumption|]. apply bytes_ok_cons. split; assumption. }
  apply (crc_one_byte (h ++ ci :: pre) b b' post O1 Hb (fun e => Hne (eq_sym e))).
  apply crc_iff in Hc; [|exact O1]. apply crc_iff in Hc'; [|exact O2]. congruence.
Qed.

Lemma delimits data ext fr fr' :
  wireless_try_from data = Ok fr -> wireless_try_from (data ++ ext) = Ok fr' -> ext = [].
Proof.
  assert (K : forall d f, wireless_try_from d = Ok f -> exists l m, d = l :: m /\ l + 1 = len d).
  { intros d f H. unfold wireless_try_from in H.
    apply bind_ok in H as (l & H0 & H). apply bind_ok in H as (c & _ & H).
    apply bind_ok in H as (t & _ & H). apply bind_ok in H as (i & _ & H).
    destruct d as [|x m]; [discriminate H0|]. cbn in H0. inversion H0; subst.
    exists l, m. split; [reflexivity|].
    destruct (N.eqb_spec (l + 1) (len (l :: m))) as [E|E]; [exact E|discriminate H]. }
  intros H H'. apply K in H as (l & m & -> & E). apply K in H' as (l' & m' & E' & F).
  rewrite len_app in F. cbn [app] in E'. injection E' as <- _.
  destruct ext; [reflexivity|]. rewrite (len_cons _ ext) in F. lia.
Qed.

(** meter ABB 12345678, version 1, water, SND-NR *)
Definition ex_sender : sender :=
  {| s_control := 0x44; s_letters := (0x41, 0x42, 0x42); s_digits := [8; 7; 6; 5; 4; 3; 2; 1];
     s_version := 1; s_device := 7 |}.

Lemma ex_sender_ok : sender_ok ex_sender.
Proof.
  unfold sender_ok, capital; cbn. repeat split; try lia.
  repeat (apply Forall_cons; [lia|]); apply Forall_nil.
Qed.

Definition ex_crc (ci : N) (payload : list N) : N :=
  crc16_en13757 (link_header ex_sender (len payload + 3) ++ ci :: payload).

Lemma ex_is_crc : is_crc (link_header ex_sender 6 ++ [0x78; 0x0D; 0xFD; 0x11])
  (256 * (ex_crc 0x78 [0x0D; 0xFD; 0x11] / 256) + ex_crc 0x78 [0x0D; 0xFD; 0x11] mod 256).
Proof.
  apply crc_iff; [|vm_compute; reflexivity].
  unfold bytes_ok. vm_compute link_header. repeat (apply Forall_cons; [reflexivity|]); apply Forall_nil.
Qed.

Lemma lost_refuted : exists s ci rest fr, sender_ok s /\ bytes_ok (ci :: rest) /\ len (ci :: rest) <= 246 /\
  wireless_try_from (link_header s (len (ci :: rest)) ++ ci :: rest) = Ok fr /\ wf_data fr <> ci :: rest.
Proof.
  exists ex_sender, 0x78, [0x0D; 0xFD; 0x11; ex_crc 0x78 [0x0D; 0xFD; 0x11] / 256; ex_crc 0x78 [0x0D; 0xFD; 0x11] mod 256].
  eexists. split; [exact ex_sender_ok|]. split.
  { unfold bytes_ok. vm_compute ex_crc. repeat (apply Forall_cons; [reflexivity|]); apply Forall_nil. }
  split; [vm_compute; discriminate|]. split; [vm_compute; reflexivity|vm_compute; discriminate].
Qed.

Lemma without_crc_example : exists fr,
  wireless_try_from (link_header ex_sender 4 ++ [0x78; 0x0D; 0xFD; 0x11]) = Ok fr /\
  comes_from ex_sender 0x78 fr /\ wf_data fr = [0x78; 0x0D; 0xFD; 0x11].
Proof.
  eexists. split; [vm_compute; reflexivity|]. split; [|reflexivity].
  unfold comes_from; cbn. repeat split.
Qed.

Lemma damage_refuted : exists s ci pre b post hi lo b' fr, sender_ok s /\ b' <> b /\
  is_crc (link_header s (len (ci :: pre ++ b :: post ++ [hi; lo])) ++ ci :: pre ++ b :: post) (256 * hi + lo) /\
  wireless_try_from (link_header s (len (ci :: pre ++ b :: post ++ [hi; lo])) ++ ci :: pre ++ b' :: post ++ [hi; lo]) = Ok fr.
Proof.
  exists ex_sender, 0x78, [0x0D], 0xFD, [0x11], (ex_crc 0x78 [0x0D; 0xFD; 0x11] / 256),
    (ex_crc 0x78 [0x0D; 0xFD; 0x11] mod 256), 0xFC. eexists.
  split; [exact ex_sender_ok|]. split; [discriminate|]. split; [exact ex_is_crc|].
  vm_compute; reflexivity.
Qed.

Lemma with_length_header s n content : sender_ok s -> len content <= 246 ->
  with_length (link_header s n ++ content) = link_header s (len content) ++ content.
Proof.
  intros Hs H.
  assert (E : forall k, exists t, link_header s k = (9 + k) :: t /\ t = tl (link_header s 0)).
  { intros k. unfold link_header. destruct (s_letters s) as [[a b] c]. eexists. split; reflexivity. }
  assert (L : len (tl (link_header s 0)) = 9).
  { destruct (header_shape s 0 Hs) as (? & ? & ? & ? & ? & ? & -> & _). reflexivity. }
  destruct (E n) as (t & -> & ->). destruct (E (len content)) as (t & -> & ->).
  cbn [app with_length]. f_equal. change (N.of_nat (length ?x)) with (len x). rewrite len_app, L.
  apply N.mod_small. lia.
Qed.

Lemma app_same {A} (a b c d : list A) : a ++ b = c ++ d -> length a = length c -> a = c /\ b = d.
Proof.
  revert c. induction a as [|x a IH]; intros [|y c] E L; try discriminate L; [auto|].
  injection E as -> E. destruct (IH c E ltac:(cbn in L; lia)) as [-> ->]. auto.
Qed.

Lemma strips_nonempty enc content : strips enc content -> enc <> [] -> content <> [].
Proof.
  intros H Hne. destruct H as [t|c hi lo e k Hc _ _]; [exact Hne|].
  destruct c; [cbn in Hc; lia|discriminate].
Qed.

Lemma strips_bytes enc content : strips enc content -> bytes_ok enc -> bytes_ok content.
Proof.
  induction 1 as [t|c hi lo e k _ _ _ IH]; intros H; [exact H|].
  apply bytes_ok_app in H as [H1 H]. apply bytes_ok_app in H as [_ H]. apply bytes_ok_app. auto.
Qed.

(** whatever follows an intact first block is accepted *)
Lemma later_blocks s n hi lo enc output : sender_ok s -> n <= 246 -> hi < 256 -> lo < 256 ->
  is_crc (link_header s n) (256 * hi + lo) -> bytes_ok enc -> 1 <= len enc <= 246 ->
  12 + len enc <= len output ->
  exists ci content output' fr,
    strips enc (ci :: content) /\
    strip_format_a_crcs (link_header s n ++ [hi; lo] ++ enc) output =
      Ok (Some (link_header s (len (ci :: content)) ++ ci :: content), output') /\
    wireless_try_from (link_header s (len (ci :: content)) ++ ci :: content) = Ok fr /\
    comes_from s ci fr.
Proof.
  intros Hs Hn Hhi Hlo Hc Hok Hl Ho.
  pose proof (header_ok s n Hs Hn) as Hh.
  assert (L : len (link_header s n) = 10).
  { destruct (header_shape s n Hs) as (? & ? & ? & ? & ? & ? & -> & _). reflexivity. }
  assert (Hd : bytes_ok (link_header s n ++ [hi; lo] ++ enc)).
  { apply bytes_ok_app. split; [assumption|]. apply bytes_ok_cons. split; [assumption|]. apply bytes_ok_cons. split; assumption. }
  destruct (strip_cases _ output Hd) as [[_ [H|[H|(h & a & b & e & E & Lh & Hnc)]]]|(h & a & b & e & content & E & Lh & Hc' & _ & Hst & R)].
  - rewrite !len_app, L in H. change (len [hi; lo]) with 2 in H. lia.
  - rewrite !len_app, L in H. change (len [hi; lo]) with 2 in H. lia.
  - exfalso. apply app_same in E as [<- E]; [|unfold len in *; lia]. injection E as <- <- <-. exact (Hnc Hc).
  - apply app_same in E as [<- E]; [|unfold len in *; lia]. injection E as <- <- <-.
    pose proof (strips_len _ _ Hst) as Hsl.
    assert (Hne : enc <> []) by (intros ->; cbn in Hl; lia).
    pose proof (strips_nonempty _ _ Hst Hne) as Hcn. pose proof (strips_bytes _ _ Hst Hok) as Hcb.
    destruct content as [|ci content]; [congruence|].
    rewrite with_length_header in R by (assumption || lia).
    pose proof (header_ok s (len (ci :: content)) Hs ltac:(lia)) as Hh'.
    assert (P : exists p, payload_of (link_header s (len (ci :: content))) (ci :: content) p).
    { destruct (header_shape s (len (ci :: content)) Hs) as (m0 & m1 & i0 & i1 & i2 & i3 & E & _).
      rewrite E in *. edestruct wireless_tail as (p & Hp & _); [|exists p; exact Hp].
      apply bytes_ok_app. split; assumption. }
    destruct P as (p & Hp).
    destruct (parses s ci content p Hs Hcb ltac:(lia) Hp) as (fr & Hf & Hcf & _).
    exists ci, content. eexists. exists fr. split; [exact Hst|]. split; [exact R|]. split; assumption.
Qed.

Definition ex_first : N := crc16_en13757 (link_header ex_sender 4).

(** four bytes follow that are no block: the last two are not the CRC of the first two *)
Lemma later_example :
  is_crc (link_header ex_sender 4) (256 * (ex_first / 256) + ex_first mod 256) /\
  bytes_ok [0x78; 0x0D; 0xFD; 0x11] /\ ~ is_crc [0x78; 0x0D] 0xFD11 /\
  exists output', strip_format_a_crcs
    (link_header ex_sender 4 ++ [ex_first / 256; ex_first mod 256] ++ [0x78; 0x0D; 0xFD; 0x11]) (repeat 0 40) =
    Ok (Some (link_header ex_sender 4 ++ [0x78; 0x0D; 0xFD; 0x11]), output').
Proof.
  split; [|split; [|split]].
  - apply crc_iff; [|vm_compute; reflexivity].
    unfold bytes_ok. vm_compute link_header. repeat (apply Forall_cons; [reflexivity|]); apply Forall_nil.
  - unfold bytes_ok. repeat (apply Forall_cons; [reflexivity|]); apply Forall_nil.
  - intros H. apply crc_iff in H; [discriminate H|].
    unfold bytes_ok. repeat (apply Forall_cons; [reflexivity|]); apply Forall_nil.
  - eexists. vm_compute. reflexivity.
Qed.
