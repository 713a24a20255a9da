(** Wired and wireless frames are told apart (C134). *)
From Coq Require Import List NArith Lia String.
Import ListNotations.
From Verif Require Import Model.Base Model.Text Model.Core Model.Wired Model.Wireless Model.Hex Model.MbusData Model.Output
  Spec.CoreSpec Spec.TextSpec Spec.CrcSpec Spec.WiredSpec Spec.WirelessSpec Spec.AnnotateSpec Spec.MbusSpec Spec.OutputSpec Spec.SenderSpec
  Proof.BaseFacts Proof.CrcFacts Proof.AnnotateProps Proof.MbusProps Proof.OutputFrames Proof.OutputProps Proof.SenderProps.
Open Scope N_scope.

Lemma wired_taken env data fr key enrich d : bytes_ok data -> wired_meaning data fr ->
  decode_bytes env data key enrich = Ok d -> do_protocol d = txt "wired".
Proof.
  intros B W H. destruct (decode_ok _ _ _ _ _ B H) as [(f & _ & P & _)|(w & f & N0 & _)]; [exact P|].
  exfalso. exact (N0 _ W).
Qed.

Lemma frame_bytes s ci rest : sender_ok s -> bytes_ok (ci :: rest) -> len (ci :: rest) <= 246 ->
  bytes_ok (link_header s (len (ci :: rest)) ++ ci :: rest).
Proof. intros Hs Hb Hl. apply bytes_ok_app. split; [apply header_ok; assumption|assumption]. Qed.

Lemma taken_for_acknowledgement env s ci rest key enrich d : sender_ok s -> bytes_ok (ci :: rest) ->
  len (ci :: rest) = 220 ->
  decode_bytes env (link_header s (len (ci :: rest)) ++ ci :: rest) key enrich = Ok d ->
  do_protocol d = txt "wired".
Proof.
  intros Hs Hb Hl. assert (B := frame_bytes s ci rest Hs Hb ltac:(lia)).
  assert (W : wired_meaning (link_header s (len (ci :: rest)) ++ ci :: rest) (SingleCharacter 0xE5)).
  { destruct (header_shape s (len (ci :: rest)) Hs) as (m0 & m1 & i0 & i1 & i2 & i3 & -> & _).
    rewrite Hl. apply WSingle. }
  exact (wired_taken env _ _ key enrich d B W).
Qed.

Lemma wireless_taken env s ci rest key enrich d : sender_ok s -> bytes_ok (ci :: rest) ->
  len (ci :: rest) <= 246 -> len (ci :: rest) <> 220 ->
  ~ (len (ci :: rest) = 95 /\ s_control s = 0x63) ->
  decode_bytes env (link_header s (len (ci :: rest)) ++ ci :: rest) key enrich = Ok d ->
  do_protocol d = txt "wireless".
Proof.
  intros Hs Hb Hl Hn Hc H. assert (B := frame_bytes s ci rest Hs Hb Hl).
  destruct (decode_ok _ _ _ _ _ B H) as [(f & W & _)|(w & f & _ & _ & _ & P & _)]; [exfalso|exact P].
  clear H B. destruct (header_shape s (len (ci :: rest)) Hs) as (m0 & m1 & i0 & i1 & i2 & i3 & E & _).
  rewrite E in W. cbn [app] in W. set (n := len (ci :: rest)) in *.
  remember (9 + n :: s_control s :: m0 :: m1 :: i0 :: i1 :: i2 :: i3 :: s_version s :: s_device s :: ci :: rest) as data eqn:D.
  assert (Ld : len data = 10 + n) by (subst n; rewrite D, !len_cons; lia).
  clearbody n.
  destruct W as [r|c a f ad _ _|x c a f ad p _ _ _|x a f ad p _ _].
  - injection D as D _. lia.
  - unfold short_layout in Ld. cbn [length] in Ld. rewrite !len_cons in Ld. cbn in Ld. lia.
  - unfold long_layout in *. injection D as D1 D2 _ _ _ _ _.
    rewrite !len_cons, len_app in Ld. change (len [_; _]) with 2 in Ld. unfold len in *. lia.
  - unfold long_layout in *. injection D as D1 D2 _ _ _ _ _.
    rewrite !len_cons, len_app in Ld. change (len [_; _]) with 2 in Ld. unfold len in *. lia.
Qed.

(** 220 bytes of payload: no header, then volume records of six bytes each *)
Definition ex_volumes : list N := [0x0C; 0x13; 0x45; 0x23; 0x01; 0x00].
Definition ex_long_payload : list N := List.concat (repeat ex_volumes 36) ++ [0x2F; 0x2F; 0x2F].

Lemma lost_in_air : exists d,
  len (0x78 :: ex_long_payload) = 220 /\
  decode_bytes ex_env (link_header ex_sender 220 ++ 0x78 :: ex_long_payload) None false = Ok d /\
  do_protocol d = txt "wired" /\ do_records d = [].
Proof. eexists. split; [reflexivity|]. split; [vm_compute; reflexivity|]. split; vm_compute; reflexivity. Qed.

Lemma heard_in_air : exists d,
  decode_bytes ex_env (link_header ex_sender 219 ++ 0x78 :: List.concat (repeat ex_volumes 36) ++ [0x2F; 0x2F]) None false = Ok d /\
  do_protocol d = txt "wireless" /\ List.length (do_records d) = 36%nat.
Proof. eexists. split; [vm_compute; reflexivity|]. split; vm_compute; reflexivity. Qed.

(** meter ACC 12345608 with the control field 0x63 *)
Definition ex_twin : sender :=
  {| s_control := 0x63; s_letters := (0x41, 0x43, 0x43); s_digits := [8; 0; 6; 5; 4; 3; 2; 1];
     s_version := 1; s_device := 7 |}.
Definition ex_twin_payload : list N := List.concat (repeat ex_volumes 15) ++ [0x2F; 0x2F].
Definition ex_twin_sum : N := sum8 (skipn 4 (link_header ex_twin 95) ++ 0x78 :: ex_twin_payload).

Lemma twin_refuted : sender_ok ex_twin /\ exists d f a p,
  len (0x78 :: ex_twin_payload ++ [ex_twin_sum; 0x16]) = 95 /\
  is_ok (wireless_try_from (link_header ex_twin 95 ++ 0x78 :: ex_twin_payload ++ [ex_twin_sum; 0x16])) /\
  wired_try_from debug (link_header ex_twin 95 ++ 0x78 :: ex_twin_payload ++ [ex_twin_sum; 0x16]) = Ok (LongFrame f a p) /\
  decode_bytes ex_env (link_header ex_twin 95 ++ 0x78 :: ex_twin_payload ++ [ex_twin_sum; 0x16]) None false = Ok d /\
  do_protocol d = txt "wired".
Proof.
  split.
  { unfold sender_ok, capital; cbn. repeat split; try lia.
    repeat (apply Forall_cons; [lia|]); apply Forall_nil. }
  do 4 eexists. split; [reflexivity|]. split; [eexists; vm_compute; reflexivity|].
  split; [vm_compute; reflexivity|]. split; [vm_compute; reflexivity|]. vm_compute; reflexivity.
Qed.

Lemma as_received env s ci rest key enrich d : sender_ok s -> bytes_ok (ci :: rest) ->
  len (ci :: rest) <= 246 -> no_first_crc (link_header s (len (ci :: rest)) ++ ci :: rest) ->
  decode_bytes env (link_header s (len (ci :: rest)) ++ ci :: rest) key enrich = Ok d ->
  rw_normalized_frame_hex (do_raw d) = hex_string (link_header s (len (ci :: rest)) ++ ci :: rest).
Proof.
  intros Hs Hb Hl Hn H. assert (B := frame_bytes s ci rest Hs Hb Hl).
  destruct (decode_ok _ _ _ _ _ B H) as [(f & _ & _ & R)|(w & f & _ & Nm & _ & _ & R)]; [exact R|].
  destruct Nm as [|h hi lo enc content E Lh Hc _]; [exact R|].
  exfalso. refine (Hn h hi lo enc E _ Hc). unfold len. rewrite Lh. reflexivity.
Qed.

(** the payload starts with the CRC of the header, as that of a Format A frame does *)
Definition ex_alike : list N :=
  let c := crc16_en13757 (link_header ex_sender 8) in [c / 256; c mod 256] ++ ex_volumes.

Lemma not_as_received : exists d, len ex_alike = 8 /\
  decode_bytes ex_env (link_header ex_sender 8 ++ ex_alike) None false = Ok d /\
  rw_normalized_frame_hex (do_raw d) = hex_string (link_header ex_sender 6 ++ ex_volumes).
Proof. eexists. split; [reflexivity|]. split; [vm_compute; reflexivity|vm_compute; reflexivity]. Qed.

Lemma received_example : exists d,
  no_first_crc (link_header ex_sender 7 ++ 0x78 :: ex_volumes) /\
  decode_bytes ex_env (link_header ex_sender 7 ++ 0x78 :: ex_volumes) None false = Ok d /\
  List.length (do_records d) = 1%nat.
Proof.
  eexists. split; [|split; [vm_compute; reflexivity|vm_compute; reflexivity]].
  intros head hi lo enc E L C. apply app_same in E as [<- E]; [|unfold len in L; apply Nat2N.inj; rewrite L; vm_compute; reflexivity].
  injection E as <- <- _. apply crc_iff in C; [vm_compute in C; discriminate C|].
  apply header_ok; [exact ex_sender_ok|]. vm_compute. discriminate.
Qed.
