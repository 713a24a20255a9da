(** What a wrong key does (C135). *)
From Coq Require Import List NArith Lia String.
Import ListNotations.
From Verif Require Import Model.Base Model.Text Model.Core Model.Hex Model.Output
  Spec.CoreSpec Spec.TextSpec Spec.AppSpec Spec.DecryptSpec Spec.MbusSpec Spec.OutputSpec Spec.DetailSpec
  Proof.AnnotateProps Proof.MbusProps Proof.OutputProps Proof.DetailReports Proof.DetailProps.
Open Scope N_scope.
Open Scope list_scope.

Lemma marked env data payload id u key enrich d : bytes_ok data -> message data payload id -> app_meaning payload u ->
  secured payload -> ~ nested_session payload -> decode_bytes env data (Some key) enrich = Ok d ->
  mentions d (txt "security.decrypted_unverified") /\ so_decryption_state (do_security d) = txt "decrypted_unverified".
Proof.
  intros B M A S Nn H.
  destruct (protection_shown env data payload id u (Some key) enrich d B M A Nn H) as [P _].
  destruct (P S) as [E _]. destruct (security_shown env data (Some key) enrich d H) as (_ & _ & _ & I1 & _ & _ & I2 & _).
  split; [apply I2|apply I1]; (split; [exact E|discriminate]).
Qed.

(** a key that differs from [ex_key] in the first byte *)
Definition ex_wrong_key : list N := 0x75 :: repeat 0x5A 15.

Lemma wrong_key_refuted : exists d clear,
  ex_wrong_key <> ex_key /\
  sealed (toy ex_key) ex_link (ex_plain ex_short_head) (ex_sealed ex_short_head) /\
  bytes_ok ex_sealed_air /\ addressed ex_sealed_air ex_link (ex_sealed ex_short_head) /\
  decode_bytes ex_env ex_sealed_air (Some ex_wrong_key) false = Ok d /\
  so_decrypted_payload_hex (do_security d) = Some (hex_string clear) /\ firstn 2 clear = [0; 0x2F] /\
  do_records d <> [].
Proof.
  destruct sealed_example as (d0 & B & _ & Ad & S & _). 
  eexists. exists (0 :: 0x2F :: [0x0C; 0x13; 0x78; 0x56; 0x34; 0x12] ++ repeat 0x2F 8 ++ 0 :: repeat 0x2F 15 ++ [1; 2]).
  split; [discriminate|]. split; [exact S|]. split; [exact B|]. split; [exact Ad|].
  split; [vm_compute; reflexivity|]. split; [vm_compute; reflexivity|]. split; [reflexivity|vm_compute; discriminate].
Qed.

Lemma marked_example : exists d, decode_bytes ex_env ex_sealed_air (Some ex_wrong_key) false = Ok d /\
  secured (ex_sealed ex_short_head) /\ ~ nested_session (ex_sealed ex_short_head) /\
  so_decryption_state (do_security d) = txt "decrypted_unverified".
Proof.
  eexists. split; [vm_compute; reflexivity|]. split; [|split].
  - left. exists 5. split; [|discriminate].
    apply (ModeShort (ex_sealed ex_short_head) None ex_short_head 0x55 0 0 5 (skipn 5 (ex_sealed ex_short_head))).
    + vm_compute. apply OpenNone.
    + apply HeadShort. left. reflexivity.
  - intros (cc & acc & ci & rest & O & _). vm_compute in O. inversion O.
  - vm_compute. reflexivity.
Qed.
