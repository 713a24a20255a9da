(** Messages that are not decrypted although a key is given: C118. *)
From Coq Require Import List NArith String.
Import ListNotations.
From Verif Require Import Model.Base Model.Text Model.Core Model.Output Spec.AppSpec Spec.OutputSpec Spec.RefusalSpec
  Proof.AnnotateProps Proof.MbusProps Proof.OutputProps Proof.RefusalFacts.
Open Scope N_scope.
Open Scope list_scope.

(** ** C118 *)
Theorem C118_unknown_sender : forall env data payload id mode maker block u key enrich,
  bytes_ok data -> message data payload id -> app_meaning payload u -> transport payload mode maker block -> mode <> 0 -> length key = 16%nat ->
  ~ sender_known maker id -> decode_bytes env data (Some key) enrich = Err (ODecryption failed_code).
Proof. intros env data payload id mode maker block u key enrich B M A T Z K. exact (proj1 (refusals env data payload id mode maker block u key enrich B M A T Z K)). Qed.
Print Assumptions C118_unknown_sender.
Theorem C118_unsupported_mode : forall env data payload id mode maker block u key enrich,
  bytes_ok data -> message data payload id -> app_meaning payload u -> transport payload mode maker block -> mode <> 0 -> length key = 16%nat ->
  sender_known maker id -> ~ aes_mode mode -> decode_bytes env data (Some key) enrich = Err (ODecryption unsupported_code).
Proof. intros env data payload id mode maker block u key enrich B M A T Z K. exact (proj1 (proj2 (refusals env data payload id mode maker block u key enrich B M A T Z K))). Qed.
Print Assumptions C118_unsupported_mode.
Theorem C118_nothing_sealed : forall env data payload id mode maker u key enrich,
  bytes_ok data -> message data payload id -> app_meaning payload u -> transport payload mode maker [] -> length key = 16%nat ->
  aes_mode mode -> decode_bytes env data (Some key) enrich = Err (ODecryption failed_code).
Proof. exact nothing_sealed. Qed.
Print Assumptions C118_nothing_sealed.
Theorem C118_session : forall env data payload id u key enrich,
  bytes_ok data -> message data payload id -> app_meaning payload u ->
  (exists rest, payload = 0x8D :: rest \/ payload = 0x8E :: rest) ->
  decode_bytes env data (Some key) enrich = Err (ODecryption unsupported_code).
Proof. exact session_refused. Qed.
Print Assumptions C118_session.
(** in all other cases the message is not refused *)
Theorem C118_decrypted : forall env data payload id mode maker block u key enrich,
  bytes_ok data -> message data payload id -> app_meaning payload u -> transport payload mode maker block -> mode <> 0 -> length key = 16%nat ->
  sender_known maker id -> aes_mode mode -> block <> [] -> forall e, decode_bytes env data (Some key) enrich <> Err e.
Proof. intros env data payload id mode maker block u key enrich B M A T Z K. exact (proj2 (proj2 (proj2 (refusals env data payload id mode maker block u key enrich B M A T Z K)))). Qed.
Print Assumptions C118_decrypted.
(** every encrypted message is one of the above, and no other message is refused *)
Theorem C118_cases : forall payload, protected payload ->
  (exists mode maker block, transport payload mode maker block /\ mode <> 0) \/ (exists rest, payload = 0x8D :: rest \/ payload = 0x8E :: rest).
Proof. exact protected_forms. Qed.
Print Assumptions C118_cases.
Theorem C118_only_encrypted : forall env data payload id key enrich code,
  bytes_ok data -> message data payload id -> decode_bytes env data key enrich = Err (ODecryption code) ->
  key <> None /\ protected payload /\ exists u, app_meaning payload u.
Proof. exact refused_only. Qed.
Print Assumptions C118_only_encrypted.
(** a manufacturer id of 0; mode 9; nothing after the header; a short header on a wired frame *)
Example C118_example : exists u1 u2 u3 u4,
  let p1 := ex_refused 0x72 0 0 5 (repeat 0x2F 16) in
  let p2 := ex_refused 0x72 0x24 0x40 9 (repeat 0x2F 16) in
  let p3 := ex_refused 0x72 0x24 0x40 7 [] in
  let p4 := [0x7A; 0x55; 0; 0; 5] ++ repeat 0x2F 16 in
  (bytes_ok (long_frame p1) /\ message (long_frame p1) p1 None /\ app_meaning p1 u1 /\ transport p1 5 (Some 0) (repeat 0x2F 16) /\ ~ sender_known (Some 0) None) /\
  (bytes_ok (long_frame p2) /\ message (long_frame p2) p2 None /\ app_meaning p2 u2 /\ transport p2 9 (Some 0x4024) (repeat 0x2F 16) /\ sender_known (Some 0x4024) None /\ ~ aes_mode 9) /\
  (bytes_ok (long_frame p3) /\ message (long_frame p3) p3 None /\ app_meaning p3 u3 /\ transport p3 7 (Some 0x4024) [] /\ aes_mode 7) /\
  (bytes_ok (long_frame p4) /\ message (long_frame p4) p4 None /\ app_meaning p4 u4 /\ transport p4 5 None (repeat 0x2F 16) /\ ~ sender_known None None).
Proof. exact refusals_example. Qed.
Example C118_session_example : exists u, bytes_ok (long_frame ex_session) /\ message (long_frame ex_session) ex_session None /\ app_meaning ex_session u.
Proof. exact session_example. Qed.
Example C118_decrypted_example : exists u d, bytes_ok (long_frame (ex_sealed ex_long_head)) /\ message (long_frame (ex_sealed ex_long_head)) (ex_sealed ex_long_head) None /\
  app_meaning (ex_sealed ex_long_head) u /\ (exists block, transport (ex_sealed ex_long_head) 5 (Some 0x4024) block /\ block <> []) /\ sender_known (Some 0x4024) None /\
  aes_mode 5 /\ decode_bytes ex_env (long_frame (ex_sealed ex_long_head)) (Some ex_key) false = Ok d /\ length (do_records d) = 1%nat.
Proof. exact decrypted_example. Qed.
