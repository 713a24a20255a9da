(** C135: a wrong key is noticed. *)
From Coq Require Import List NArith String.
Import ListNotations.
From Verif Require Import Model.Base Model.Text Model.Core Model.Hex Model.Output
  Spec.TextSpec Spec.AppSpec Spec.DecryptSpec Spec.MbusSpec Spec.OutputSpec Spec.DetailSpec
  Proof.AnnotateProps Proof.MbusProps Proof.OutputProps Proof.WrongKey.
Open Scope N_scope.

(** a sealed message begins with two idle fillers (2F 2F), by which a wrong key should be
    noticed: here another key than that of the sender opens it to something else, and
    records are shown *)
Theorem C135_wrong_key_refuted : exists d clear,
  ex_wrong_key <> ex_key /\
  sealed (toy ex_key) ex_link (ex_plain ex_short_head) (ex_sealed ex_short_head) /\
  bytes_ok ex_sealed_air /\ addressed ex_sealed_air ex_link (ex_sealed ex_short_head) /\
  decode_bytes ex_env ex_sealed_air (Some ex_wrong_key) false = Ok d /\
  so_decrypted_payload_hex (do_security d) = Some (hex_string clear) /\ firstn 2 clear = [0; 0x2F] /\
  do_records d <> [].
Proof. exact wrong_key_refuted. Qed.
Print Assumptions C135_wrong_key_refuted.

(** what holds: nothing opened with a key, right or wrong, is vouched for.  Missing: that the
    wrong ones are told from the right ones *)
Theorem C135_not_vouched_for_partial : forall env data payload id u key enrich d,
  bytes_ok data -> message data payload id -> app_meaning payload u ->
  secured payload -> ~ nested_session payload -> decode_bytes env data (Some key) enrich = Ok d ->
  mentions d (txt "security.decrypted_unverified") /\ so_decryption_state (do_security d) = txt "decrypted_unverified".
Proof. exact marked. Qed.
Print Assumptions C135_not_vouched_for_partial.

Example C135_example : exists d, decode_bytes ex_env ex_sealed_air (Some ex_wrong_key) false = Ok d /\
  secured (ex_sealed ex_short_head) /\ ~ nested_session (ex_sealed ex_short_head) /\
  so_decryption_state (do_security d) = txt "decrypted_unverified".
Proof. exact marked_example. Qed.
