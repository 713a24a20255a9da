(** Wireless frames as a sender builds them (EN 13757-4), written without reference to
    the parser. *)
From Coq Require Import List NArith.
Import ListNotations.
From Verif Require Import Model.Core Model.Wireless Spec.CoreSpec.
Open Scope N_scope.

(** what a sender puts into the link header *)
Record sender := {
  s_control : N;
  s_letters : N * N * N;          (* the three letters of the manufacturer *)
  s_digits : list N;              (* identification number, least significant digit first *)
  s_version : N;
  s_device : N                    (* code of the device type *)
}.

Definition sender_ok (s : sender) : Prop :=
  let '(a, b, c) := s_letters s in
  capital a /\ capital b /\ capital c /\
  length (s_digits s) = 8%nat /\ Forall (fun x => x <= 9) (s_digits s) /\
  s_control s < 256 /\ s_version s < 256 /\ s_device s < 256.

(** two digits per byte, the less significant one in the lower half *)
Fixpoint packed (digits : list N) : list N :=
  match digits with
  | lo :: hi :: more => (16 * hi + lo) :: packed more
  | _ => []
  end.

(** the ten bytes before [n] bytes of payload, CRC included *)
Definition link_header (s : sender) (n : N) : list N :=
  let '(a, b, c) := s_letters s in
  [9 + n; s_control s; flag_id a b c mod 256; flag_id a b c / 256]
    ++ packed (s_digits s) ++ [s_version s; s_device s].

(** the decoded frame names this sender; the device code is only meaningful as a whole
    when the first payload byte is no manufacturer specific one (0xA0 to 0xAF) *)
Definition comes_from (s : sender) (ci : N) (fr : wireless_frame) : Prop :=
  let id := wf_manufacturer_id fr in
  wf_control_field fr = s_control s /\
  (mc1 (mi_manufacturer_code id), mc2 (mi_manufacturer_code id), mc3 (mi_manufacturer_code id)) = s_letters s /\
  mi_identification_number id = decimal (s_digits s) /\
  mi_version id = s_version s /\
  (ci < 0xA0 \/ 0xAF < ci -> mi_device_type id = device_type_from_u8 (s_device s)).
