(** Key store and CBC mode, written without reference to the code. *)
From Coq Require Import List NArith.
Import ListNotations.
From Verif Require Import Model.Base Model.Decrypt.
Open Scope N_scope.

(** one key: manufacturer id, identification number, key *)
Record key_entry := { ke_manufacturer : N; ke_identification : N; ke_key : list N }.

(** first key for this meter *)
Fixpoint first_key (l : list key_entry) (manufacturer identification : N) : option (list N) :=
  match l with
  | [] => None
  | e :: l' =>
      if andb (ke_manufacturer e =? manufacturer) (ke_identification e =? identification)
      then Some (ke_key e) else first_key l' manufacturer identification
  end.

(** bytewise exclusive or *)
Fixpoint xor_bytes (a b : list N) : list N :=
  match a, b with
  | x :: a', y :: b' => N.lxor x y :: xor_bytes a' b'
  | _, _ => []
  end.

(** CBC encryption of a list of blocks with the block cipher [enc] *)
Fixpoint cbc_encrypt (enc : list N -> list N) (iv : list N) (blocks : list (list N)) : list N :=
  match blocks with
  | [] => []
  | p :: blocks' => let c := enc (xor_bytes p iv) in c ++ cbc_encrypt enc c blocks'
  end.

(** [dec] undoes [enc] on 16-byte blocks under this key *)
Definition inverse_cipher (enc dec : list N -> list N -> list N) (key : list N) : Prop :=
  forall b, length b = 16%nat -> length (enc key b) = 16%nat /\ dec key (enc key b) = b.

(** a block cipher that turns blocks of 16 bytes into blocks of 16 bytes *)
Definition cipher_of_bytes (dec : list N -> list N -> list N) (key : list N) : Prop :=
  forall b, length b = 16%nat -> bytes_ok b -> length (dec key b) = 16%nat /\ bytes_ok (dec key b).

(** [opened dec iv cipher plain]: CBC decryption of the whole blocks of [cipher]; what remains is left as it is *)
Inductive opened (dec : list N -> list N) : list N -> list N -> list N -> Prop :=
| OpenedRest iv t : (length t < 16)%nat -> opened dec iv t t
| OpenedBlock iv c cs ps : length c = 16%nat -> opened dec c cs ps -> opened dec iv (c ++ cs) (xor_bytes (dec c) iv ++ ps).

(** the provider after a history of [add_key] calls *)
Definition add_all (adds : list key_entry) (kp : key_provider) : key_provider :=
  fold_left (fun kp e => snd (kp_add_key kp (ke_manufacturer e) (ke_identification e) (ke_key e))) adds kp.

(** ... and what the calls returned *)
Definition add_results (adds : list key_entry) (kp : key_provider) : list (outcome decryption_error unit) :=
  (fix go kp adds := match adds with
   | [] => []
   | e :: adds' =>
       let r := kp_add_key kp (ke_manufacturer e) (ke_identification e) (ke_key e) in
       fst r :: go (snd r) adds'
   end) kp adds.
