(** Frames together with their application layer, and their decrypted form, written
    without reference to the code. *)
From Coq Require Import List NArith.
Import ListNotations.
From Verif Require Import Model.Base Model.Core Model.Wired Model.DataInfo Model.UserData Model.Wireless Model.MbusData Spec.CoreSpec
  Spec.WirelessSpec Spec.DecryptSpec Spec.AppSpec Spec.AnnotateSpec.
Open Scope N_scope.

(** the application data of a wired frame: only long frames have some *)
Definition wired_payload (fr : wired_frame) : option (list N) :=
  match fr with LongFrame _ _ p => Some p | _ => None end.

(** [layers payload m]: the parse result [m] holds what a frame with this application data
    should: the message and no error, or an error, no message and no records; and nothing
    without application data *)
Definition layers {F} (payload : option (list N)) (m : mbus_data F) : Prop :=
  match payload with
  | None => md_user_data m = None /\ md_application_error m = None /\ md_data_records m = None
  | Some p =>
      (exists u, app_meaning p u /\ md_user_data m = Some u /\ md_application_error m = None) \/
      (exists e, app_error p e /\ md_application_error m = Some e /\
                 md_user_data m = None /\ md_data_records m = None)
  end.

(** the readings of the message are given least significant byte last *)
Definition reversed (u : user_data_block) : Prop :=
  exists ell h block, u = VariableLong ell h block /\ lh_lsb_order h = true.

(** the variable data of a message *)
Definition variable_block (u : user_data_block) : option (list N) :=
  match u with
  | VariableLong _ _ block | VariableShort _ _ block | VariableNone _ block => Some block
  | _ => None
  end.

(** a cipher that keeps the length of blocks *)
Definition keeps_blocks (dec : list N -> list N -> list N) (key : list N) : Prop :=
  forall b, length b = 16%nat -> length (dec key b) = 16%nat.

(** AES initialisation vector for the security mode in [c1] *)
Definition vector (c1 : N) (address : list N) (acc : N) (iv : list N) : Prop :=
  c1 mod 32 = 5 /\ iv = address ++ repeat acc 8 \/ c1 mod 32 = 7 /\ iv = repeat 0 16.

(** [sealed enc link plain cipher]: the message [cipher] is the encrypted form of [plain].
    The meter's address is in the long header, or in the link layer's address bytes [link] *)
Inductive sealed (enc : list N -> list N) (link : list N) : list N -> list N -> Prop :=
| SealedLong i0 i1 i2 i3 m0 m1 v d acc st c0 c1 a b c n iv blocks tail :
    capital a -> capital b -> capital c -> m0 + 256 * m1 = flag_id a b c -> bcd_number [i0; i1; i2; i3] n ->
    vector c1 [m0; m1; i0; i1; i2; i3; v; d] acc iv ->
    Forall (fun p => length p = 16%nat) blocks -> (length tail < 16)%nat -> blocks <> [] ->
    sealed enc link
      ([0x72; i0; i1; i2; i3; m0; m1; v; d; acc; st; c0; c1] ++ concat blocks ++ tail)
      ([0x72; i0; i1; i2; i3; m0; m1; v; d; acc; st; c0; c1] ++ cbc_encrypt enc iv blocks ++ tail)
| SealedShort m0 m1 i0 i1 i2 i3 v d id acc st c0 c1 iv blocks tail :
    link = [m0; m1; i0; i1; i2; i3; v; d] -> identity m0 m1 i0 i1 i2 i3 v d 0x7A id ->
    vector c1 link acc iv ->
    Forall (fun p => length p = 16%nat) blocks -> (length tail < 16)%nat -> blocks <> [] ->
    sealed enc link
      ([0x7A; acc; st; c0; c1] ++ concat blocks ++ tail)
      ([0x7A; acc; st; c0; c1] ++ cbc_encrypt enc iv blocks ++ tail).

(** [received data frame]: the bytes [data] are the wireless frame itself, or its Format A form *)
Definition received (data frame : list N) : Prop :=
  data = frame /\ no_first_crc data \/ format_a frame data.
