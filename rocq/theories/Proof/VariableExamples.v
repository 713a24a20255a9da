(** Examples of data fields of variable length. *)
From Coq Require Import List NArith ZArith Lia String.
Import ListNotations.
From Verif Require Import Model.Base Model.Text Model.Core Model.F64 Model.DataInfo Model.ValueInfo Model.Record Model.Output Model.Legacy
  Spec.CoreSpec Spec.TextSpec Spec.RecordSpec Spec.FloatSpec Proof.AnnotateProps.
Open Scope N_scope.

Ltac plain_head := split; [repeat constructor|]; split; [vm_compute; reflexivity|]; split; [reflexivity|]; split; [reflexivity|]; eexists; split; reflexivity.
Lemma text_example : exists h r,
  header_of debug [0x0D; 0x78] [3; 0x43; 0x42; 0x41; 0x01] h 0x0D 0x78 /\ ~ date_vif 0x78 /\
  data_record_parse debug ([0x0D; 0x78] ++ [3; 0x43; 0x42; 0x41; 0x01]) None = Ok r /\
  d_value (dr_data r) = Some (Text [0x43; 0x42; 0x41]).
Proof. do 2 eexists. split; [plain_head|]. split; [intros [K|K]; discriminate K|]. split; [vm_compute; reflexivity|]. reflexivity. Qed.
Lemma wide_example : exists h r f,
  header_of debug [0x0D; 0x06] [0xE9; 5; 0; 0; 0; 0; 0; 0; 0; 1] h 0x0D 0x06 /\ lvar_width 0xE9 = Some 9 /\
  data_record_parse debug ([0x0D; 0x06] ++ [0xE9; 5; 0; 0; 0; 0; 0; 0; 0; 1]) None = Ok r /\
  twos_complement [5; 0; 0; 0; 0; 0; 0; 0; 1] = (2 ^ 64 + 5)%Z /\ d_value (dr_data r) = Some (LossyNumber f) /\ f = f64_of_Z 5.
Proof.
  do 3 eexists. split; [plain_head|]. split; [reflexivity|]. split; [vm_compute; reflexivity|]. split; [reflexivity|].
  split; [reflexivity|]. vm_compute. reflexivity.
Qed.
Lemma number_example : exists h h',
  header_of debug [0x0D; 0x06] (0xC9 :: repeat 0x99 9) h 0x0D 0x06 /\ ~ date_vif 0x06 /\
  header_of debug [0x0D; 0x06] [0xE2; 0xFE; 0xFF; 7] h' 0x0D 0x06 /\ twos_complement [0xFE; 0xFF] = (-2)%Z.
Proof.
  do 2 eexists. split; [plain_head|]. split; [intros [H|H]; discriminate H|]. split; [plain_head|]. reflexivity.
Qed.
Lemma reserved_example : exists h h',
  header_of debug [0x0D; 0x06] [0xCA; 1; 2] h 0x0D 0x06 /\ lvar_width 0xCA = None /\ header_of debug [0x0D; 0x06] [] h' 0x0D 0x06.
Proof. do 2 eexists. split; [plain_head|]. split; [reflexivity|]. plain_head. Qed.
Lemma empty_example : exists h, header_of debug [0x0D; 0x06] [0xE0] h 0x0D 0x06.
Proof. eexists. plain_head. Qed.
(** 2^64 + 5 kWh: the older summary has the number 5, the newer outputs the whole number *)
Lemma older_wide_refuted : forall cf display, exists h r,
  header_of cf [0x0D; 0x06] [0xE9; 5; 0; 0; 0; 0; 0; 0; 0; 1] h 0x0D 0x06 /\
  data_record_parse cf ([0x0D; 0x06] ++ [0xE9; 5; 0; 0; 0; 0; 0; 0; 0; 1]) None = Ok r /\
  dr_raw_bytes r = [0x0D; 0x06; 0xE9; 5; 0; 0; 0; 0; 0; 0; 0; 1] /\
  twos_complement [5; 0; 0; 0; 0; 0; 0; 0; 1] = (2 ^ 64 + 5)%Z /\
  rs_value (summarize_record display r) = Some (f64_of_Z 5) /\
  rs_display (summarize_record display r) = txt "(" ++ display (f64_of_Z 5) ++ txt ")e3[Wh](Energy)" /\
  vo_value (ro_value (record_output 0 r)) = Some (JString (txt "18446744073709551621000")).
Proof.
  intros [[] []] display; do 2 eexists; (split; [plain_head|]); (split; [vm_compute; reflexivity|]); (split; [reflexivity|]);
    (split; [reflexivity|]); (split; [vm_compute; reflexivity|]); (split; [|vm_compute; reflexivity]);
    (unfold summarize_record; cbn [rs_display dr_data d_value show_data dr_header drh_processed ph_value_information];
     match goal with |- context [display ?x] => change x with (f64_of_Z 5) end; reflexivity).
Qed.
