(** Long decimal numbers of variable length in the outputs. *)
From Coq Require Import List NArith ZArith QArith Lia Bool String.
Import ListNotations.
From Verif Require Import Model.Base Model.Text Model.Core Model.F64 Model.DataInfo Model.ValueInfo Model.Record
  Model.Hex Model.Decimal Model.Show Model.Output
  Spec.CoreSpec Spec.TextSpec Spec.RecordSpec Spec.FloatSpec Spec.OutputSpec
  Proof.BaseFacts Proof.CoreFacts Proof.RecordFacts Proof.HeaderFacts Proof.HeaderProps Proof.NumberProps Proof.IterFacts
  Proof.DecimalFacts Proof.ScaledFacts Proof.OutputRecords Proof.ShowFacts Proof.OutputValues Proof.AnnotateProps Proof.OutputProps Proof.LongDecimals.
Open Scope N_scope.

Lemma long_bcd_shown cf head n rest hdr h dif vif sign k r i :
  header_of cf head (n :: rest) h dif vif -> ~ date_vif vif -> dif mod 16 = 13 ->
  k <= 9 -> (n = 0xC0 + k /\ sign = 1%Z) \/ (n = 0xD0 + k /\ sign = (-1)%Z) ->
  data_record_parse cf (head ++ n :: rest) hdr = Ok r ->
  exists body rest', rest = body ++ rest' /\ len body = k /\ all_decimal body /\
    (FloatSpec.decimal (nibbles (ordered (lsb_first hdr) body)) <= 2 ^ 53 ->
     shows_number (record_output i r) h (sign * Z.of_N (FloatSpec.decimal (nibbles (ordered (lsb_first hdr) body))))).
Proof.
  intros Hh Hd Hw Hk Hn Hp.
  destruct (long_bcd_record _ _ _ _ hdr _ _ _ _ _ Hh Hd Hw Hk Hn) as [(_ & _ & E)|[(_ & E)|(body & rest' & r' & x & E & L & Er & Eh & Eb & Ev & Ad & Hf & _)]];
    rewrite Hp in *; [discriminate E..|]. injection Er as <-.
  destruct body as [|n' body]; [rewrite len_nil in L; lia|]. cbn [app tl] in *. injection E as <- E. rewrite len_cons in L.
  exists body, rest'. split; [exact E|]. split; [lia|]. split; [exact Ad|]. intros Hb.
  destruct (Hf Hb) as (f & Ex & Hf').
  assert (Hl : len head = header_get_size h) by (destruct Hh as (_ & _ & K & _); exact K).
  pose proof (variable_field _ Hw) as If.
  eapply value_shown; try eassumption.
  - rewrite If. discriminate.
  - left. rewrite Ev, Ex. reflexivity.
  - exists (show_f64_0 f). split; [|now apply show_f64_integer].
    unfold exact_significand. destruct (header_information _ _ _ _ _ _ Hh Hd) as (di & Hdi & Hc). rewrite Eh, Hdi. cbn [and_then].
    rewrite <- Eh at 1. rewrite (significand_data r h head (n :: body) Eh Hl Eb). cbn [and_then]. rewrite Hc, If.
    unfold exact_variable_significand. change (get (n :: body) 0) with (Some n). cbn [and_then].
    match goal with |- context [if ?c then _ else _] => assert (K : c = true) end.
    { apply orb_true_iff. rewrite !andb_true_iff, !N.leb_le. lia. }
    rewrite K. reflexivity.
Qed.
Lemma long_decimal_example : exists h r,
  header_of debug [0x0D; 0x13] [0xD8; 0x91; 0x09; 0x74; 0x54; 0x92; 0x19; 0x07; 0x90] h 0x0D 0x13 /\ ~ date_vif 0x13 /\
  data_record_parse debug ([0x0D; 0x13] ++ [0xD8; 0x91; 0x09; 0x74; 0x54; 0x92; 0x19; 0x07; 0x90]) None = Ok r /\
  FloatSpec.decimal (nibbles [0x91; 0x09; 0x74; 0x54; 0x92; 0x19; 0x07; 0x90]) = 2 ^ 53 - 1 /\
  vo_value (ro_value (record_output 0 r)) = Some (JString (txt "-9007199254740.991")).
Proof.
  do 2 eexists. split; [head|]. split; [intros [K|K]; discriminate K|]. split; [vm_compute; reflexivity|].
  split; [reflexivity|]. vm_compute. reflexivity.
Qed.
Lemma long_bcd_example : exists h,
  header_of debug [0x0D; 0x06] (0xC9 :: repeat 0x99 9) h 0x0D 0x06 /\ ~ date_vif 0x06 /\ 0x0D mod 16 = 13 /\
  FloatSpec.decimal (nibbles (repeat 0x99 9)) = 999999999999999999 /\
  data_record_parse debug [0x0D; 0x06; 0xD1; 0x1F] None = Err (DataInformationError InvalidValueInformation).
Proof. eexists. split; [head|]. split; [intros [K|K]; discriminate K|]. split; [reflexivity|]. split; reflexivity. Qed.
