(** C23, C77: decimal numbers of variable length with up to eighteen digits. *)
From Coq Require Import List NArith ZArith QArith Reals Lia String.
Import ListNotations.
From Verif Require Import Model.Base Model.Text Model.Core Model.F64 Model.DataInfo Model.ValueInfo Model.Record Model.Hex Model.Output
  Spec.CoreSpec Spec.TextSpec Spec.RecordSpec Spec.FloatSpec Spec.OutputSpec
  Proof.AnnotateProps Proof.OutputProps Proof.LongDecimals Proof.LongDecimalsShown.
Open Scope N_scope.

(** every announced length, C0 to C9 and D0 to D9: some nibble is no digit and the record is an
    error, or the field is read as a number: exactly its decimal number up to 2^53, and never more
    than 73 off (of up to eighteen digits) *)
Theorem C23_long_bcd : forall cf head n rest hdr h dif vif sign k,
  header_of cf head (n :: rest) h dif vif -> ~ date_vif vif -> dif mod 16 = 13 ->
  k <= 9 -> (n = 0xC0 + k /\ sign = 1%Z) \/ (n = 0xD0 + k /\ sign = (-1)%Z) ->
  (k <= len rest /\ ~ all_decimal (firstn (N.to_nat k) rest) /\
   data_record_parse cf (head ++ n :: rest) hdr = Err (DataInformationError InvalidValueInformation)) \/
  reads (data_record_parse cf (head ++ n :: rest) hdr) h head (n :: rest) (1 + k)
    (fun body x => all_decimal (tl body) /\
       (FloatSpec.decimal (nibbles (ordered (lsb_first hdr) (tl body))) <= 2 ^ 53 ->
        is_number (IZR (sign * Z.of_N (FloatSpec.decimal (nibbles (ordered (lsb_first hdr) (tl body)))))) x) /\
       exists r, is_number r x /\
         (Rabs (r - IZR (sign * Z.of_N (FloatSpec.decimal (nibbles (ordered (lsb_first hdr) (tl body)))))) <= 73)%R).
Proof. exact long_bcd_record. Qed.
Print Assumptions C23_long_bcd.

Example C23_long_example : exists h,
  header_of debug [0x0D; 0x06] (0xC9 :: repeat 0x99 9) h 0x0D 0x06 /\ ~ date_vif 0x06 /\ 0x0D mod 16 = 13 /\
  FloatSpec.decimal (nibbles (repeat 0x99 9)) = 999999999999999999 /\
  data_record_parse debug [0x0D; 0x06; 0xD1; 0x1F] None = Err (DataInformationError InvalidValueInformation).
Proof. exact long_bcd_example. Qed.

(** and the output shows that number exactly, scaled by the value information *)
Theorem C77_long_decimals_partial : forall cf head n rest hdr h dif vif sign k r i,
  header_of cf head (n :: rest) h dif vif -> ~ date_vif vif -> dif mod 16 = 13 ->
  k <= 9 -> (n = 0xC0 + k /\ sign = 1%Z) \/ (n = 0xD0 + k /\ sign = (-1)%Z) ->
  data_record_parse cf (head ++ n :: rest) hdr = Ok r ->
  exists body rest', rest = body ++ rest' /\ len body = k /\ all_decimal body /\
    (FloatSpec.decimal (nibbles (ordered (lsb_first hdr) body)) <= 2 ^ 53 ->
     shows_number (record_output i r) h (sign * Z.of_N (FloatSpec.decimal (nibbles (ordered (lsb_first hdr) body))))).
Proof. exact long_bcd_shown. Qed.
Print Assumptions C77_long_decimals_partial.

(** sixteen digits: 2^53 - 1 litres counted down, shown in cubic metres *)
Example C77_long_decimal_example : exists h r,
  header_of debug [0x0D; 0x13] [0xD8; 0x91; 0x09; 0x74; 0x54; 0x92; 0x19; 0x07; 0x90] h 0x0D 0x13 /\ ~ date_vif 0x13 /\
  data_record_parse debug ([0x0D; 0x13] ++ [0xD8; 0x91; 0x09; 0x74; 0x54; 0x92; 0x19; 0x07; 0x90]) None = Ok r /\
  FloatSpec.decimal (nibbles [0x91; 0x09; 0x74; 0x54; 0x92; 0x19; 0x07; 0x90]) = 2 ^ 53 - 1 /\
  vo_value (ro_value (record_output 0 r)) = Some (JString (txt "-9007199254740.991")).
Proof. exact long_decimal_example. Qed.
