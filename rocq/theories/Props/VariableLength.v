(** C130, C111: data fields of variable length. *)
From Coq Require Import List NArith ZArith Reals Lia String.
Import ListNotations.
From Verif Require Import Model.Base Model.Text Model.Core Model.F64 Model.DataInfo Model.ValueInfo Model.Record Model.Output Model.Legacy
  Spec.CoreSpec Spec.TextSpec Spec.RecordSpec Spec.FloatSpec Proof.AnnotateProps Proof.NumberProps Proof.LongDecimals Proof.VariableLength Proof.VariableExamples.
Open Scope N_scope.

(** up to BF: a text, given as the bytes sent *)
Theorem C130_texts : forall cf head n rest hdr h dif vif,
  header_of cf head (n :: rest) h dif vif -> ~ date_vif vif -> dif mod 16 = 13 -> n <= 0xBF ->
  reads (data_record_parse cf (head ++ n :: rest) hdr) h head (n :: rest) (1 + n) (fun body x => x = Text (tl body)).
Proof. exact variable_text_record. Qed.
Print Assumptions C130_texts.
(** every announced length, C0 to C9 and D0 to D9: some nibble is no digit and the record is an
    error, or the field is read as a number: exactly its decimal number up to 2^53, and never more
    than 73 off (of up to eighteen digits) *)
Theorem C130_decimals : forall cf head n rest hdr h dif vif sign k,
  header_of cf head (n :: rest) h dif vif -> ~ date_vif vif -> dif mod 16 = 13 ->
  k <= 9 -> (n = 0xC0 + k /\ sign = 1%Z) \/ (n = 0xD0 + k /\ sign = (-1)%Z) ->
  (k <= len rest /\ ~ all_decimal (firstn (N.to_nat k) rest) /\
   data_record_parse cf (head ++ n :: rest) hdr = Err (DataInformationError InvalidValueInformation)) \/
  reads (data_record_parse cf (head ++ n :: rest) hdr) h head (n :: rest) (1 + k)
    (fun body x => all_decimal (tl body) /\
       (FloatSpec.decimal (nibbles (ordered (lsb_first hdr) (tl body))) <= 2 ^ 53 ->
        is_number (IZR (sign * Z.of_N (FloatSpec.decimal (nibbles (ordered (lsb_first hdr) (tl body)))))) x) /\
       exists r, is_number r x /\
         (Rabs (r - IZR (sign * Z.of_N (FloatSpec.decimal (nibbles (ordered (lsb_first hdr) (tl body)))))) <= 73)%R).
Proof. exact long_bcd_record. Qed.
Print Assumptions C130_decimals.
(** E1 to E8: an integer, as the number nearest to it (exact up to 2^53) *)
Theorem C130_integers : forall cf head n rest hdr h dif vif,
  header_of cf head (n :: rest) h dif vif -> ~ date_vif vif -> dif mod 16 = 13 -> 0xE1 <= n <= 0xE8 ->
  reads (data_record_parse cf (head ++ n :: rest) hdr) h head (n :: rest) (1 + (n - 0xE0))
    (fun body => is_number (nearest (IZR (twos_complement (tl body))))).
Proof. exact variable_integer_record. Qed.
Print Assumptions C130_integers.
(** an integer wider than eight bytes is marked as lossy, and is the number of its eight low bytes *)
Theorem C130_wide_integers : forall cf head n rest hdr h dif vif w,
  header_of cf head (n :: rest) h dif vif -> ~ date_vif vif -> dif mod 16 = 13 -> 0xE9 <= n -> lvar_width n = Some w ->
  reads (data_record_parse cf (head ++ n :: rest) hdr) h head (n :: rest) (1 + w)
    (fun body x => exists f, x = LossyNumber f /\ is_f64 f (nearest (IZR (twos_complement (firstn 8 (tl body)))))).
Proof. exact wide_integer_record. Qed.
Print Assumptions C130_wide_integers.
(** an integer of no bytes is zero, or a panic of builds with overflow checks (C21) *)
Theorem C130_empty_integer : forall cf head rest hdr h dif vif,
  header_of cf head (0xE0 :: rest) h dif vif -> ~ date_vif vif -> dif mod 16 = 13 ->
  (overflow_checks cf = true /\ exists p, data_record_parse cf (head ++ 0xE0 :: rest) hdr = Panic p) \/
  (overflow_checks cf = false /\
   reads (data_record_parse cf (head ++ 0xE0 :: rest) hdr) h head (0xE0 :: rest) 1 (fun _ => is_number 0)).
Proof. exact empty_integer_record. Qed.
Print Assumptions C130_empty_integer.
(** the other lengths are refused, as is a field without length *)
Theorem C130_reserved : forall cf head n rest hdr h dif vif,
  header_of cf head (n :: rest) h dif vif -> ~ date_vif vif -> dif mod 16 = 13 -> lvar_width n = None ->
  data_record_parse cf (head ++ n :: rest) hdr = Err (DataInformationError DUnimplemented).
Proof. exact reserved_record. Qed.
Print Assumptions C130_reserved.
Theorem C130_no_length : forall cf head hdr h dif vif,
  header_of cf head [] h dif vif -> ~ date_vif vif -> dif mod 16 = 13 ->
  data_record_parse cf (head ++ []) hdr = Err RInsufficientData.
Proof. exact no_length_record. Qed.
Print Assumptions C130_no_length.

Example C130_text_example : exists h r,
  header_of debug [0x0D; 0x78] [3; 0x43; 0x42; 0x41; 0x01] h 0x0D 0x78 /\ ~ date_vif 0x78 /\
  data_record_parse debug ([0x0D; 0x78] ++ [3; 0x43; 0x42; 0x41; 0x01]) None = Ok r /\
  d_value (dr_data r) = Some (Text [0x43; 0x42; 0x41]).
Proof. exact text_example. Qed.
Example C130_number_example : exists h h',
  header_of debug [0x0D; 0x06] (0xC9 :: repeat 0x99 9) h 0x0D 0x06 /\ ~ date_vif 0x06 /\
  header_of debug [0x0D; 0x06] [0xE2; 0xFE; 0xFF; 7] h' 0x0D 0x06 /\ twos_complement [0xFE; 0xFF] = (-2)%Z.
Proof. exact number_example. Qed.
(** nine bytes: 2^64 + 5 is given as 5, marked as lossy *)
Example C130_wide_example : exists h r f,
  header_of debug [0x0D; 0x06] [0xE9; 5; 0; 0; 0; 0; 0; 0; 0; 1] h 0x0D 0x06 /\ lvar_width 0xE9 = Some 9 /\
  data_record_parse debug ([0x0D; 0x06] ++ [0xE9; 5; 0; 0; 0; 0; 0; 0; 0; 1]) None = Ok r /\
  twos_complement [5; 0; 0; 0; 0; 0; 0; 0; 1] = (2 ^ 64 + 5)%Z /\ d_value (dr_data r) = Some (LossyNumber f) /\ f = f64_of_Z 5.
Proof. exact wide_example. Qed.
Example C130_reserved_example : exists h h',
  header_of debug [0x0D; 0x06] [0xCA; 1; 2] h 0x0D 0x06 /\ lvar_width 0xCA = None /\ header_of debug [0x0D; 0x06] [] h' 0x0D 0x06.
Proof. exact reserved_example. Qed.
Example C130_empty_example : exists h, header_of debug [0x0D; 0x06] [0xE0] h 0x0D 0x06.
Proof. exact empty_example. Qed.

(** C111 as stated fails for integers wider than eight bytes: of 2^64 + 5 kWh the older summary has
    the number 5, without a mark; the newer outputs show the whole number *)
Theorem C111_wide_refuted : forall cf display, exists h r,
  header_of cf [0x0D; 0x06] [0xE9; 5; 0; 0; 0; 0; 0; 0; 0; 1] h 0x0D 0x06 /\
  data_record_parse cf ([0x0D; 0x06] ++ [0xE9; 5; 0; 0; 0; 0; 0; 0; 0; 1]) None = Ok r /\
  dr_raw_bytes r = [0x0D; 0x06; 0xE9; 5; 0; 0; 0; 0; 0; 0; 0; 1] /\
  twos_complement [5; 0; 0; 0; 0; 0; 0; 0; 1] = (2 ^ 64 + 5)%Z /\
  rs_value (summarize_record display r) = Some (f64_of_Z 5) /\
  rs_display (summarize_record display r) = txt "(" ++ display (f64_of_Z 5) ++ txt ")e3[Wh](Energy)" /\
  vo_value (ro_value (record_output 0 r)) = Some (JString (txt "18446744073709551621000")).
Proof. exact older_wide_refuted. Qed.
Print Assumptions C111_wide_refuted.
