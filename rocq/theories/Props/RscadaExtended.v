(** C129: records with a code of an extension table in the XML of libmbus; C89 with extensions and numbers of variable length. *)
From Coq Require Import List NArith ZArith QArith String.
Import ListNotations.
From Verif Require Import Model.Base Model.Text Model.Core Model.DataInfo Model.ValueInfo Model.Record Model.Output Model.Rscada
  Spec.TextSpec Spec.FloatSpec Spec.RecordSpec Spec.XmlSpec Spec.VifeSpec Spec.RscadaSpec Spec.XmlVifSpec Spec.OutputSpec
  Proof.AnnotateProps Proof.RscadaProps Proof.RscadaExtended.
Open Scope N_scope.
Open Scope list_scope.

(** C129 as stated fails: 0.1 GJ (FB 08) has the unit "Reserved", 0.1 GJ/h (FB 30) the unit J, and the cumulative maximum of
    power in hundredths of a watt (FB 79) is shown in thousandths *)
Theorem C129_table_refuted : forall cf powi, exists row1 row2 row3 r1 r2 r3 e1 e2 e3,
  after 0xFB 0x08 row1 0 /\ data_record_parse cf ([0x01] ++ [0xFB; 0x08] ++ [5]) None = Ok r1 /\
  record_element (render_variable_record powi 0 r1) = Some e1 /\
  lookup (txt "Unit") (snd e1) = Some (txt "Reserved") /\ xr_unit row1 = txt "J" /\
  after 0xFB 0x30 row2 0 /\ data_record_parse cf ([0x01] ++ [0xFB; 0x30] ++ [5]) None = Ok r2 /\
  record_element (render_variable_record powi 0 r2) = Some e2 /\
  lookup (txt "Unit") (snd e2) = Some (txt "J") /\ xr_unit row2 = txt "J/h" /\
  after 0xFB 0x79 row3 1 /\ data_record_parse cf ([0x01] ++ [0xFB; 0x79] ++ [5]) None = Ok r3 /\
  record_element (render_variable_record powi 0 r3) = Some e3 /\
  lookup (txt "Value") (snd e3) = Some (txt "0.005000") /\ xml_scale row3 1 = (-2)%Z.
Proof. exact extended_refuted. Qed.
Print Assumptions C129_table_refuted.
(** integers and decimals with any other code of the table have its quantity and unit, and are exact as far as six digits
    after the point and 53 bits go *)
Theorem C129_integers_partial : forall cf dif difes vif code rest hdr row n w r powi i id fields,
  bytes_ok ((dif :: difes) ++ [vif; code] ++ rest) -> dif_chain dif (dif :: difes) ->
  after vif code row n -> ~ shown_otherwise vif code -> integer_width (dif mod 16) = Some w ->
  data_record_parse cf ((dif :: difes) ++ [vif; code] ++ rest) hdr = Ok r ->
  record_element (render_variable_record powi i r) = Some (id, fields) ->
  exists body rest', rest = body ++ rest' /\ len body = w /\ extended_number fields row n (twos_complement body).
Proof. exact extended_integer. Qed.
Print Assumptions C129_integers_partial.
Theorem C129_decimals_partial : forall cf dif difes vif code rest hdr row n w r powi i id fields,
  bytes_ok ((dif :: difes) ++ [vif; code] ++ rest) -> dif_chain dif (dif :: difes) ->
  after vif code row n -> ~ shown_otherwise vif code -> bcd_width (dif mod 16) = Some w ->
  data_record_parse cf ((dif :: difes) ++ [vif; code] ++ rest) hdr = Ok r ->
  record_element (render_variable_record powi i r) = Some (id, fields) ->
  exists body rest', rest = body ++ rest' /\ len body = w /\ all_decimal body /\
    extended_number fields row n (Z.of_N (FloatSpec.decimal (nibbles body))).
Proof. exact extended_bcd. Qed.
Print Assumptions C129_decimals_partial.
Example C129_example : exists r id fields,
  dif_chain 0x02 [0x02] /\ after 0xFD 0x48 (steps 0xFD 0x40 16 (-9) (txt "V") (txt "Voltage")) 8 /\ ~ shown_otherwise 0xFD 0x48 /\
  bytes_ok ([0x02] ++ [0xFD; 0x48] ++ [0xFC; 0x08]) /\ integer_width (0x02 mod 16) = Some 2 /\
  data_record_parse debug ([0x02] ++ [0xFD; 0x48] ++ [0xFC; 0x08]) None = Ok r /\
  record_element (render_variable_record ex_powi 0 r) = Some (id, fields) /\
  six_digits 2300 (-1) /\ lookup (txt "Value") fields = Some (txt "230.000000").
Proof. exact extended_example. Qed.

(** C89 fails with extensions: 0.005 cubic metres per hour are shown as cubic metres *)
Theorem C89_per_hour_refuted : forall cf powi, exists r e,
  In (0x22, says [] [(UHour, (-1)%Z)] 0) combinable_table /\
  data_record_parse cf ([0x01] ++ [0x93; 0x22] ++ [5]) None = Ok r /\
  record_element (render_variable_record powi 0 r) = Some e /\
  lookup (txt "Unit") (snd e) = Some (txt "m^3") /\ lookup (txt "Value") (snd e) = Some (txt "0.005000").
Proof. exact per_hour_refuted. Qed.
Print Assumptions C89_per_hour_refuted.
(** ... and for numbers of variable length: 0.016 cubic metres are shown as 10 *)
Theorem C89_variable_refuted : forall cf powi, exists r e h,
  header_of cf [0x0D; 0x13] [0xE1; 0x10] h 0x0D 0x13 /\
  data_record_parse cf ([0x0D; 0x13] ++ [0xE1; 0x10]) None = Ok r /\
  vo_value (ro_value (record_output 0 r)) = Some (JString (txt "0.016")) /\
  record_element (render_variable_record powi 0 r) = Some e /\
  lookup (txt "Unit") (snd e) = Some (txt "m^3") /\ lookup (txt "Value") (snd e) = Some (txt "10").
Proof. exact variable_number_refuted. Qed.
Print Assumptions C89_variable_refuted.
