(** Extension tables and combinable extensions of the value information field: C116, C117, and what is
    shown with records that have them: C77, C98. *)
From Coq Require Import List NArith ZArith String.
Import ListNotations.
From Verif Require Import Model.Base Model.Text Model.Core Model.DataInfo Model.ValueInfo Model.Record Model.Output
  Spec.TextSpec Spec.RecordSpec Spec.FloatSpec Spec.VifSpec Spec.VifeSpec Spec.OutputSpec Spec.DetailSpec Spec.QuantitySpec
  Proof.AnnotateProps Proof.VifeFacts Proof.QuantityFacts.
Open Scope N_scope.
Open Scope list_scope.

(** ** C116 *)
(** ten codes of the standard are not given their quantity or unit: 0.1 and 1 MWh (FB 00, 01), data
    container and period of transmission (FD 3B to 3F), battery operating time in years (FD 6F), date
    of the battery change (FD 70) and remaining battery life in days (FD 74) *)
Theorem C116_main_table_refuted : forall code c,
  In (code, c) main_table -> In code main_departs -> departs_from [0xFD; code] c.
Proof. exact main_departures. Qed.
Print Assumptions C116_main_table_refuted.
Theorem C116_alternate_table_refuted : forall code c,
  In (code, c) alternate_table -> In code alternate_departs -> departs_from [0xFB; code] c.
Proof. exact alternate_departures. Qed.
Print Assumptions C116_alternate_table_refuted.
(** the names missing at FD 3B to 3F are given to FD 31 to 35, which the standard uses for tariffs *)
Theorem C116_displaced_refuted : forall n, 1 <= n <= 5 -> tariff_code (0x30 + n) /\ exists c v, In (0x3A + n, c) main_table /\
  (forall cf rest b, vib_try_from cf ([0xFD; 0x30 + n] ++ rest) = Ok b -> value_information_try_from b = Ok v) /\ vi_labels v = c_labels c.
Proof. exact displaced. Qed.
Print Assumptions C116_displaced_refuted.
(** the third byte of FD FD 02, remaining battery life in months, is read twice *)
Theorem C116_second_level_refuted : forall cf rest, exists v,
  information cf [0xFD; 0xFD; 0x02] rest (Ok v) /\ vi_labels v = [LRemainingBatteryLifeTime; LReservedForObjectActions].
Proof. exact second_level. Qed.
Print Assumptions C116_second_level_refuted.
(** all other codes of the two tables are read as the standard says *)
Theorem C116_quantities_partial : forall cf bytes rest c,
  chained bytes -> len bytes <= 11 -> quantity main_kept alternate_kept bytes c [] ->
  information cf bytes rest (Ok (meaning c)).
Proof. exact quantity_alone. Qed.
Print Assumptions C116_quantities_partial.
(** no code is refused *)
Theorem C116_every_code : forall b vif cf rest, In vif [0xFD; 0xFB] -> b < 128 ->
  exists v, information cf [vif; b] rest (Ok v) /\ vi_labels v <> [].
Proof. exact every_code_read. Qed.
Print Assumptions C116_every_code.
Example C116_example : quantity main_kept alternate_kept [0xFB; 0x03] kvarh [] /\ chained [0xFB; 0x03] /\
  quantity main_kept alternate_kept [0xFD; 0x48] (says [LVoltage] [(UVolt, 1%Z)] (-1)) [].
Proof. exact quantity_example. Qed.
Example C116_departs_example : map fst (filter (fun '(code, _) => existsb (N.eqb code) main_departs) main_table) = main_departs /\
  map fst (filter (fun '(code, _) => existsb (N.eqb code) alternate_departs) alternate_table) = alternate_departs.
Proof. split; reflexivity. Qed.

(** ** C117 *)
(** four codes of the standard are not given their meaning: per litre (2C) and the dates of the end of
    the first and of the begin and end of the last (6B, 6E, 6F) *)
Theorem C117_combinable_table_refuted : forall code a,
  In (code, a) combinable_table -> In code combinable_departs -> departs_from [0x93; code] (also cubic_metres a).
Proof. exact combinable_departures. Qed.
Print Assumptions C117_combinable_table_refuted.
(** an additive constant of one (7B) is read as no constant *)
Theorem C117_constant_one_refuted : forall cf rest, exists a v, In (0x7B, a) combinable_table /\ c_offset a = 0%Z /\
  information cf [0x13] rest (Ok v) /\ information cf [0x93; 0x7B] rest (Ok v).
Proof. exact constant_one. Qed.
Print Assumptions C117_constant_one_refuted.
(** extensions after 7F belong to the manufacturer but are read by the standard's table *)
Theorem C117_manufacturer_refuted : forall cf rest, exists v w,
  information cf [0x93; 0x7F] rest (Ok v) /\ information cf [0x93; 0xFF; 0x20] rest (Ok w) /\ vi_units v <> vi_units w.
Proof. exact maker_extensions. Qed.
Print Assumptions C117_manufacturer_refuted.
(** all other extensions add their meaning to that of the field, in order, if there is room *)
Theorem C117_combined_partial : forall cf bytes rest c more d,
  chained bytes -> len bytes <= 11 -> quantity main_kept alternate_kept bytes c more -> combined combinable_kept c more d ->
  information cf bytes rest (if fits d then Ok (meaning d) else Panic PCapacity).
Proof. exact bytes_meaning. Qed.
Print Assumptions C117_combined_partial.
Theorem C117_record_header_partial : forall cf data h v c more d,
  header_try_from cf data = Ok h -> rh_vib (drh_raw h) = Some v ->
  let bytes := vib_vif v :: match vib_vifes v with Some l => l | None => [] end in
  Forall (fun b => b < 256) bytes ->
  quantity main_kept alternate_kept bytes c more -> combined combinable_kept c more d ->
  ph_value_information (drh_processed h) = Some (meaning d).
Proof. exact header_meaning. Qed.
Print Assumptions C117_record_header_partial.
Example C117_example : chained [0xFB; 0x83; 0xFC; 0x82; 0xA3; 0xF4; 0x7A] /\
  quantity main_kept alternate_kept [0xFB; 0x83; 0xFC; 0x82; 0xA3; 0xF4; 0x7A] kvarh [0xFC; 0x82; 0xA3; 0xF4; 0x7A] /\
  combined combinable_kept kvarh [0xFC; 0x82; 0xA3; 0xF4; 0x7A] kvarh_combined /\ fits kvarh_combined = true.
Proof. exact combined_example. Qed.
Example C117_header_example : exists h v, header_try_from {| overflow_checks := false; plaintext_before_extension := false |} [0x01; 0xFB; 0x83; 0xFC; 0x02; 0x05] = Ok h /\
  rh_vib (drh_raw h) = Some v /\ vib_vif v = 0xFB /\ vib_vifes v = Some [0x83; 0xFC; 0x02].
Proof. vm_compute. eexists; eexists; repeat split. Qed.

(** ** C98 *)
(** the words and the unit of a record with extensions are those of the tables, in their order *)
Theorem C98_extended_partial : forall cf dif difes bytes more rest hdr d r i,
  bytes_ok ((dif :: difes) ++ bytes ++ rest) -> dif_chain dif (dif :: difes) -> describes bytes more d -> len bytes <= 11 ->
  data_record_parse cf ((dif :: difes) ++ bytes ++ rest) hdr = Ok r ->
  let o := record_output i r in
  Forall2 (fun l t => In (l, t) quantity_words) (c_labels d) (ro_quantities o) /\
  (c_units d = [] -> ro_unit o = None) /\
  (c_units d <> [] -> exists t, ro_unit o = Some t /\ unit_shown (c_units d) t).
Proof. exact extended_quantity. Qed.
Print Assumptions C98_extended_partial.
Example C98_extended_example : exists r,
  bytes_ok ([0x02] ++ ex_field ++ [0x05; 0x00]) /\ dif_chain 0x02 [0x02] /\ describes ex_field [0xFC; 0x82; 0xA3; 0xF4; 0x7A] kvarh_combined /\
  len ex_field <= 11 /\ ~ maximum_power ex_field /\ ~ date_vif (hd 0 ex_field) /\
  data_record_parse debug ([0x02] ++ ex_field ++ [0x05; 0x00]) None = Ok r /\
  ro_quantities (record_output 0 r) = [txt "Reactive energy"; txt "At phase L2"] /\
  ro_unit (record_output 0 r) = Some (txt "W (reactive)hday" ++ [0x207B; 0xB9]) /\
  vo_value (ro_value (record_output 0 r)) = Some (JString (txt "500.1")).
Proof. exact extended_example. Qed.
Example C98_unit_example :
  unit_shown [{| u_name := UMeter; u_exponent := 3%Z |}; {| u_name := UDay; u_exponent := (-1)%Z |}] (txt "m3.d-1").
Proof. exact ucum_example. Qed.

(** ** C77 *)
(** the number shown with extensions has the power of ten of the tables; C98_extended_example meets
    the hypotheses *)
Theorem C77_extended_integers_partial : forall cf dif difes bytes more rest hdr d w r i,
  bytes_ok ((dif :: difes) ++ bytes ++ rest) -> dif_chain dif (dif :: difes) -> describes bytes more d -> len bytes <= 11 ->
  ~ maximum_power bytes -> ~ date_vif (hd 0 bytes) -> integer_width (dif mod 16) = Some w ->
  data_record_parse cf ((dif :: difes) ++ bytes ++ rest) hdr = Ok r ->
  exists body rest', rest = body ++ rest' /\ len body = w /\ denotes (record_output i r) (twos_complement body) (c_scale d) more.
Proof. exact extended_integers. Qed.
Print Assumptions C77_extended_integers_partial.
Theorem C77_extended_decimals_partial : forall cf dif difes bytes more rest hdr d w r i,
  bytes_ok ((dif :: difes) ++ bytes ++ rest) -> dif_chain dif (dif :: difes) -> describes bytes more d -> len bytes <= 11 ->
  ~ maximum_power bytes -> ~ date_vif (hd 0 bytes) -> bcd_width (dif mod 16) = Some w ->
  data_record_parse cf ((dif :: difes) ++ bytes ++ rest) hdr = Ok r ->
  exists body rest', rest = body ++ rest' /\ len body = w /\ all_decimal body /\
    denotes (record_output i r) (Z.of_N (FloatSpec.decimal (nibbles (ordered (lsb_first hdr) body)))) (c_scale d) more.
Proof. exact extended_decimals. Qed.
Print Assumptions C77_extended_decimals_partial.
Example C77_extended_decimals_example : exists r,
  bytes_ok ([0x0A] ++ ex_field ++ [0x05; 0x12]) /\ dif_chain 0x0A [0x0A] /\ describes ex_field [0xFC; 0x82; 0xA3; 0xF4; 0x7A] kvarh_combined /\
  ~ maximum_power ex_field /\ bcd_width (0x0A mod 16) = Some 2 /\
  data_record_parse debug ([0x0A] ++ ex_field ++ [0x05; 0x12]) None = Ok r /\
  vo_value (ro_value (record_output 0 r)) = Some (JString (txt "120500.1")).
Proof. exact extended_decimals_example. Qed.
(** FB 78 to FB 7B, the cumulative maximum of the active power, is taken for an additive correction:
    1 mW is shown as 0.002 W *)
Theorem C77_maximum_power_refuted : forall cf, exists r,
  describes [0xFB; 0x78] [] (says [LCumulativeMaximumOfActivePower] [(UWatt, 1%Z)] (-3)) /\
  data_record_parse cf ([0x04] ++ [0xFB; 0x78] ++ [1; 0; 0; 0]) None = Ok r /\
  dr_raw_bytes r = [0x04; 0xFB; 0x78; 1; 0; 0; 0] /\
  vo_value (ro_value (record_output 0 r)) = Some (JString (txt "0.002")).
Proof. exact maximum_power_refuted. Qed.
Print Assumptions C77_maximum_power_refuted.
