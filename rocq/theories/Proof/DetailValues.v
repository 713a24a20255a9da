(** Facts about quantities, units, texts, dates and floating point numbers shown with a record. *)
From Coq Require Import String List NArith ZArith Lia Bool.
Import ListNotations.
From Verif Require Import Model.Base Model.Text Model.Core Model.F64 Model.DataInfo Model.ValueInfo Model.Record Model.UserData Model.Hex Model.Decimal Model.Show Model.Output
  Spec.CoreSpec Spec.TextSpec Spec.RecordSpec Spec.VifSpec Spec.OutputSpec Spec.DetailSpec Spec.FloatSpec
  Proof.BaseFacts Proof.TextFacts Proof.CoreFacts Proof.HeaderFacts Proof.HeaderProps Proof.RecordFacts Proof.DateFacts Proof.NumberProps Proof.AppFacts Proof.IterFacts Proof.VifFacts
  Proof.RscadaRecords Proof.OutputRecords Proof.RscadaValues Proof.Utf8Facts Proof.DetailRecords.
Open Scope N_scope.

(** ** Quantities and units *)
Lemma quantity_shown cf head rest hdr h dif vif row n r i :
  header_of cf head rest h dif vif -> primary vif row n -> data_record_parse cf (head ++ rest) hdr = Ok r ->
  (exists t, ro_quantities (record_output i r) = [t] /\ In (vr_label row, t) quantity_texts) /\
  (~ duration row -> vr_units row <> [] -> exists t, ro_unit (record_output i r) = Some t /\ In (vr_units row, t) unit_texts) /\
  (duration row \/ vr_units row = [] -> ro_unit (record_output i r) = None).
Proof.
  intros Hh Hp Hr. destruct (record_data _ _ _ _ Hr) as (_ & _ & _ & _ & _ & _ & Hhdr & _).
  destruct Hh as (B & Eh & Hl & Hd). pose proof Eh as Eh'. rewrite Eh' in Hhdr. apply Ok_inj in Hhdr.
  destruct (native_information cf head rest h dif vif row n) as (us & E & U1 & U2); [exact (conj B (conj Eh (conj Hl Hd)))|exact Hp|].
  destruct (row_texts vif row n Hp) as [T1 T2].
  unfold record_output. rewrite <- Hhdr, E. cbn [ro_quantities ro_unit vi_labels vi_units map].
  split; [exists (quantity_name (vr_label row)); auto|]. split.
  - intros Nd Nu. rewrite (U1 Nd). exists (unit_output (vr_units row)). split; [|auto].
    destruct (vr_units row); [contradiction|reflexivity].
  - intros [D|D]; [now rewrite (U2 D)|].
    assert (us = []) as ->; [|reflexivity].
    assert (Q : duration row \/ ~ duration row).
    { unfold duration. destruct (vr_label row); first [left; left; reflexivity|left; right; reflexivity|right; intros [Q|Q]; discriminate Q]. }
    destruct Q as [Q|Q]; [auto|]. rewrite (U1 Q). exact D.
Qed.

Lemma specific_quantity cf head rest hdr h dif vif r i : header_of cf head rest h dif vif -> vif = 0x7F \/ vif = 0xFF ->
  data_record_parse cf (head ++ rest) hdr = Ok r ->
  ro_quantities (record_output i r) = [txt "Manufacturer specific"] /\ ro_unit (record_output i r) = None.
Proof.
  intros (B & Hh & Hl & Hd & b & Hb & Hv) Hs Hr. destruct (record_data _ _ _ _ Hr) as (_ & _ & _ & _ & _ & _ & Hhdr & _).
  pose proof Hh as E. rewrite Hhdr in E. apply Ok_inj in E.
  unfold header_try_from in Hh. apply bind_ok in Hh as (raw & _ & Hh). apply bind_ok in Hh as (ph & Hph & Hh).
  apply Ok_inj in Hh. rewrite <- Hh in E, Hb. cbn [drh_raw] in Hb. unfold processed_header_try_from in Hph. rewrite Hb in Hph.
  apply bind_ok in Hph as (v & Ev & Hph). apply bind_ok in Hph as (d & _ & Hph). apply Ok_inj in Hph.
  assert (Evi : v = {| vi_decimal_offset_exponent := 0; vi_labels := [LManufacturerSpecific]; vi_decimal_scale_exponent := 0; vi_units := [] |}).
  { unfold value_information_try_from in Ev. rewrite Hv in Ev. destruct Hs as [-> | ->]; cbn in Ev; apply Ok_inj in Ev; now subst v. }
  unfold record_output. rewrite E. cbn [drh_processed]. rewrite <- Hph, Evi. split; reflexivity.
Qed.

(** ** Floating point numbers *)
Lemma float_value_shown f : float_value f = float_shown f.
Proof. now destruct f as [s|[]| |s m e]. Qed.
Lemma real_shown cf head rest hdr h dif vif :
  header_of cf head rest h dif vif -> ~ date_vif vif -> dif mod 16 = 5 ->
  (len rest < 4 /\ data_record_parse cf (head ++ rest) hdr = Err RInsufficientData) \/
  exists body rest' r f, rest = body ++ rest' /\ len body = 4 /\ data_record_parse cf (head ++ rest) hdr = Ok r /\
    dr_raw_bytes r = head ++ body /\ same_number (Bits.b32_of_bits (Z.of_N (le_number body))) f /\
    forall i, ro_value (record_output i r) = {| vo_kind := txt "float"; vo_value := Some (float_shown f) |}.
Proof.
  intros Hh Hd H5. destruct (real_record cf head rest hdr h dif vif Hh Hd H5) as [L|(body & rest' & r & x & E & L & Hr & Eh & Eb & Ev & f & -> & S)]; [now left|right].
  exists body, rest', r, f. do 5 (split; [assumption|]). intros i.
  assert (B : bytes_ok (head ++ rest)) by apply Hh.
  destruct Hh as (_ & Hhdr & _ & Hdif & v & Hv & Hvif).
  destruct (header_has_information _ _ _ Hhdr) as (di & Hdi).
  pose proof (header_coding cf _ _ di B Hhdr Hdi) as Hsel. cbv zeta in Hsel. rewrite Hv, Hdif, Hvif in Hsel.
  rewrite (not_date_selected vif (data_field_coding_of dif) Hd) in Hsel.
  unfold data_field_coding_of in Hsel. rewrite land_15, H5 in Hsel. cbn [N.eqb Pos.eqb] in Hsel.
  unfold record_output, value_output. cbn [ro_value]. rewrite Eh, Hdi, Ev, Hsel. now rewrite float_value_shown.
Qed.

(** ** Texts *)
Lemma text_record cf head n rest hdr h dif vif :
  header_of cf head (n :: rest) h dif vif -> ~ date_vif vif -> dif mod 16 = 13 -> n <= 0xBF ->
  (len rest < n /\ data_record_parse cf (head ++ n :: rest) hdr = Err RInsufficientData) \/
  exists body rest' r t, rest = body ++ rest' /\ len body = n /\ data_record_parse cf (head ++ n :: rest) hdr = Ok r /\ dr_header r = h /\
    dr_raw_bytes r = head ++ n :: body /\ reads_text body t /\
    forall i, ro_value (record_output i r) = {| vo_kind := txt "text"; vo_value := Some (JString t) |}.
Proof.
  intros Hh Hd H13 Hn. rewrite (variable_record _ _ _ _ _ _ _ _ Hh Hd H13).
  unfold parse_variable_length. change (get (n :: rest) 0) with (Some n). cbn [ok_or bind].
  rewrite (proj2 (N.leb_le _ _) Hn).
  destruct (N.lt_ge_cases (len rest) n) as [Hl|Hl].
  - left. split; [exact Hl|]. rewrite get_range_1 by assumption. reflexivity.
  - right. destruct (take_w rest n Hl) as (body & rest' & -> & Hlb). rewrite get_range_1_ok by exact Hlb. cbn [ok_or bind d_size].
    do 2 eexists. do 2 eexists. split; [reflexivity|]. split; [exact Hlb|]. split; [reflexivity|]. split; [reflexivity|].
    split; [cbn [dr_raw_bytes]; now rewrite firstn_S_w|]. split; [apply decode_text_reads|]. reflexivity.
Qed.

(** ** Dates *)
Lemma pad_two n : n < 100 -> dec_pad 2 n = two_digits n.
Proof.
  intros H. apply text_eqb_ok.
  exact (sweep 100 (fun n => text_eqb (dec_pad 2 n) (two_digits n)) ltac:(vm_compute; reflexivity) n H).
Qed.
Lemma pad_four y : y < 2256 -> dec_pad 4 y = two_digits (y / 100) ++ two_digits (y mod 100).
Proof.
  intros H. apply text_eqb_ok.
  exact (sweep (N.to_nat 2256) (fun y => text_eqb (dec_pad 4 y) (two_digits (y / 100) ++ two_digits (y mod 100))) ltac:(vm_compute; reflexivity) y H).
Qed.
Lemma month_cases m : m < 16 ->
  (1 <= m <= 12 /\ exists mo, RecordSpec.month_number m = Single mo /\ Show.month_number mo = m /\ month_part m = inr (month_identifier mo)) \/
  (~ 1 <= m <= 12 /\ RecordSpec.month_number m = Invalid /\ month_part m = inr (txt "invalid")).
Proof.
  intros H. assert (C : m = 0 \/ m = 1 \/ m = 2 \/ m = 3 \/ m = 4 \/ m = 5 \/ m = 6 \/ m = 7 \/ m = 8 \/ m = 9 \/ m = 10 \/ m = 11 \/ m = 12 \/ 13 <= m) by lia.
  repeat (destruct C as [->|C]; [first [right; split; [lia|split; reflexivity]|left; split; [lia|eexists; split; [reflexivity|split; reflexivity]]]|]).
  right. split; [lia|]. assert (D : m = 13 \/ m = 14 \/ m = 15) by lia. destruct D as [->|[->| ->]]; split; reflexivity.
Qed.
Lemma part_json every x : component_json (field_or_every every x) = part every x.
Proof. unfold field_or_every, part. now destruct (x =? every). Qed.
Lemma single_every every x : single (field_or_every every x) = if x =? every then None else Some x.
Proof. unfold field_or_every. now destruct (x =? every). Qed.

Lemma day_value d m y : d < 32 -> m < 16 -> y < 128 ->
  exists v, temporal_value (txt "date") (field_or_every 0 d) (RecordSpec.month_number m) (field_or_every 0x7F y) None None None =
    {| vo_kind := txt "date"; vo_value := Some v |} /\ day_shown d m y v.
Proof.
  intros Hd Hm Hy. unfold temporal_value, temporal_iso, day_shown. eexists. split; [reflexivity|].
  rewrite !single_every, !part_json.
  change (text_eqb (txt "date") (txt "date")) with true. change (text_eqb (txt "date") (txt "time")) with false. cbn [negb app].
  destruct (month_cases m Hm) as [(M & mo & -> & Em & ->)|(M & -> & ->)].
  - rewrite (proj2 (N.leb_le 1 m)), (proj2 (N.leb_le m 12)) by lia. rewrite !andb_true_r. cbn [single and_then component_json_month].
    rewrite Em. change 0x7F with 127. destruct (d =? 0), (y =? 127); cbn [negb andb and_then]; try reflexivity.
    unfold date_text. now rewrite pad_four, !pad_two by lia.
  - assert (F : (1 <=? m) && (m <=? 12) = false).
    { destruct (N.leb_spec 1 m), (N.leb_spec m 12); cbn [andb]; try reflexivity. lia. }
    rewrite <- (andb_assoc _ (1 <=? m)), F, andb_false_r. cbn [andb single and_then component_json_month].
    destruct (y =? 0x7F); reflexivity.
Qed.

Lemma minute_value d m y h mi : d < 32 -> m < 16 -> y < 128 -> h < 32 -> mi < 64 ->
  exists v, temporal_value (txt "datetime") (field_or_every 31 d) (RecordSpec.month_number m) (field_or_every 0x7F y)
      (Some (field_or_every 31 h)) (Some (field_or_every 63 mi)) None =
    {| vo_kind := txt "datetime"; vo_value := Some v |} /\ minute_shown d m y h mi v.
Proof.
  intros Hd Hm Hy Hh Hmi. unfold temporal_value, temporal_iso, minute_shown. eexists. split; [reflexivity|].
  cbn [and_then]. rewrite !single_every, !part_json.
  change (text_eqb (txt "datetime") (txt "date")) with false. change (text_eqb (txt "datetime") (txt "time")) with false. cbn [negb app].
  destruct (month_cases m Hm) as [(M & mo & -> & Em & ->)|(M & -> & ->)].
  - rewrite (proj2 (N.leb_le 1 m)), (proj2 (N.leb_le m 12)) by lia. rewrite !andb_true_r. cbn [single and_then component_json_month].
    rewrite Em. change 0x7F with 127. destruct (d =? 31), (y =? 127), (h =? 31), (mi =? 63); cbn [negb andb and_then]; try reflexivity.
    unfold date_text, time_text. rewrite pad_four, !pad_two by lia. repeat (rewrite <- app_assoc; cbn [app]). reflexivity.
  - assert (F : (1 <=? m) && (m <=? 12) = false).
    { destruct (N.leb_spec 1 m), (N.leb_spec m 12); cbn [andb]; try reflexivity. lia. }
    rewrite <- (andb_assoc _ (1 <=? m)), F, andb_false_r. cbn [andb single and_then component_json_month].
    destruct (y =? 0x7F); reflexivity.
Qed.

Lemma second_value d m y h mi s : d < 32 -> m < 16 -> y < 128 -> h < 32 -> mi < 64 -> s < 64 ->
  exists v, temporal_value (txt "datetime") (field_or_every 31 d) (RecordSpec.month_number m) (field_or_every 0x7F y)
      (Some (field_or_every 31 h)) (Some (field_or_every 63 mi)) (Some (field_or_every 63 s)) =
    {| vo_kind := txt "datetime"; vo_value := Some v |} /\ second_shown d m y h mi s v.
Proof.
  intros Hd Hm Hy Hh Hmi Hs. unfold temporal_value, temporal_iso, second_shown. eexists. split; [reflexivity|].
  cbn [and_then]. rewrite !single_every, !part_json.
  change (text_eqb (txt "datetime") (txt "date")) with false. change (text_eqb (txt "datetime") (txt "time")) with false. cbn [negb app].
  destruct (month_cases m Hm) as [(M & mo & -> & Em & ->)|(M & -> & ->)].
  - rewrite (proj2 (N.leb_le 1 m)), (proj2 (N.leb_le m 12)) by lia. rewrite !andb_true_r. cbn [single and_then component_json_month].
    rewrite Em. change 0x7F with 127. destruct (d =? 31), (y =? 127), (h =? 31), (mi =? 63), (s =? 63); cbn [negb andb and_then]; try reflexivity;
    unfold date_text, time_text; rewrite pad_four, !pad_two by lia; repeat (rewrite <- app_assoc; cbn [app]); reflexivity.
  - assert (F : (1 <=? m) && (m <=? 12) = false).
    { destruct (N.leb_spec 1 m), (N.leb_spec m 12); cbn [andb]; try reflexivity. lia. }
    rewrite <- (andb_assoc _ (1 <=? m)), F, andb_false_r. cbn [andb single and_then component_json_month].
    destruct (s =? 63), (y =? 0x7F); reflexivity.
Qed.

Lemma g_year_lt b0 b1 : b0 < 256 -> b1 < 256 -> g_year b0 b1 < 128.
Proof.
  intros A B. unfold g_year. pose proof (N.div_lt_upper_bound b0 32 8 ltac:(lia) ltac:(lia)).
  pose proof (N.div_lt_upper_bound b1 16 16 ltac:(lia) ltac:(lia)). lia.
Qed.
Lemma date_shown cf data hdr r v i :
  bytes_ok data -> data_record_parse cf data hdr = Ok r -> rh_vib (drh_raw (dr_header r)) = Some v -> vib_vif v mod 128 = 0x6C ->
  exists head b0 b1 rest w, data = head ++ [b0; b1] ++ rest /\ dr_raw_bytes r = head ++ [b0; b1] /\ len head = header_get_size (dr_header r) /\
    ro_value (record_output i r) = {| vo_kind := txt "date"; vo_value := Some w |} /\ day_shown (b0 mod 32) (b1 mod 16) (g_year b0 b1) w.
Proof.
  intros B H Hv Hd. destruct (date_record _ _ _ _ _ B H Hv Hd) as (head & b0 & b1 & rest & E & Eb & El & Ev).
  assert (Bb : b0 < 256 /\ b1 < 256). { rewrite E, !bytes_ok_app in B. destruct B as (_ & B & _). inversion B as [|? ? B0 B1]; subst. inversion B1; subst. auto. }
  destruct (day_value (b0 mod 32) (b1 mod 16) (g_year b0 b1)) as (w & Ew & S);
    [apply N.mod_lt; discriminate|apply N.mod_lt; discriminate|now apply g_year_lt|].
  exists head, b0, b1, rest, w. do 3 (split; [assumption|]). split; [|exact S].
  unfold record_output, value_output. cbn [ro_value]. rewrite Ev. exact Ew.
Qed.
Lemma datetime_shown cf data hdr r v i :
  bytes_ok data -> data_record_parse cf data hdr = Ok r -> rh_vib (drh_raw (dr_header r)) = Some v -> vib_vif v mod 128 = 0x6D ->
  dib_dif (rh_dib (drh_raw (dr_header r))) mod 16 = 4 ->
  exists head b0 b1 b2 b3 rest w, data = head ++ [b0; b1; b2; b3] ++ rest /\ dr_raw_bytes r = head ++ [b0; b1; b2; b3] /\
    len head = header_get_size (dr_header r) /\
    ro_value (record_output i r) = {| vo_kind := txt "datetime"; vo_value := Some w |} /\
    minute_shown (b2 mod 32) (b3 mod 16) (g_year b0 b1) (b1 mod 32) (b0 mod 64) w.
Proof.
  intros B H Hv Hd H4. destruct (datetime_record _ _ _ _ _ B H Hv Hd H4) as (head & b0 & b1 & b2 & b3 & rest & E & Eb & El & Ev).
  assert (Bb : b0 < 256 /\ b1 < 256). { rewrite E, !bytes_ok_app in B. destruct B as (_ & B & _). inversion B as [|? ? B0 B1]; subst. inversion B1; subst. auto. }
  destruct (minute_value (b2 mod 32) (b3 mod 16) (g_year b0 b1) (b1 mod 32) (b0 mod 64)) as (w & Ew & S);
    try (apply N.mod_lt; discriminate); [now apply g_year_lt|].
  exists head, b0, b1, b2, b3, rest, w. do 3 (split; [assumption|]). split; [|exact S].
  unfold record_output, value_output. cbn [ro_value]. rewrite Ev. exact Ew.
Qed.
Lemma datetime48_shown cf data hdr r v i :
  bytes_ok data -> data_record_parse cf data hdr = Ok r -> rh_vib (drh_raw (dr_header r)) = Some v -> vib_vif v mod 128 = 0x6D ->
  dib_dif (rh_dib (drh_raw (dr_header r))) mod 16 = 6 ->
  exists head b0 b1 b2 b3 b4 rest w, data = head ++ [b0; b1; b2; b3; b4] ++ rest /\
    dr_raw_bytes r = head ++ [b0; b1; b2; b3; b4] ++ firstn 1 rest /\
    len head = header_get_size (dr_header r) /\
    ro_value (record_output i r) = {| vo_kind := txt "datetime"; vo_value := Some w |} /\
    second_shown (b3 mod 32) (b4 mod 16) (g_year b0 b1) (b2 mod 32) (b1 mod 64) (b0 mod 64) w.
Proof.
  intros B H Hv Hd H6. destruct (datetime48_record _ _ _ _ _ B H Hv Hd H6) as (head & b0 & b1 & b2 & b3 & b4 & rest & E & Eb & El & Ev).
  assert (Bb : b0 < 256 /\ b1 < 256). { rewrite E, !bytes_ok_app in B. destruct B as (_ & B & _). inversion B as [|? ? B0 B1]; subst. inversion B1; subst. auto. }
  destruct (second_value (b3 mod 32) (b4 mod 16) (g_year b0 b1) (b2 mod 32) (b1 mod 64) (b0 mod 64)) as (w & Ew & S);
    try (apply N.mod_lt; discriminate); [now apply g_year_lt|].
  exists head, b0, b1, b2, b3, b4, rest, w. do 3 (split; [assumption|]). split; [|exact S].
  unfold record_output, value_output. cbn [ro_value]. rewrite Ev. exact Ew.
Qed.
