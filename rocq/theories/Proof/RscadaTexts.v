(** Dates and texts in the libmbus XML. *)
From Coq Require Import String List NArith ZArith Lia Bool.
Import ListNotations.
From Verif Require Import Model.Base Model.Text Model.Core Model.F64 Model.DataInfo Model.ValueInfo Model.Record Model.Show Model.Output Model.Rscada
  Spec.EscapeSpec Spec.TextSpec Spec.FloatSpec Spec.RecordSpec Spec.VifSpec Spec.XmlSpec Spec.RscadaSpec Spec.OutputSpec Spec.DetailSpec
  Proof.BaseFacts Proof.CoreFacts Proof.ShowFacts Proof.TextFacts
  Proof.RecordFacts Proof.HeaderFacts Proof.HeaderProps Proof.DateFacts Proof.NumberProps Proof.OutputValues Proof.VifFacts Proof.XmlFacts Proof.RscadaFacts Proof.RscadaRecords
  Proof.RscadaValues Proof.Utf8Facts Proof.DetailRecords Proof.DetailValues.
Open Scope N_scope.

Lemma string_fields powi vif row n cf head rest h dif r body s :
  header_of cf head rest h dif vif -> primary vif row n -> dr_header r = h -> dr_raw_bytes r = head ++ body ->
  dif <> 0x0F -> dif <> 0x1F -> variable_value_decode dif vif None body = Some (DStr s) ->
  lookup (txt "Unit") (record_fields powi r) = Some (vr_xml_unit row) /\
  lookup (txt "Quantity") (record_fields powi r) = Some (vr_xml_quantity row) /\
  lookup (txt "Value") (record_fields powi r) = Some (blanked s).
Proof.
  intros (B & Hh & Hl & Hdif & b & Hb & Hvif) Hp Hr Hraw H0F H1F Hx.
  assert (Eb : b = {| vib_vif := vif; vib_vifes := None; vib_plaintext := None |}).
  { rewrite <- Hvif. eapply plain_vib; [exact B|exact Hh|exact Hb|]. rewrite Hvif. apply (xml_row _ _ _ Hp). }
  assert (Ef : normalize_record powi r = Some {| nr_function := function_string dif;
     nr_storage_number := xml_storage_number dif (difes_of h);
     nr_tariff := match difes_of h with [] => None | _ => Some (xml_tariff (difes_of h)) end; nr_device := xml_device (difes_of h);
     nr_unit := vr_xml_unit row; nr_quantity := vr_xml_quantity row; nr_value := DStr s |}).
  { unfold normalize_record. rewrite (significand_data r h head body Hr Hl Hraw), Hr, Hdif, Hb.
    apply N.eqb_neq in H0F, H1F. rewrite H0F, H1F. cbn [orb]. rewrite Eb. cbn [vib_vif vib_vifes vib_plaintext hd_error].
    rewrite Hx, (xml_scaled powi vif row n) by exact Hp. reflexivity. }
  unfold record_fields. rewrite Ef. cbn [nr_function nr_storage_number nr_tariff nr_device nr_unit nr_quantity nr_value].
  assert (Bl : blanked (vr_xml_unit row) = vr_xml_unit row /\ blanked (vr_xml_quantity row) = vr_xml_quantity row).
  { clear -Hp. revert vif row n Hp. refine (rows_all _ _). repeat constructor. }
  destruct Bl as [-> ->]. destruct (difes_of h); cbn [app]; repeat split; look; reflexivity.
Qed.

(** ** Texts *)
Lemma xml_text cf head n rest hdr h dif vif row k powi i id fields r :
  header_of cf head (n :: rest) h dif vif -> primary vif row k -> ~ date_vif vif -> dif mod 16 = 13 -> n <= 0xBF ->
  data_record_parse cf (head ++ n :: rest) hdr = Ok r -> record_element (render_variable_record powi i r) = Some (id, fields) ->
  exists body rest', rest = body ++ rest' /\ len body = n /\
    lookup (txt "Unit") fields = Some (vr_xml_unit row) /\ lookup (txt "Quantity") fields = Some (vr_xml_quantity row) /\
    forall t, utf8 t (rev body) -> lookup (txt "Value") fields = Some (blanked t).
Proof.
  intros Hh Hp Hd H13 Hn Hr E. rewrite record_element_fields in E. injection E as _ <-.
  destruct (text_record cf head n rest hdr h dif vif Hh Hd H13 Hn) as [(_ & K)|(body & rest' & r' & t & E & L & K & Eh & Eb & _)];
    rewrite Hr in K; [discriminate K|]. injection K as <-. exists body, rest'. split; [exact E|]. split; [exact L|].
  destruct (special_widths dif) as [N1 N2]. { intros Q. rewrite Q in H13. discriminate H13. }
  destruct (string_fields powi vif row k cf head (n :: rest) h dif r (n :: body) (str_decode body) Hh Hp Eh Eb N1 N2) as (F1 & F2 & F3).
  { unfold variable_value_decode. rewrite land_15, H13. cbn [N.eqb Pos.eqb]. now rewrite (proj2 (N.leb_le _ _) Hn). }
  split; [exact F1|]. split; [exact F2|]. intros t' U. rewrite F3. unfold str_decode. now rewrite (lossy_all _ _ U).
Qed.

(** ** Dates *)
Lemma xml_year_g a b : a < 256 -> b < 256 -> xml_year a b = 2000 + g_year a b.
Proof.
  intros A B. unfold xml_year, g_year. f_equal.
  assert (E1 : N.shiftr (N.land a 0xE0) 5 = a / 32).
  { apply N.eqb_eq. exact (sweep256 (fun a => N.shiftr (N.land a 0xE0) 5 =? a / 32) ltac:(vm_compute; reflexivity) a A). }
  assert (E2 : N.shiftr (N.land b 0xF0) 1 = 8 * (b / 16)).
  { apply N.eqb_eq. exact (sweep256 (fun b => N.shiftr (N.land b 0xF0) 1 =? 8 * (b / 16)) ltac:(vm_compute; reflexivity) b B). }
  rewrite E1, E2.
  assert (S : forall x y, x < 8 -> y < 16 -> N.lor x (8 * y) = x + 8 * y).
  { intros x y X Y. apply N.eqb_eq.
    pose proof (sweep 8 (fun x => forallb (fun y => N.lor x (8 * y) =? x + 8 * y) (below 16)) ltac:(vm_compute; reflexivity) x X) as K.
    cbv beta in K. rewrite forallb_forall in K. apply K. now apply in_below. }
  apply S; apply N.div_lt_upper_bound; lia.
Qed.
Lemma year_text a b : a < 256 -> b < 256 ->
  dec_pad 4 (xml_year a b) = two_digits ((2000 + g_year a b) / 100) ++ two_digits ((2000 + g_year a b) mod 100).
Proof. intros A B. rewrite (xml_year_g a b A B). pose proof (g_year_lt a b A B). apply pad_four. lia. Qed.
Lemma bit_seven b : b < 256 -> (N.land b 0x80 =? 0) = (b <? 128).
Proof.
  intros B. apply Bool.eqb_prop.
  exact (sweep256 (fun b => Bool.eqb (N.land b 0x80 =? 0) (b <? 128)) ltac:(vm_compute; reflexivity) b B).
Qed.
Lemma land_63 b : N.land b 0x3F = b mod 64.
Proof. change 0x3F with (N.ones 6). now rewrite N.land_ones. Qed.

Lemma digits_blanked n : n < 100 -> blanked (two_digits n) = two_digits n.
Proof.
  intros H. apply text_eqb_ok.
  exact (sweep 100 (fun n => text_eqb (blanked (two_digits n)) (two_digits n)) ltac:(vm_compute; reflexivity) n H).
Qed.
Lemma blanked_app a b : blanked (a ++ b) = blanked a ++ blanked b.
Proof. apply map_app. Qed.
Lemma mod_bound a k l : k <> 0 -> k <= l -> a mod k < l.
Proof. intros K L. pose proof (N.mod_lt a k K). lia. Qed.


Lemma g_blanked b0 b1 : b0 < 256 -> b1 < 256 ->
  blanked (date_g_decode b0 b1) = date_text (2000 + g_year b0 b1) (b1 mod 16) (b0 mod 32).
Proof.
  intros A B. unfold date_g_decode. pose proof (g_year_lt b0 b1 A B).
  assert (Y : (2000 + g_year b0 b1) / 100 < 100) by (apply N.div_lt_upper_bound; lia).
  rewrite year_text, land_15, land_31, !pad_two by (first [assumption|apply mod_bound; [discriminate|lia]]).
  unfold date_text. rewrite !blanked_app, !digits_blanked by (first [assumption|apply mod_bound; [discriminate|lia]]).
  rewrite <- !app_assoc. reflexivity.
Qed.
Lemma f_blanked b0 b1 b2 b3 : b0 < 256 -> b2 < 256 -> b3 < 256 ->
  blanked (date_f_decode b0 b1 b2 b3) =
    if b0 <? 128 then date_text (2000 + g_year b2 b3) (b3 mod 16) (b2 mod 32) ++ txt "T" ++ time_text (b1 mod 32) (b0 mod 64) 0 ++ txt "Z"
    else txt "1900-01-00T00:00:00Z".
Proof.
  intros A0 A B. unfold date_f_decode. rewrite bit_seven by exact A0. destruct (b0 <? 128); [|reflexivity]. cbn [negb].
  pose proof (g_year_lt b2 b3 A B).
  assert (Y : (2000 + g_year b2 b3) / 100 < 100) by (apply N.div_lt_upper_bound; lia).
  rewrite year_text, land_15, !land_31, land_63, !pad_two by (first [assumption|apply mod_bound; [discriminate|lia]]).
  unfold date_text, time_text. rewrite !blanked_app, !digits_blanked by (first [assumption|apply mod_bound; [discriminate|lia]]).
  rewrite <- !app_assoc. reflexivity.
Qed.
Lemma i_blanked b0 b1 b2 b3 b4 : b1 < 256 -> b3 < 256 -> b4 < 256 ->
  blanked (date_i_decode b0 b1 b2 b3 b4) =
    if b1 <? 128 then date_text (2000 + g_year b3 b4) (b4 mod 16) (b3 mod 32) ++ txt "T" ++ time_text (b2 mod 32) (b1 mod 64) (b0 mod 64) ++ txt "Z"
    else txt "1900-01-00T00:00:00Z".
Proof.
  intros A0 A B. unfold date_i_decode. rewrite bit_seven by exact A0. destruct (b1 <? 128); [|reflexivity]. cbn [negb].
  pose proof (g_year_lt b3 b4 A B).
  assert (Y : (2000 + g_year b3 b4) / 100 < 100) by (apply N.div_lt_upper_bound; lia).
  rewrite year_text, land_15, !land_31, !land_63, !pad_two by (first [assumption|apply mod_bound; [discriminate|lia]]).
  unfold date_text, time_text. rewrite !blanked_app, !digits_blanked by (first [assumption|apply mod_bound; [discriminate|lia]]).
  rewrite <- !app_assoc. reflexivity.
Qed.

(** the header of a record and what follows *)
Lemma header_known cf head rest hdr h dif vif r : header_of cf head rest h dif vif -> data_record_parse cf (head ++ rest) hdr = Ok r ->
  dr_header r = h /\ len head = header_get_size (dr_header r) /\ exists v, rh_vib (drh_raw (dr_header r)) = Some v /\ vib_vif v = vif.
Proof.
  intros (B & Eh & Hl & Hd & v & Hv & E) Hr. destruct (record_data _ _ _ _ Hr) as (_ & _ & _ & _ & _ & _ & Hhdr & _).
  rewrite Eh in Hhdr. apply Ok_inj in Hhdr. subst h. eauto.
Qed.
Lemma split_at (a b c d : list N) : a ++ b = c ++ d -> len a = len c -> a = c /\ b = d.
Proof.
  revert c. induction a as [|x a IH]; intros [|y c] E L; try (cbn in L; rewrite ?len_cons in L; cbn in L; lia).
  - auto.
  - injection E as -> E. rewrite !len_cons in L. destruct (IH c E) as [-> ->]; [lia|]. auto.
Qed.
Lemma point_rows : (exists row, primary 0x6C row 0 /\ vr_xml_quantity row = txt "Time point (date)") /\
  (exists row, primary 0x6D row 0 /\ vr_xml_quantity row = txt "Time point (date & time)").
Proof.
  split; [exists (row 0x6C 1 0 LDate [] (txt "Time point (date)") (txt "-") 1)|exists (row 0x6D 1 0 LDateTime [] (txt "Time point (date & time)") (txt "-") 1)];
    (split; [|reflexivity]); (split; [unfold primary_rows; pick|split; reflexivity]).
Qed.

Lemma xml_date cf head rest hdr h dif powi i id fields r :
  header_of cf head rest h dif 0x6C -> dif mod 16 = 2 ->
  data_record_parse cf (head ++ rest) hdr = Ok r -> record_element (render_variable_record powi i r) = Some (id, fields) ->
  exists b0 b1 rest', rest = [b0; b1] ++ rest' /\ lookup (txt "Quantity") fields = Some (txt "Time point (date)") /\
    lookup (txt "Value") fields = Some (date_text (2000 + g_year b0 b1) (b1 mod 16) (b0 mod 32)).
Proof.
  intros Hh H2 Hr E. rewrite record_element_fields in E. injection E as _ <-.
  destruct (header_known _ _ _ _ _ _ _ _ Hh Hr) as (Eh & Hl & v & Hv & Ev). assert (B : bytes_ok (head ++ rest)) by apply Hh.
  destruct (date_record _ _ _ _ _ B Hr Hv ltac:(rewrite Ev; reflexivity)) as (head' & b0 & b1 & rest' & E & Eb & El & _).
  apply split_at in E; [|congruence]. destruct E as [<- ->]. exists b0, b1, rest'. split; [reflexivity|].
  assert (Bb : b0 < 256 /\ b1 < 256). { rewrite !bytes_ok_app in B. destruct B as (_ & B & _). inversion B as [|? ? B0 B1]; subst. inversion B1; subst. auto. }
  destruct (special_widths dif) as [N1 N2]. { intros Q. rewrite Q in H2. discriminate H2. }
  destruct (proj1 point_rows) as (row & P & Q).
  destruct (string_fields powi 0x6C row 0 cf head _ h dif r [b0; b1] (date_g_decode b0 b1) Hh P Eh Eb N1 N2) as (_ & F2 & F3).
  { unfold variable_value_decode. rewrite land_15, H2. cbn [N.eqb Pos.eqb]. reflexivity. }
  rewrite F2, F3, Q. split; [reflexivity|]. f_equal. now apply g_blanked.
Qed.
Lemma xml_datetime cf head rest hdr h dif powi i id fields r :
  header_of cf head rest h dif 0x6D -> dif mod 16 = 4 ->
  data_record_parse cf (head ++ rest) hdr = Ok r -> record_element (render_variable_record powi i r) = Some (id, fields) ->
  exists b0 b1 b2 b3 rest', rest = [b0; b1; b2; b3] ++ rest' /\ lookup (txt "Quantity") fields = Some (txt "Time point (date & time)") /\
    lookup (txt "Value") fields = Some (if b0 <? 128
      then date_text (2000 + g_year b2 b3) (b3 mod 16) (b2 mod 32) ++ txt "T" ++ time_text (b1 mod 32) (b0 mod 64) 0 ++ txt "Z"
      else txt "1900-01-00T00:00:00Z").
Proof.
  intros Hh H2 Hr E. rewrite record_element_fields in E. injection E as _ <-.
  destruct (header_known _ _ _ _ _ _ _ _ Hh Hr) as (Eh & Hl & v & Hv & Ev). assert (B : bytes_ok (head ++ rest)) by apply Hh.
  assert (Hdif : dib_dif (rh_dib (drh_raw (dr_header r))) mod 16 = 4). { rewrite Eh. destruct Hh as (_ & _ & _ & -> & _). exact H2. }
  destruct (datetime_record _ _ _ _ _ B Hr Hv ltac:(rewrite Ev; reflexivity) Hdif) as (head' & b0 & b1 & b2 & b3 & rest' & E & Eb & El & _).
  apply split_at in E; [|congruence]. destruct E as [<- ->]. exists b0, b1, b2, b3, rest'. split; [reflexivity|].
  assert (Bb : b0 < 256 /\ b1 < 256 /\ b2 < 256 /\ b3 < 256).
  { rewrite !bytes_ok_app in B. destruct B as (_ & B & _). inversion B as [|? ? B0 B1]; subst. inversion B1 as [|? ? B2 B3]; subst.
    inversion B3 as [|? ? B4 B5]; subst. inversion B5; subst. auto. }
  destruct (special_widths dif) as [N1 N2]. { intros Q. rewrite Q in H2. discriminate H2. }
  destruct (proj2 point_rows) as (row & P & Q).
  destruct (string_fields powi 0x6D row 0 cf head _ h dif r [b0; b1; b2; b3] (date_f_decode b0 b1 b2 b3) Hh P Eh Eb N1 N2) as (_ & F2 & F3).
  { unfold variable_value_decode. rewrite land_15, H2. cbn [N.eqb Pos.eqb]. reflexivity. }
  rewrite F2, F3, Q. split; [reflexivity|]. f_equal. now apply f_blanked.
Qed.
Lemma xml_datetime48 cf head rest hdr h dif powi i id fields r :
  header_of cf head rest h dif 0x6D -> dif mod 16 = 6 -> 6 <= len rest ->
  data_record_parse cf (head ++ rest) hdr = Ok r -> record_element (render_variable_record powi i r) = Some (id, fields) ->
  exists b0 b1 b2 b3 b4 b5 rest', rest = [b0; b1; b2; b3; b4; b5] ++ rest' /\ lookup (txt "Quantity") fields = Some (txt "Time point (date & time)") /\
    lookup (txt "Value") fields = Some (if b1 <? 128
      then date_text (2000 + g_year b3 b4) (b4 mod 16) (b3 mod 32) ++ txt "T" ++ time_text (b2 mod 32) (b1 mod 64) (b0 mod 64) ++ txt "Z"
      else txt "1900-01-00T00:00:00Z").
Proof.
  intros Hh H2 Hlen Hr E. rewrite record_element_fields in E. injection E as _ <-.
  destruct (header_known _ _ _ _ _ _ _ _ Hh Hr) as (Eh & Hl & v & Hv & Ev). assert (B : bytes_ok (head ++ rest)) by apply Hh.
  assert (Hdif : dib_dif (rh_dib (drh_raw (dr_header r))) mod 16 = 6). { rewrite Eh. destruct Hh as (_ & _ & _ & -> & _). exact H2. }
  destruct (datetime48_record _ _ _ _ _ B Hr Hv ltac:(rewrite Ev; reflexivity) Hdif) as (head' & b0 & b1 & b2 & b3 & b4 & rest' & E & Eb & El & _).
  apply split_at in E; [|congruence]. destruct E as [<- ->]. destruct rest' as [|b5 rest']; [cbn in Hlen; lia|].
  exists b0, b1, b2, b3, b4, b5, rest'. split; [reflexivity|].
  assert (Bb : b1 < 256 /\ b3 < 256 /\ b4 < 256).
  { rewrite !bytes_ok_app in B. destruct B as (_ & B & _). inversion B as [|? ? B0 B1]; subst. inversion B1 as [|? ? B2 B3]; subst.
    inversion B3 as [|? ? B4 B5]; subst. inversion B5 as [|? ? B6 B7]; subst. inversion B7; subst. auto. }
  destruct (special_widths dif) as [N1 N2]. { intros Q. rewrite Q in H2. discriminate H2. }
  destruct (proj2 point_rows) as (row & P & Q).
  destruct (string_fields powi 0x6D row 0 cf head _ h dif r [b0; b1; b2; b3; b4; b5] (date_i_decode b0 b1 b2 b3 b4) Hh P Eh Eb N1 N2) as (_ & F2 & F3).
  { unfold variable_value_decode. rewrite land_15, H2. cbn [N.eqb Pos.eqb]. reflexivity. }
  rewrite F2, F3, Q. split; [reflexivity|]. f_equal. now apply i_blanked.
Qed.
