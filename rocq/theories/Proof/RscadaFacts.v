(** Lemmas about the libmbus XML of Model/Rscada.v: what its documents say. *)
From Coq Require Import Lia String.
From Verif Require Import Model.Base Model.Text Model.Core Model.Wired Model.Wireless Model.F64 Model.DataInfo Model.ValueInfo Model.Record Model.Decrypt
  Model.UserData Model.Hex Model.MbusData Model.Escape Model.Show Model.Output Model.Rscada
  Spec.EscapeSpec Spec.TextSpec Spec.CoreSpec Spec.CrcSpec Spec.WiredSpec Spec.WirelessSpec Spec.DecryptSpec Spec.RecordSpec Spec.AppSpec Spec.AnnotateSpec
  Spec.MbusSpec Spec.OutputSpec
  Proof.BaseFacts Proof.EscapeFacts Proof.ShowFacts Proof.RecordFacts Proof.WirelessFacts Proof.IterFacts Proof.AppFacts Proof.MbusFacts
  Proof.OutputFacts Proof.OutputRecords Proof.OutputFrames Spec.XmlSpec Spec.RscadaSpec Proof.XmlFacts.

(** *** Texts without markup *)
Lemma dec_digits n : forallb decimal_digit (dec n) = true.
Proof.
  apply forallb_forall. intros c Hc. destruct (dec_text n) as (H & _). pose proof (proj1 (Forall_forall _ _) H c Hc) as D.
  unfold digit_char in D. unfold decimal_digit. apply andb_true_iff. split; apply N.leb_le; lia.
Qed.
Lemma dec_written n : written (dec n) n.
Proof. destruct (dec_text n) as (H1 & H2 & H3 & H4). exists (dec n). repeat (split; [assumption|]). left. rewrite H4. split; reflexivity. Qed.
Lemma digits_plain s : forallb decimal_digit s = true -> forallb plain s = true.
Proof.
  intros H. apply forallb_forall. intros c Hc. pose proof (proj1 (forallb_forall _ _) H c Hc) as L.
  unfold decimal_digit in L. unfold plain, bad_control. apply negb_true_iff. rewrite !orb_false_iff.
  repeat split; try apply N.eqb_neq; try apply andb_false_iff; lia.
Qed.
Lemma dec_plain n : forallb plain (dec n) = true.
Proof. apply digits_plain, dec_digits. Qed.
Lemma zeros_plain n : forallb plain (zeros n) = true.
Proof. induction n as [|n IH]; [reflexivity|exact IH]. Qed.
Lemma dec_pad_plain w n : forallb plain (dec_pad w n) = true.
Proof. unfold dec_pad. rewrite forallb_app, zeros_plain. apply dec_plain. Qed.
Lemma show_f64_6_plain x : forallb plain (show_f64_6 x) = true.
Proof.
  destruct x as [[]|[]| |s m e]; try reflexivity. unfold show_f64_6. rewrite !forallb_app, dec_plain, dec_pad_plain.
  destruct s; reflexivity.
Qed.
Lemma hex_digit_upper_plain d : d < 16 -> plain (hex_digit_upper d) = true.
Proof.
  intros H. unfold hex_digit_upper. unfold plain, bad_control. apply negb_true_iff. rewrite !orb_false_iff.
  destruct (N.ltb_spec d 10); repeat split; try apply N.eqb_neq; try apply andb_false_iff; lia.
Qed.
Lemma hex2_plain b : b < 256 -> forallb plain (hex2 b) = true.
Proof.
  intros H. unfold hex2. cbn [forallb]. rewrite !hex_digit_upper_plain; [reflexivity| |].
  - apply N.mod_lt. discriminate.
  - apply N.div_lt_upper_bound; lia.
Qed.

(** *** Data records *)
(** the fields of a record *)
Definition record_fields (powi : Z -> f64) (r : data_record) : list (text * text) :=
  match normalize_record powi r with
  | None => []
  | Some n =>
      [(txt "Function", blanked (nr_function n)); (txt "StorageNumber", dec (nr_storage_number n))]
      ++ match nr_tariff n with
         | Some tariff => [(txt "Tariff", dec tariff); (txt "Device", dec (nr_device n))]
         | None => []
         end
      ++ [(txt "Unit", blanked (nr_unit n)); (txt "Quantity", blanked (nr_quantity n));
          (txt "Value", match nr_value n with DReal v => show_f64_6 v | DStr v => blanked v end)]
  end.

Lemma record_shown powi i r : shows_records (render_variable_record powi i r) [(dec i, record_fields powi r)].
Proof.
  unfold render_variable_record. apply record_shows; [apply dec_digits|]. unfold record_fields.
  destruct (normalize_record powi r) as [n|]; [|apply shows_fields_nil].
  change ([(txt "Function", blanked (nr_function n)); (txt "StorageNumber", dec (nr_storage_number n))])
    with ([(txt "Function", blanked (nr_function n))] ++ [(txt "StorageNumber", dec (nr_storage_number n))]).
  rewrite <- app_assoc.
  apply shows_fields_app; [apply field_encoded; reflexivity|].
  apply shows_fields_app; [apply field_plain; [reflexivity|apply dec_plain]|].
  apply shows_fields_app.
  { destruct (nr_tariff n) as [t|]; [|apply shows_fields_nil].
    change ([(txt "Tariff", dec t); (txt "Device", dec (nr_device n))]) with ([(txt "Tariff", dec t)] ++ [(txt "Device", dec (nr_device n))]).
    apply shows_fields_app; apply field_plain; try reflexivity; apply dec_plain. }
  match goal with |- shows_fields _ [?a; ?b; ?c] => change [a; b; c] with ([a] ++ [b] ++ [c]) end.
  apply shows_fields_app; [apply field_encoded; reflexivity|].
  apply shows_fields_app; [apply field_encoded; reflexivity|].
  destruct (nr_value n); [apply field_plain; [reflexivity|apply show_f64_6_plain]|apply field_encoded; reflexivity].
Qed.
Lemma shows_records_read s rs : shows_records s rs -> exists l, read s InText [] [] = Some l /\ records_of (unblanked l) = Some rs.
Proof. intros (l & (l' & R & <-) & F). exists l'. split; [apply reads_read; exact R|exact F]. Qed.
Lemma record_element_fields powi i r : record_element (render_variable_record powi i r) = Some (dec i, record_fields powi r).
Proof.
  destruct (shows_records_read _ _ (record_shown powi i r)) as (l & R & F). unfold record_element. rewrite R, F. reflexivity.
Qed.

(** the records, numbered *)
Fixpoint numbered (powi : Z -> f64) (i : N) (rs : list data_record) : list (text * list (text * text)) :=
  match rs with [] => [] | r :: rs => (dec i, record_fields powi r) :: numbered powi (i + 1) rs end.
Lemma listed_numbered powi rs : forall i, listed_xml powi i rs (numbered powi i rs).
Proof.
  induction rs as [|r rs IH]; intros i; cbn [numbered]; constructor; [apply dec_written|apply record_element_fields|apply IH].
Qed.

Fixpoint elements (powi : Z -> f64) (i : N) (rs : list data_record) : text :=
  match rs with [] => [] | r :: rs => render_variable_record powi i r ++ elements powi (i + 1) rs end.
Lemma elements_shown powi rs : forall i, shows_records (elements powi i rs) (numbered powi i rs).
Proof.
  induction rs as [|r rs IH]; intros i; cbn [numbered elements]; [apply shows_records_nil|].
  change ((dec i, record_fields powi r) :: numbered powi (i + 1) rs) with ([(dec i, record_fields powi r)] ++ numbered powi (i + 1) rs).
  apply shows_records_app; [apply record_shown|apply IH].
Qed.

Lemma render_items_end powi x rs : forall i,
  render_items powi i (map Ok rs ++ end_items x) =
  match x with EPanic p => Panic p | _ => Ok (elements powi i rs) end.
Proof.
  induction rs as [|r rs IH]; intros i; cbn [map app render_items elements].
  - destruct x; reflexivity.
  - rewrite IH. destruct x; reflexivity.
Qed.
Lemma render_records_of cf powi data hdr rs x :
  records_all cf data hdr = Some (map Ok rs ++ end_items x) ->
  render_records cf powi (Some (records_new data hdr)) =
  match x with EPanic p => Panic p | _ => Ok (elements powi 0 rs) end.
Proof.
  intros E. unfold render_records, records_all, records_new in *. cbn [rs_data] in *. rewrite E.
  rewrite render_items_end. destruct x; reflexivity.
Qed.

(** *** Slave information *)
Definition maker_text (m : outcome application_layer_error manufacturer_code) : text :=
  match m with Ok code => show_manufacturer code | _ => [] end.
Definition maker_plain (m : outcome application_layer_error manufacturer_code) : Prop := forallb plain (maker_text m) = true.
Definition short_bytes (h : short_tpl_header) : Prop := sh_status h < 256 /\ sh_configuration_field h < 65536.
Definition signature_text (h : N) : text := hex2 (h / 256) ++ hex2 (h mod 256).

Definition long_fields (h : long_tpl_header) : list (text * text) :=
  let maker := maker_text (lh_manufacturer h) in
  let medium := device_type_to_u8 (lh_device_type h) in
  let short := lh_short_tpl_header h in
  [ (txt "Id", dec (lh_identification_number h)); (txt "Manufacturer", maker); (txt "Version", dec (lh_version h));
    (txt "ProductName", blanked (product_name maker (lh_version h) medium (lh_identification_number h)));
    (txt "Medium", blanked (medium_lookup medium)); (txt "AccessNumber", dec (sh_access_number short));
    (txt "Status", hex2 (sh_status short)); (txt "Signature", signature_text (sh_configuration_field short)) ].

Ltac fields_step :=
  match goal with
  | |- shows_fields _ [_] => idtac
  | |- shows_fields _ (?a :: ?l) => change (a :: l) with ([a] ++ l); apply shows_fields_app
  end.
Ltac field_done :=
  match goal with
  | |- shows_fields (field _ (xml_encode _)) _ => apply field_encoded; reflexivity
  | |- shows_fields (field _ _) _ => apply field_plain; [reflexivity|]
  end.

Lemma signature_plain s : s < 65536 -> forallb plain (signature_text s) = true.
Proof.
  intros H. unfold signature_text. rewrite forallb_app, !hex2_plain; [reflexivity| |].
  - apply N.mod_lt. discriminate.
  - apply N.div_lt_upper_bound; lia.
Qed.

Definition long_info (h : long_tpl_header) : text :=
  let manufacturer := maker_text (lh_manufacturer h) in
  let medium := device_type_to_u8 (lh_device_type h) in
  let short := lh_short_tpl_header h in
  field (txt "Id") (dec (lh_identification_number h))
  ++ field (txt "Manufacturer") manufacturer
  ++ field (txt "Version") (dec (lh_version h))
  ++ field (txt "ProductName") (xml_encode (product_name manufacturer (lh_version h) medium (lh_identification_number h)))
  ++ field (txt "Medium") (xml_encode (medium_lookup medium))
  ++ field (txt "AccessNumber") (dec (sh_access_number short))
  ++ field (txt "Status") (hex2 (sh_status short))
  ++ field (txt "Signature") (signature_text (sh_configuration_field short)).
Lemma long_header_info h :
  render_variable_header h = line (txt "    <SlaveInformation>") ++ long_info h ++ line (txt "    </SlaveInformation>") ++ [10].
Proof. unfold render_variable_header, long_info, signature_text, maker_text. rewrite <- !app_assoc. reflexivity. Qed.
Lemma long_info_shown h : maker_plain (lh_manufacturer h) -> short_bytes (lh_short_tpl_header h) ->
  shows_fields (long_info h) (long_fields h).
Proof.
  intros Hm [Hs Hc]. unfold long_info, long_fields. cbv zeta.
  repeat fields_step; field_done; try apply dec_plain; try exact Hm; [apply hex2_plain; exact Hs|apply signature_plain; exact Hc].
Qed.

Lemma render_variable_shown cf powi h records :
  maker_plain (lh_manufacturer h) -> short_bytes (lh_short_tpl_header h) ->
  forall out, render_variable cf powi h records = Ok out ->
  exists body, render_records cf powi records = Ok body /\
    forall es, shows_records body es -> document out = Some (long_fields h, es).
Proof.
  intros Hm Hs out E. unfold render_variable in E. apply bind_ok in E. destruct E as (body & Eb & E). apply Ok_inj in E.
  exists body. split; [exact Eb|]. intros es S. subst out. rewrite long_header_info.
  apply document_shows; [apply long_info_shown; assumption|exact S].
Qed.

(** the meter of the link layer *)
Definition opt_fields (access status signature : option N) : list (text * text) :=
  match access with Some a => [(txt "AccessNumber", dec a)] | None => [] end
  ++ match status with Some s => [(txt "Status", hex2 s)] | None => [] end
  ++ match signature with Some s => [(txt "Signature", signature_text s)] | None => [] end.
Definition opt_bytes (status signature : option N) : Prop :=
  (forall s, status = Some s -> s < 256) /\ (forall s, signature = Some s -> s < 65536).
Definition link_fields (id : manufacturer_id) (access status signature : option N) : list (text * text) :=
  let maker := show_manufacturer (mi_manufacturer_code id) in
  let medium := device_type_to_u8 (mi_device_type id) in
  [ (txt "Id", dec (mi_identification_number id)); (txt "Manufacturer", maker); (txt "Version", dec (mi_version id));
    (txt "ProductName", blanked (product_name maker (mi_version id) medium (mi_identification_number id)));
    (txt "Medium", blanked (medium_lookup medium)) ] ++ opt_fields access status signature.
Definition link_info (id : manufacturer_id) (access status signature : option N) : text :=
  let manufacturer := show_manufacturer (mi_manufacturer_code id) in
  let medium := device_type_to_u8 (mi_device_type id) in
  field (txt "Id") (dec (mi_identification_number id))
  ++ field (txt "Manufacturer") manufacturer
  ++ field (txt "Version") (dec (mi_version id))
  ++ field (txt "ProductName") (xml_encode (product_name manufacturer (mi_version id) medium (mi_identification_number id)))
  ++ field (txt "Medium") (xml_encode (medium_lookup medium))
  ++ match access with Some a => field (txt "AccessNumber") (dec a) | None => [] end
  ++ match status with Some s => field (txt "Status") (hex2 s) | None => [] end
  ++ match signature with Some s => field (txt "Signature") (signature_text s) | None => [] end.
Definition code_plain (c : manufacturer_code) : Prop := forallb plain (show_manufacturer c) = true.
Lemma link_info_shown id access status signature : code_plain (mi_manufacturer_code id) -> opt_bytes status signature ->
  shows_fields (link_info id access status signature) (link_fields id access status signature).
Proof.
  intros Hm [Hs Hc]. unfold link_info, link_fields, opt_fields. cbv zeta. cbn [app].
  do 5 (fields_step; [field_done; try apply dec_plain; try exact Hm|]).
  apply shows_fields_app; [destruct access; [apply field_plain; [reflexivity|apply dec_plain]|apply shows_fields_nil]|].
  apply shows_fields_app.
  - destruct status; [apply field_plain; [reflexivity|apply hex2_plain; auto]|apply shows_fields_nil].
  - destruct signature; [apply field_plain; [reflexivity|apply signature_plain; auto]|apply shows_fields_nil].
Qed.
Lemma render_wireless_shown cf powi id access status signature records :
  code_plain (mi_manufacturer_code id) -> opt_bytes status signature ->
  forall out, render_wireless_variable cf powi id access status signature records = Ok out ->
  exists body, render_records cf powi records = Ok body /\
    forall es, shows_records body es -> document out = Some (link_fields id access status signature, es).
Proof.
  intros Hm Hs out E. unfold render_wireless_variable in E. apply bind_ok in E. destruct E as (body & Eb & E). apply Ok_inj in E.
  exists body. split; [exact Eb|]. intros es S. subst out.
  rewrite <- (document_shows (link_info id access status signature) _ body es (link_info_shown id access status signature Hm Hs) S).
  unfold link_info, signature_text. rewrite <- !app_assoc. reflexivity.
Qed.

(** the fixed data structure *)
Definition fixed_fields (id access status device_type_and_unit : N) : list (text * text) :=
  [ (txt "Id", dec id); (txt "Medium", blanked (fixed_medium (device_type_and_unit / 256) (device_type_and_unit mod 256)));
    (txt "AccessNumber", dec access); (txt "Status", hex2 status) ].
Definition counter_fields (status cnt_type counter : N) : list (text * text) :=
  [ (txt "Function", if negb (N.land status 0x40 =? 0) then txt "Stored value" else txt "Actual value");
    (txt "Unit", blanked (fixed_unit cnt_type)); (txt "Value", dec counter) ].
Lemma counter_shown status index cnt_type counter :
  shows_records (render_counter (if negb (N.land status 0x40 =? 0) then txt "Stored value" else txt "Actual value") index cnt_type counter)
    [(dec index, counter_fields status cnt_type counter)].
Proof.
  unfold render_counter. rewrite (app_assoc (field _ _)), (app_assoc (_ ++ _)). rewrite <- (app_assoc (field _ _)).
  apply record_shows; [apply dec_digits|]. unfold counter_fields.
  repeat fields_step; field_done; try apply dec_plain. destruct (negb _); reflexivity.
Qed.
Lemma fixed_shown id access status dtu c1 c2 : status < 256 ->
  document (render_fixed id access status dtu c1 c2) =
  Some (fixed_fields id access status dtu,
        [(txt "0", counter_fields status (dtu / 256) c1); (txt "1", counter_fields status (dtu mod 256) c2)]).
Proof.
  intros Hs. unfold render_fixed.
  assert (I : shows_fields (field (txt "Id") (dec id)
     ++ field (txt "Medium") (xml_encode (fixed_medium (dtu / 256) (dtu mod 256)))
     ++ field (txt "AccessNumber") (dec access) ++ field (txt "Status") (hex2 status)) (fixed_fields id access status dtu)).
  { unfold fixed_fields. repeat fields_step; field_done; try apply dec_plain. apply hex2_plain. exact Hs. }
  assert (R : shows_records
     (render_counter (if negb (N.land status 0x40 =? 0) then txt "Stored value" else txt "Actual value") 0 (dtu / 256) c1
      ++ render_counter (if negb (N.land status 0x40 =? 0) then txt "Stored value" else txt "Actual value") 1 (dtu mod 256) c2)
     [(txt "0", counter_fields status (dtu / 256) c1); (txt "1", counter_fields status (dtu mod 256) c2)]).
  { change [(txt "0", counter_fields status (dtu / 256) c1); (txt "1", counter_fields status (dtu mod 256) c2)]
      with ([(dec 0, counter_fields status (dtu / 256) c1)] ++ [(dec 1, counter_fields status (dtu mod 256) c2)]).
    apply shows_records_app; apply counter_shown. }
  rewrite <- (document_shows _ _ _ _ I R). rewrite <- !app_assoc. reflexivity.
Qed.
