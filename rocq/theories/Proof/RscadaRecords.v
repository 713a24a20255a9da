(** Lemmas about the data records in the libmbus XML. *)
From Coq Require Import Lia String.
From Verif Require Import Model.Base Model.Text Model.Core Model.F64 Model.DataInfo Model.ValueInfo Model.Record Model.Show Model.Output Model.Rscada
  Spec.EscapeSpec Spec.TextSpec Spec.CoreSpec Spec.RecordSpec Spec.AppSpec Spec.XmlSpec Spec.RscadaSpec
  Proof.BaseFacts Proof.CoreFacts Proof.ShowFacts Proof.RecordFacts Proof.HeaderFacts Proof.HeaderProps Proof.XmlFacts Proof.RscadaFacts.

(** *** Numbers spread over the extensions *)
Lemma storage_loop_digits difes : forall k n, bytes_ok difes -> n < 2 ^ k ->
  storage_loop difes k n = n + 2 ^ k * digits 16 (fun b => b mod 16) difes.
Proof.
  induction difes as [|b difes IH]; intros k n B H; cbn [storage_loop digits]; [lia|].
  apply bytes_ok_cons in B as [Hb B]. rewrite land_15, lor_shift by exact H.
  assert (b mod 16 < 16) by lia.
  rewrite IH; [|exact B|rewrite N.pow_add_r; change (2 ^ 4) with 16; nia].
  rewrite N.pow_add_r. change (2 ^ 4) with 16. nia.
Qed.
Lemma tariff_loop_digits difes : forall k n, bytes_ok difes -> n < 2 ^ k ->
  tariff_loop difes k n = n + 2 ^ k * en_tariff difes.
Proof.
  unfold en_tariff. induction difes as [|b difes IH]; intros k n B H; cbn [tariff_loop digits]; [lia|].
  apply bytes_ok_cons in B as [Hb B]. rewrite (proj1 (dife_fields b Hb)), lor_shift by exact H.
  assert ((b / 16) mod 4 < 4) by lia.
  rewrite IH; [|exact B|rewrite N.pow_add_r; change (2 ^ 2) with 4; nia].
  rewrite N.pow_add_r. change (2 ^ 2) with 4. nia.
Qed.
Lemma device_loop_digits difes : forall k n, bytes_ok difes -> n < 2 ^ k ->
  device_loop difes k n = n + 2 ^ k * en_subunit difes.
Proof.
  unfold en_subunit. induction difes as [|b difes IH]; intros k n B H; cbn [device_loop digits]; [lia|].
  apply bytes_ok_cons in B as [Hb B]. rewrite (proj2 (dife_fields b Hb)), lor_shift by exact H.
  assert ((b / 64) mod 2 < 2) by lia.
  rewrite IH; [|exact B|rewrite N.pow_add_r; change (2 ^ 1) with 2; nia].
  rewrite N.pow_add_r. change (2 ^ 1) with 2. nia.
Qed.
Lemma xml_storage dif difes : dif < 256 -> bytes_ok difes -> xml_storage_number dif difes = en_storage dif difes.
Proof.
  intros Hd B. unfold xml_storage_number, en_storage. rewrite (proj2 (dife_fields dif Hd)).
  rewrite storage_loop_digits; [reflexivity|exact B|]. change (2 ^ 1) with 2. lia.
Qed.
Lemma xml_tariff_digits difes : bytes_ok difes -> xml_tariff difes = en_tariff difes.
Proof. intros B. unfold xml_tariff. rewrite tariff_loop_digits by (auto; reflexivity). change (2 ^ 0) with 1. lia. Qed.
Lemma xml_device_digits difes : bytes_ok difes -> xml_device difes = en_subunit difes.
Proof. intros B. unfold xml_device. rewrite device_loop_digits by (auto; reflexivity). change (2 ^ 0) with 1. lia. Qed.

(** *** The header of a record that was read *)
Lemma header_dib cf data h : header_try_from cf data = Ok h ->
  exists di di0, dib_try_from data = Ok (rh_dib (drh_raw h)) /\ ph_data_information (drh_processed h) = Some di /\
    data_information_try_from (rh_dib (drh_raw h)) = Ok di0 /\
    di_storage_number di = di_storage_number di0 /\ di_tariff di = di_tariff di0 /\ di_device di = di_device di0 /\
    di_function_field di = di_function_field di0.
Proof.
  intros H. unfold header_try_from in H. apply bind_ok in H as (raw & Hr & H). apply bind_ok in H as (ph & Hp & H).
  apply Ok_inj in H. subst h. cbn [drh_raw drh_processed].
  assert (D : dib_try_from data = Ok (rh_dib raw)).
  { unfold raw_header_try_from in Hr. apply bind_ok in Hr as (db & Hd & Hr). unfold from_die in Hd. apply map_err_ok in Hd.
    destruct (negb _); [|apply Ok_inj in Hr; subst raw; exact Hd].
    apply bind_ok in Hr as (rest & _ & Hr). apply bind_ok in Hr as (vb & _ & Hr). apply Ok_inj in Hr. subst raw. exact Hd. }
  unfold processed_header_try_from in Hp. destruct (rh_vib raw) as [v|] eqn:Ev.
  - apply bind_ok in Hp as (vi & _ & Hp). apply bind_ok in Hp as (di0 & Hd & Hp). unfold from_die in Hd. apply map_err_ok in Hd.
    apply Ok_inj in Hp. subst ph. cbn [ph_data_information].
    exists (override_coding vi di0), di0. split; [exact D|]. split; [reflexivity|]. split; [exact Hd|].
    unfold override_coding. destruct (has_label _ _); [auto|]. destruct (has_label _ _); [auto|].
    destruct (has_label _ _); [auto|]. destruct (has_label _ _); auto.
  - destruct (is_special_function (dib_dif (rh_dib raw))) eqn:Es.
    + apply bind_ok in Hp as (di0 & Hd & Hp). unfold from_die in Hd. apply map_err_ok in Hd.
      apply Ok_inj in Hp. subst ph. exists di0, di0. auto 10.
    + exfalso. unfold raw_header_try_from in Hr. apply bind_ok in Hr as (db & Hd & Hr).
      destruct (negb (is_special_function (dib_dif db))) eqn:En.
      * apply bind_ok in Hr as (rest & _ & Hr). apply bind_ok in Hr as (vb & _ & Hr). apply Ok_inj in Hr. subst raw. discriminate Ev.
      * apply Ok_inj in Hr. subst raw. cbn [rh_dib] in Es. rewrite Es in En. discriminate En.
Qed.
Definition difes_of (h : data_record_header) : list N :=
  match dib_difes (rh_dib (drh_raw h)) with Some l => l | None => [] end.
Lemma record_dib cf data hdr r : bytes_ok data -> data_record_parse cf data hdr = Ok r ->
  let b := rh_dib (drh_raw (dr_header r)) in
  bytes_ok (dib_dif b :: difes_of (dr_header r)) /\
  exists di, ph_data_information (drh_processed (dr_header r)) = Some di /\
    di_storage_number di = (dib_dif b / 64) mod 2 + 32 * digits 16 (fun x => x mod 16) (difes_of (dr_header r)) /\
    di_tariff di = en_tariff (difes_of (dr_header r)) /\ di_device di = en_subunit (difes_of (dr_header r)) /\
    di_function_field di = function_field_of (dib_dif b).
Proof.
  intros B H. destruct (record_split _ _ _ _ H) as (p & rest & di' & _ & _ & Hh & _).
  destruct (header_dib _ _ _ Hh) as (di & di0 & Hd & Hi & Hi0 & E1 & E2 & E3 & E4). cbv zeta.
  assert (K : bytes_ok (dib_dif (rh_dib (drh_raw (dr_header r))) :: difes_of (dr_header r)) /\
              match dib_difes (rh_dib (drh_raw (dr_header r))) with Some l => len l <= 11 | None => True end).
  { unfold difes_of. destruct (proj1 (dib_accepts _ _ B) Hd) as [(dif & rest' & -> & _ & ->)|(dif & difes & rest' & -> & _ & _ & L & ->)]; cbn [dib_dif dib_difes].
    - apply bytes_ok_cons in B as [B _]. split; [|exact I]. apply bytes_ok_cons. split; [exact B|constructor].
    - split; [|exact L]. change (dif :: difes ++ rest') with ((dif :: difes) ++ rest') in B. apply bytes_ok_app in B. tauto. }
  destruct K as [K1 K2]. split; [exact K1|]. exists di. split; [exact Hi|].
  unfold difes_of in K1. destruct (data_information_fields _ K1 K2) as (di1 & Hi1 & F1 & F2 & F3 & _). rewrite Hi0 in Hi1. apply Ok_inj in Hi1. subst di1.
  unfold difes_of. rewrite E1, E2, E3, E4. repeat split; try assumption.
  unfold data_information_try_from in Hi0. apply bind_ok in Hi0 as (((((s & t) & d) & x) & ix) & _ & Hi0).
  apply Ok_inj in Hi0. subst di0. reflexivity.
Qed.

Lemma record_numbers powi r n : normalize_record powi r = Some n ->
  nr_storage_number n = xml_storage_number (dib_dif (rh_dib (drh_raw (dr_header r)))) (difes_of (dr_header r)) /\
  nr_tariff n = match difes_of (dr_header r) with [] => None | _ => Some (xml_tariff (difes_of (dr_header r))) end /\
  nr_device n = xml_device (difes_of (dr_header r)).
Proof.
  unfold normalize_record. fold (difes_of (dr_header r)).
  set (dif := dib_dif (rh_dib (drh_raw (dr_header r)))).
  destruct ((dif =? 0x0F) || (dif =? 0x1F)).
  - intros [= <-]. auto.
  - destruct (rh_vib _) as [vib|]; [|discriminate].
    destruct (variable_value_decode _ _ _ _) as [[x|s]|]; [..|discriminate];
      destruct (vib_unit_normalize _ _ _ _ _) as [[[u y] q]|]; try discriminate; intros [= <-]; auto.
Qed.
Lemma digits_zero difes : digits 16 (fun b => b mod 16) difes = 0 <-> Forall (fun b => b mod 16 = 0) difes.
Proof.
  induction difes as [|b l IH]; cbn [digits]; [split; [constructor|reflexivity]|]. split; intros H.
  - constructor; [lia|]. apply IH. lia.
  - inversion H; subst. apply IH in H3. lia.
Qed.

Lemma lookup_here name v l : lookup name ((name, v) :: l) = Some v.
Proof. unfold lookup. cbn [find fst]. unfold same_text. destruct (list_eq_dec _ name name); [reflexivity|congruence]. Qed.
Ltac look := unfold lookup; cbn [app find fst];
  repeat match goal with |- context [same_text ?a ?b] => let v := eval vm_compute in (same_text a b) in change (same_text a b) with v; cbn iota end.

(** the numbers of a record shown *)
Lemma xml_numbers cf data hdr r powi i id fields :
  bytes_ok data -> data_record_parse cf data hdr = Ok r -> record_element (render_variable_record powi i r) = Some (id, fields) ->
  fields <> [] ->
  exists di, ph_data_information (drh_processed (dr_header r)) = Some di /\
  let dif := dib_dif (rh_dib (drh_raw (dr_header r))) in
  let difes := match dib_difes (rh_dib (drh_raw (dr_header r))) with Some l => l | None => [] end in
  (exists t, lookup (txt "StorageNumber") fields = Some t /\ written t (en_storage dif difes)) /\
  (difes = [] -> lookup (txt "Tariff") fields = None /\ lookup (txt "Device") fields = None /\ di_tariff di = 0 /\ di_device di = 0) /\
  (difes <> [] -> exists t d, lookup (txt "Tariff") fields = Some t /\ lookup (txt "Device") fields = Some d /\
     written t (di_tariff di) /\ written d (di_device di)) /\
  di_tariff di = en_tariff difes /\ di_device di = en_subunit difes /\
  (di_storage_number di = en_storage dif difes <-> Forall (fun b => b mod 16 = 0) difes).
Proof.
  intros B H E Hf. rewrite record_element_fields in E. injection E as _ <-.
  destruct (record_dib _ _ _ _ B H) as (K & di & Hi & S1 & S2 & S3 & _). exists di. split; [exact Hi|]. cbv zeta.
  change (match dib_difes (rh_dib (drh_raw (dr_header r))) with Some l => l | None => [] end) with (difes_of (dr_header r)).
  set (difes := difes_of (dr_header r)) in *. set (dif := dib_dif (rh_dib (drh_raw (dr_header r)))) in *.
  apply bytes_ok_cons in K as [K1 K2]. unfold record_fields in *.
  destruct (normalize_record powi r) as [n|] eqn:En; [|congruence]. clear Hf.
  destruct (record_numbers _ _ _ En) as (N1 & N2 & N3). fold dif difes in N1, N2, N3.
  rewrite (xml_storage _ _ K1 K2) in N1. rewrite (xml_tariff_digits _ K2) in N2. rewrite (xml_device_digits _ K2) in N3.
  rewrite N1, N2, N3, S1, S2, S3.
  repeat split.
  - exists (dec (en_storage dif difes)). split; [look; reflexivity|apply dec_written].
  - rewrite H0. look. reflexivity.
  - rewrite H0. look. reflexivity.
  - rewrite H0. reflexivity.
  - rewrite H0. reflexivity.
  - intros Hn. destruct difes as [|b l] eqn:Ed; [congruence|]. rewrite <- Ed in *. do 2 eexists.
    split; [look; reflexivity|]. split; [look; reflexivity|]. split; apply dec_written.
  - unfold en_storage. intros Hs. apply digits_zero. lia.
  - intros Hs. apply digits_zero in Hs. unfold en_storage. lia.
Qed.

(** the function of the value *)
Lemma function_text dif : dif < 256 -> function_name (dif / 16 mod 4) (function_field_of dif) (function_string dif).
Proof.
  intros H. assert (K : (let f := N.land dif 0x30 in f = 16 * (dif / 16 mod 4)) /\ N.shiftr (N.land dif 0x30) 4 = dif / 16 mod 4).
  { split; [|apply dife_fields; exact H]. cbv zeta. apply N.eqb_eq.
    exact (sweep256 (fun b => N.land b 0x30 =? 16 * (b / 16 mod 4)) eq_refl dif H). }
  destruct K as [K1 K2]. unfold function_field_of, function_string. rewrite K2. cbv zeta in *. rewrite K1.
  assert (L : dif / 16 mod 4 < 4) by lia. revert L. generalize (dif / 16 mod 4). intros f L.
  assert (D : f = 0 \/ f = 1 \/ f = 2 \/ f = 3) by lia. destruct D as [->|[->|[->| ->]]]; constructor.
Qed.
Lemma function_plain f k t : function_name f k t -> blanked t = t.
Proof. intros []; reflexivity. Qed.
Lemma xml_function cf data hdr r powi i id fields :
  bytes_ok data -> data_record_parse cf data hdr = Ok r -> record_element (render_variable_record powi i r) = Some (id, fields) ->
  fields <> [] ->
  exists di t, ph_data_information (drh_processed (dr_header r)) = Some di /\ lookup (txt "Function") fields = Some t /\
  let dif := dib_dif (rh_dib (drh_raw (dr_header r))) in
  (dif = 0x0F -> t = txt "Manufacturer specific") /\ (dif = 0x1F -> t = txt "More records follow") /\
  (dif <> 0x0F -> dif <> 0x1F -> function_name (dif / 16 mod 4) (di_function_field di) t).
Proof.
  intros B H E Hf. rewrite record_element_fields in E. injection E as _ <-.
  destruct (record_dib _ _ _ _ B H) as (K & di & Hi & _ & _ & _ & S4).
  apply bytes_ok_cons in K as [K _]. set (dif := dib_dif (rh_dib (drh_raw (dr_header r)))) in *.
  unfold record_fields in *. destruct (normalize_record powi r) as [n|] eqn:En; [|congruence]. clear Hf.
  exists di, (blanked (nr_function n)). split; [exact Hi|]. split; [look; reflexivity|]. cbv zeta. rewrite S4.
  assert (F : nr_function n = if (dif =? 0x0F) || (dif =? 0x1F) then
      if dif =? 0x1F then txt "More records follow" else txt "Manufacturer specific" else function_string dif).
  { clear -En. unfold normalize_record in En. fold dif in En. destruct ((dif =? 0x0F) || (dif =? 0x1F)).
    - injection En as <-. reflexivity.
    - destruct (rh_vib _) as [vib|]; [|discriminate].
      destruct (variable_value_decode _ _ _ _) as [[x|s]|]; [..|discriminate];
        destruct (vib_unit_normalize _ _ _ _ _) as [[[u y] q]|]; try discriminate; injection En as <-; reflexivity. }
  rewrite F. repeat split.
  - intros ->. reflexivity.
  - intros ->. reflexivity.
  - intros H1 H2. apply N.eqb_neq in H1, H2. rewrite H1, H2. cbn [orb].
    pose proof (function_text dif K) as T. rewrite (function_plain _ _ _ T). exact T.
Qed.
