(** Dates and the conversion of the iterator into a vector. *)
From Verif Require Import Proof.BaseFacts Proof.CoreFacts Model.Core Model.F64 Model.DataInfo Model.ValueInfo
  Model.Record Spec.RecordSpec Proof.RecordFacts Proof.IterFacts Proof.HeaderFacts Proof.HeaderProps.

Lemma collect_result_cases items :
  (exists rs, items = map Ok rs /\ collect_result items = Ok rs) \/
  (exists rs e post, items = map Ok rs ++ Err e :: post /\ collect_result items = Err e) \/
  (exists rs p post, items = map Ok rs ++ Panic p :: post /\ collect_result items = Panic p).
Proof.
  induction items as [|[r|e|p] items IH]; cbn [collect_result bind].
  - left; exists []; auto.
  - destruct IH as [(rs & -> & ->)|[(rs & e & post & -> & ->)|(rs & p & post & -> & ->)]].
    + left; exists (r :: rs); auto.
    + right; left; exists (r :: rs), e, post; auto.
    + right; right; exists (r :: rs), p, post; auto.
  - right; left; exists [], e, items; auto.
  - right; right; exists [], p, items; auto.
Qed.

Lemma vec_all_or_nothing cf data hdr items :
  records_all cf data hdr = Some items ->
  (exists rs, items = map Ok rs /\ records_to_vec cf data hdr = Some (Ok rs)) \/
  (exists rs e, items = map Ok rs ++ [Err e] /\ records_to_vec cf data hdr = Some (Ok [])) \/
  (exists rs p, items = map Ok rs ++ [Panic p] /\ records_to_vec cf data hdr = Some (Panic p)).
Proof.
  intros H; unfold records_to_vec; rewrite H.
  destruct (collect_result_cases items) as [(rs & E & ->)|[(rs & e & post & E & ->)|(rs & p & post & E & ->)]].
  - left; exists rs; auto.
  - right; left. exists rs, e. subst items.
    apply error_is_last in H; destruct H as [-> _]. auto.
  - right; right. exists rs, p. subst items.
    assert (post = []); [|subst; auto].
    apply records_all_iff in H. remember (map Ok rs ++ Panic p :: post) as l eqn:El. revert rs El.
    induction H as [|b rest l Hs _ IH|b t r rest l Hs Hp Hd _ IH|b t e Hs Hp|b t q Hs Hp]; intros rs El.
    + destruct rs; discriminate.
    + eapply IH; eassumption.
    + destruct rs as [|x rs]; [discriminate|]. injection El as _ El. eapply IH; eassumption.
    + destruct rs as [|x [|y rs]]; discriminate.
    + destruct rs as [|x [|y rs]]; try discriminate. injection El as _ E; congruence.
Qed.

(** *** Dates *)
Lemma year_bits b0 b1 : b0 < 256 -> b1 < 256 ->
  N.lor (N.shiftr (N.land b1 0xF0) 1) (N.shiftr (N.land b0 0xE0) 5) = g_year b0 b1.
Proof.
  intros H0 H1. unfold g_year.
  assert (E1 : N.shiftr (N.land b1 0xF0) 1 = N.shiftl (b1 / 16) 3).
  { apply N.eqb_eq. exact (sweep256 (fun b => N.shiftr (N.land b 0xF0) 1 =? N.shiftl (b / 16) 3) eq_refl b1 H1). }
  assert (E0 : N.shiftr (N.land b0 0xE0) 5 = b0 / 32).
  { apply N.eqb_eq. exact (sweep256 (fun b => N.shiftr (N.land b 0xE0) 5 =? b / 32) eq_refl b0 H0). }
  rewrite E1, E0, N.lor_comm, lor_shift by (change (2 ^ 3) with 8; lia). change (2 ^ 3) with 8. lia.
Qed.

Lemma month_bits b : b < 256 -> parse_month b = month_number (b mod 16).
Proof.
  intros H. pose proof (sweep256 (fun b => match parse_month b, month_number (b mod 16) with
     | Single a, Single a' => match a, a' with
         | January, January | February, February | March, March | April, April | May, May
         | June, June | July, July | August, August | September, September | October, October
         | November, November | December, December => true | _, _ => false end
     | Invalid, Invalid => true | _, _ => false end) eq_refl b H) as G.
  cbv beta in G. destruct (parse_month b) as [m| |], (month_number (b mod 16)) as [m'| |]; try discriminate; auto.
  destruct m, m'; discriminate || reflexivity.
Qed.

Lemma land_63 n : N.land n 63 = n mod 64.
Proof. change 63 with (N.ones 6). rewrite N.land_ones. reflexivity. Qed.

Lemma parse_year_spec b0 b1 rest : b0 < 256 -> b1 < 256 ->
  parse_year (b0 :: b1 :: rest) 0xF0 0xE0 0x7F = field_or_every 0x7F (g_year b0 b1).
Proof.
  intros H0 H1; unfold parse_year, field_or_every. change (get_or_0 (b0 :: b1 :: rest) 1) with b1.
  change (get_or_0 (b0 :: b1 :: rest) 0) with b0. rewrite year_bits by assumption. reflexivity.
Qed.

Ltac two_or_more input H :=
  destruct input as [|?b0 [|?b1 ?rest]]; try discriminate H.

Lemma type_g_parse cf input hdr d :
  bytes_ok input -> coding_parse cf CDateTypeG input hdr = Ok d ->
  exists b0 b1 rest, input = b0 :: b1 :: rest /\ d_size d = 2 /\
    d_value d = Some (Date (field_or_every 0 (b0 mod 32)) (month_number (b1 mod 16))
                           (field_or_every 0x7F (g_year b0 b1))).
Proof.
  intros Hb H. cbn [coding_parse] in H.
  destruct input as [|b0 [|b1 rest]]; try discriminate H.
  change (get (b0 :: b1 :: rest) 0) with (Some b0) in H; change (get (b0 :: b1 :: rest) 1) with (Some b1) in H.
  cbn [ok_or bind] in H. apply Ok_inj in H; subst d.
  exists b0, b1, rest; repeat split. cbn [d_value].
  apply bytes_ok_cons in Hb; destruct Hb as [H0 Hb]; apply bytes_ok_cons in Hb; destruct Hb as [H1 _].
  rewrite parse_year_spec, month_bits by assumption. unfold parse_single_or_every, field_or_every.
  change 0x1F with 31. rewrite land_31. reflexivity.
Qed.

Lemma type_f_parse cf input hdr d :
  bytes_ok input -> coding_parse cf CDateTimeTypeF input hdr = Ok d ->
  exists b0 b1 b2 b3 rest, input = b0 :: b1 :: b2 :: b3 :: rest /\ d_size d = 4 /\
    d_value d = Some (DateTime (field_or_every 31 (b2 mod 32)) (month_number (b3 mod 16))
                           (field_or_every 0x7F (g_year b0 b1))
                           (field_or_every 31 (b1 mod 32)) (field_or_every 63 (b0 mod 64))).
Proof.
  intros Hb H. cbn [coding_parse] in H.
  destruct input as [|b0 [|b1 [|b2 [|b3 rest]]]]; try discriminate H.
  set (l := b0 :: b1 :: b2 :: b3 :: rest) in *.
  change (get l 0) with (Some b0) in H; change (get l 1) with (Some b1) in H.
  change (get l 2) with (Some b2) in H; change (get l 3) with (Some b3) in H.
  cbn [ok_or bind] in H. apply Ok_inj in H; subst d.
  exists b0, b1, b2, b3, rest; repeat split. cbn [d_value].
  unfold l in *. apply bytes_ok_cons in Hb; destruct Hb as [H0 Hb]; apply bytes_ok_cons in Hb; destruct Hb as [H1 Hb].
  apply bytes_ok_cons in Hb; destruct Hb as [H2 Hb]; apply bytes_ok_cons in Hb; destruct Hb as [H3 _].
  rewrite parse_year_spec, month_bits by assumption. unfold parse_single_or_every, field_or_every.
  change 0x1F with 31; change 0x3F with 63. rewrite !land_31, land_63. reflexivity.
Qed.

Lemma type_i_parse cf input hdr d :
  bytes_ok input -> coding_parse cf CDateTimeTypeI input hdr = Ok d ->
  exists b0 b1 b2 b3 b4 rest, input = b0 :: b1 :: b2 :: b3 :: b4 :: rest /\ d_size d = 6 /\
    d_value d = Some (DateTimeWithSeconds (field_or_every 31 (b3 mod 32)) (month_number (b4 mod 16))
                           (field_or_every 0x7F (g_year b0 b1))
                           (field_or_every 31 (b2 mod 32)) (field_or_every 63 (b1 mod 64))
                           (field_or_every 63 (b0 mod 64))).
Proof.
  intros Hb H. cbn [coding_parse] in H.
  destruct input as [|b0 [|b1 [|b2 [|b3 [|b4 rest]]]]]; try discriminate H.
  set (l := b0 :: b1 :: b2 :: b3 :: b4 :: rest) in *.
  change (get l 0) with (Some b0) in H; change (get l 1) with (Some b1) in H.
  change (get l 2) with (Some b2) in H; change (get l 3) with (Some b3) in H; change (get l 4) with (Some b4) in H.
  cbn [ok_or bind] in H. apply Ok_inj in H; subst d.
  exists b0, b1, b2, b3, b4, rest; repeat split. cbn [d_value].
  unfold l in *. apply bytes_ok_cons in Hb; destruct Hb as [H0 Hb]; apply bytes_ok_cons in Hb; destruct Hb as [H1 Hb].
  apply bytes_ok_cons in Hb; destruct Hb as [H2 Hb]; apply bytes_ok_cons in Hb; destruct Hb as [H3 Hb].
  apply bytes_ok_cons in Hb; destruct Hb as [H4 _].
  rewrite parse_year_spec, month_bits by assumption. unfold parse_single_or_every, field_or_every.
  change 0x1F with 31; change 0x3F with 63. rewrite !land_31, !land_63. reflexivity.
Qed.

(** *** From coding to record *)

(** the data part of an accepted record *)
Lemma record_data cf data hdr r :
  data_record_parse cf data hdr = Ok r ->
  let raw := drh_raw (dr_header r) in
  exists head rest di,
    data = head ++ rest /\ len head = header_get_size (dr_header r) /\
    (exists t, head = dib_dif (rh_dib raw) :: t) /\
    header_try_from cf data = Ok (dr_header r) /\
    ph_data_information (drh_processed (dr_header r)) = Some di /\
    coding_parse cf (di_data_field_coding di) rest hdr = Ok (dr_data r) /\
    dr_raw_bytes r = head ++ firstn (N.to_nat (d_size (dr_data r))) rest.
Proof.
  cbv zeta. unfold data_record_parse; intros H. bind_inv H. rename a into h.
  destruct (len data <? header_get_size h) eqn:Hl; [discriminate|].
  pose proof (header_split _ _ _ Ha) as (head & rest & E & Hh & Ht & _).
  pose proof (header_has_information _ _ _ Ha) as (di & Hdi).
  bind_inv H. rename a into d. bind_inv H. rename a into raw. apply Ok_inj in H; subst r.
  cbn [dr_header dr_data dr_raw_bytes].
  rewrite Hdi in Ha0. rewrite E, (get_from_app_n head rest) in Ha0 by assumption. cbn [ok_or bind] in Ha0.
  exists head, rest, di. repeat split; try assumption.
  apply ok_or_ok in Ha1. apply get_to_ok in Ha1. destruct Ha1 as [_ ->].
  rewrite E. rewrite <- Hh. rewrite firstn_app.
  replace (firstn (N.to_nat (if len (head ++ rest) <? len head + d_size d then len (head ++ rest)
            else len head + d_size d)) head) with head.
  2:{ symmetry; apply firstn_all2. destruct (N.ltb_spec (len (head ++ rest)) (len head + d_size d)) as [Hx|Hx];
      rewrite ?len_app in *; unfold len in *; lia. }
  f_equal. destruct (N.ltb_spec (len (head ++ rest)) (len head + d_size d)) as [Hx|Hx]; rewrite len_app in *.
  - rewrite !firstn_all2; [reflexivity| |]; unfold len in *; lia.
  - f_equal. unfold len in *; lia.
Qed.

Lemma date_record cf data hdr r v :
  bytes_ok data -> data_record_parse cf data hdr = Ok r ->
  rh_vib (drh_raw (dr_header r)) = Some v -> vib_vif v mod 128 = 0x6C ->
  exists head b0 b1 rest,
    data = head ++ [b0; b1] ++ rest /\ dr_raw_bytes r = head ++ [b0; b1] /\
    len head = header_get_size (dr_header r) /\
    d_value (dr_data r) = Some (Date (field_or_every 0 (b0 mod 32)) (month_number (b1 mod 16))
                                     (field_or_every 0x7F (g_year b0 b1))).
Proof.
  intros Hb H Hv Hd. apply record_data in H. cbv zeta in H.
  destruct H as (head & rest & di & E & Hh & _ & Hhdr & Hdi & Hc & Hraw).
  pose proof (header_coding cf data _ di Hb Hhdr Hdi) as Hsel. cbv zeta in Hsel. rewrite Hv in Hsel.
  unfold selected in Hsel. rewrite land_127, Hd in Hsel. cbn [N.eqb Pos.eqb] in Hsel.
  rewrite Hsel in Hc. rewrite E in Hb. apply bytes_ok_app in Hb; destruct Hb as [_ Hb].
  apply type_g_parse in Hc; [|assumption]. destruct Hc as (b0 & b1 & rest' & -> & Hs & Hval).
  exists head, b0, b1, rest'. rewrite Hs in Hraw. repeat split; assumption.
Qed.

Lemma datetime_record cf data hdr r v :
  bytes_ok data -> data_record_parse cf data hdr = Ok r ->
  rh_vib (drh_raw (dr_header r)) = Some v -> vib_vif v mod 128 = 0x6D ->
  dib_dif (rh_dib (drh_raw (dr_header r))) mod 16 = 4 ->
  exists head b0 b1 b2 b3 rest,
    data = head ++ [b0; b1; b2; b3] ++ rest /\ dr_raw_bytes r = head ++ [b0; b1; b2; b3] /\
    len head = header_get_size (dr_header r) /\
    d_value (dr_data r) = Some (DateTime (field_or_every 31 (b2 mod 32)) (month_number (b3 mod 16))
                           (field_or_every 0x7F (g_year b0 b1))
                           (field_or_every 31 (b1 mod 32)) (field_or_every 63 (b0 mod 64))).
Proof.
  intros Hb H Hv Hd H4. apply record_data in H. cbv zeta in H.
  destruct H as (head & rest & di & E & Hh & _ & Hhdr & Hdi & Hc & Hraw).
  pose proof (header_coding cf data _ di Hb Hhdr Hdi) as Hsel. cbv zeta in Hsel. rewrite Hv in Hsel.
  unfold selected in Hsel. rewrite land_127, Hd in Hsel. cbn [N.eqb Pos.eqb] in Hsel.
  unfold data_field_coding_of in Hsel. cbv zeta in Hsel. rewrite land_15, H4 in Hsel. cbn [N.eqb Pos.eqb] in Hsel.
  rewrite Hsel in Hc. rewrite E in Hb. apply bytes_ok_app in Hb; destruct Hb as [_ Hb].
  apply type_f_parse in Hc; [|assumption]. destruct Hc as (b0 & b1 & b2 & b3 & rest' & -> & Hs & Hval).
  exists head, b0, b1, b2, b3, rest'. rewrite Hs in Hraw. repeat split; assumption.
Qed.

Lemma datetime48_record cf data hdr r v :
  bytes_ok data -> data_record_parse cf data hdr = Ok r ->
  rh_vib (drh_raw (dr_header r)) = Some v -> vib_vif v mod 128 = 0x6D ->
  dib_dif (rh_dib (drh_raw (dr_header r))) mod 16 = 6 ->
  exists head b0 b1 b2 b3 b4 rest,
    data = head ++ [b0; b1; b2; b3; b4] ++ rest /\
    dr_raw_bytes r = head ++ [b0; b1; b2; b3; b4] ++ firstn 1 rest /\
    len head = header_get_size (dr_header r) /\
    d_value (dr_data r) = Some (DateTimeWithSeconds (field_or_every 31 (b3 mod 32)) (month_number (b4 mod 16))
                           (field_or_every 0x7F (g_year b0 b1))
                           (field_or_every 31 (b2 mod 32)) (field_or_every 63 (b1 mod 64))
                           (field_or_every 63 (b0 mod 64))).
Proof.
  intros Hb H Hv Hd H4. apply record_data in H. cbv zeta in H.
  destruct H as (head & rest & di & E & Hh & _ & Hhdr & Hdi & Hc & Hraw).
  pose proof (header_coding cf data _ di Hb Hhdr Hdi) as Hsel. cbv zeta in Hsel. rewrite Hv in Hsel.
  unfold selected in Hsel. rewrite land_127, Hd in Hsel. cbn [N.eqb Pos.eqb] in Hsel.
  unfold data_field_coding_of in Hsel. cbv zeta in Hsel. rewrite land_15, H4 in Hsel. cbn [N.eqb Pos.eqb] in Hsel.
  rewrite Hsel in Hc. rewrite E in Hb. apply bytes_ok_app in Hb; destruct Hb as [_ Hb].
  apply type_i_parse in Hc; [|assumption]. destruct Hc as (b0 & b1 & b2 & b3 & b4 & rest' & -> & Hs & Hval).
  exists head, b0, b1, b2, b3, b4, rest'. rewrite Hs in Hraw. repeat split; assumption.
Qed.

(** *** A header of one DIF and one VIF *)
Lemma plain_dif_header cf dif vif v rest :
  dif < 128 -> dif mod 16 <> 15 -> vif < 128 -> vif <> 0x7C ->
  value_information_try_from {| vib_vif := vif; vib_vifes := None; vib_plaintext := None |} = Ok v ->
  exists d,
    data_information_try_from {| dib_dif := dif; dib_difes := None |} = Ok d /\
    di_data_field_coding d = data_field_coding_of dif /\
    header_try_from cf (dif :: vif :: rest) =
    Ok {| drh_raw := {| rh_dib := {| dib_dif := dif; dib_difes := None |};
                        rh_vib := Some {| vib_vif := vif; vib_vifes := None; vib_plaintext := None |} |};
          drh_processed := {| ph_data_information := Some (override_coding v d);
                              ph_value_information := Some v |} |}.
Proof.
  intros Hd Hs Hv H7 Hvi. eexists. split; [reflexivity|]. split; [reflexivity|].
  assert (He : has_extension dif = false) by (rewrite has_extension_spec; lia).
  assert (Hev : has_extension vif = false) by (rewrite has_extension_spec; lia).
  assert (Hsp : is_special_function dif = false).
  { destruct (is_special_function dif) eqn:S; [|reflexivity]. apply special_is_15 in S; contradiction. }
  assert (Ha : contains_ascii vif = false).
  { destruct (contains_ascii vif) eqn:C; [|reflexivity]. unfold contains_ascii in C; lia. }
  unfold header_try_from, raw_header_try_from. rewrite dib_plain by assumption. unfold from_die; cbn [map_err bind dib_dif]. rewrite Hsp; cbn [negb].
  change (dib_get_size {| dib_dif := dif; dib_difes := None |}) with 1.
  change (dif :: vif :: rest) with ([dif] ++ vif :: rest). rewrite (get_from_app_n [dif]) by reflexivity.
  cbn [ok_or bind]. unfold vib_try_from. change (get (vif :: rest) 0) with (Some vif). cbn [ok_or bind].
  rewrite Ha, Hev, andb_false_r. cbn [map_err bind].
  unfold processed_header_try_from; cbn [rh_vib rh_dib]. unfold from_die; rewrite Hvi. reflexivity.
Qed.

Lemma type_g_bytes d m y : d < 32 -> m < 16 -> y < 128 ->
  exists b0 b1, type_g d m y = [b0; b1] /\ b0 < 256 /\ b1 < 256 /\ b0 mod 32 = d /\ b1 mod 16 = m /\ g_year b0 b1 = y.
Proof.
  intros Hd Hm Hy. unfold type_g, g_year.
  set (q := y / 8). set (s := y mod 8).
  assert (y = 8 * q + s) by (apply N.div_mod; lia).
  assert (s < 8) by (apply N.mod_lt; lia). assert (q < 16) by (apply N.div_lt_upper_bound; lia).
  clearbody q s.
  exists (d + 32 * s), (m + 16 * q).
  replace ((d + 32 * s) mod 32) with d by (symmetry; rewrite N.mul_comm, N.mod_add, N.mod_small; lia).
  replace ((m + 16 * q) mod 16) with m by (symmetry; rewrite N.mul_comm, N.mod_add, N.mod_small; lia).
  replace ((d + 32 * s) / 32) with s by (symmetry; rewrite N.mul_comm, N.div_add, N.div_small; lia).
  replace ((m + 16 * q) / 16) with q by (symmetry; rewrite N.mul_comm, N.div_add, N.div_small; lia).
  repeat split; lia.
Qed.

Lemma type_g_record cf hdr dif day month year rest :
  dif < 128 -> dif mod 16 <> 15 -> day < 32 -> month < 16 -> year < 128 ->
  exists r, data_record_parse cf ([dif; 0x6C] ++ type_g day month year ++ rest) hdr = Ok r /\
    dr_raw_bytes r = [dif; 0x6C] ++ type_g day month year /\
    d_value (dr_data r) = Some (Date (field_or_every 0 day) (month_number month) (field_or_every 0x7F year)).
Proof.
  intros Hdif Hs Hd Hm Hy.
  destruct (type_g_bytes day month year Hd Hm Hy) as (b0 & b1 & -> & H0 & H1 & Ed & Em & Ey).
  destruct (plain_dif_header cf dif 0x6C _ ([b0; b1] ++ rest) Hdif Hs eq_refl ltac:(discriminate) eq_refl)
    as (d & _ & _ & Hh).
  unfold data_record_parse.
  change ([dif; 0x6C] ++ [b0; b1] ++ rest) with (dif :: 0x6C :: [b0; b1] ++ rest).
  rewrite Hh; cbn [bind].
  match goal with |- context [header_get_size ?h] => change (header_get_size h) with 2 end.
  cbv zeta.
  destruct (N.ltb_spec (len (dif :: 0x6C :: [b0; b1] ++ rest)) 2) as [Hx|_];
    [rewrite !len_cons in Hx; lia|].
  cbn [drh_processed ph_data_information].
  change (dif :: 0x6C :: [b0; b1] ++ rest) with ([dif; 0x6C] ++ [b0; b1] ++ rest).
  rewrite (get_from_app_n [dif; 0x6C]) by reflexivity. cbn [ok_or bind].
  match goal with |- context [di_data_field_coding (override_coding ?v ?d)] =>
    change (di_data_field_coding (override_coding v d)) with CDateTypeG end.
  cbn [coding_parse].
  change (get ([b0; b1] ++ rest) 0) with (Some b0). change (get ([b0; b1] ++ rest) 1) with (Some b1).
  cbn [ok_or bind d_size].
  destruct (N.ltb_spec (len ([dif; 0x6C] ++ [b0; b1] ++ rest)) (2 + 2)) as [Hx|_];
    [rewrite !len_app in Hx; unfold len in Hx; cbn [length] in Hx; lia|].
  rewrite app_assoc, (get_to_app_n ([dif; 0x6C] ++ [b0; b1])) by reflexivity. cbn [ok_or bind].
  eexists; split; [reflexivity|]. cbn [dr_raw_bytes dr_data d_value]. split; [reflexivity|].
  change ([b0; b1] ++ rest) with (b0 :: b1 :: rest).
  rewrite parse_year_spec, month_bits, Ey, Em by assumption.
  unfold parse_single_or_every, field_or_every. change 0x1F with 31. rewrite land_31, Ed. reflexivity.
Qed.
