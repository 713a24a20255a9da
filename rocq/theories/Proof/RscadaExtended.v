(** Records with a code of an extension table in the libmbus XML. *)
From Coq Require Import List NArith ZArith QArith Lia Bool String.
Import ListNotations.
From Verif Require Import Model.Base Model.Text Model.Core Model.F64 Model.DataInfo Model.ValueInfo Model.Record Model.Show Model.Output Model.Rscada
  Spec.EscapeSpec Spec.TextSpec Spec.FloatSpec Spec.RecordSpec Spec.VifSpec Spec.VifeSpec Spec.XmlSpec Spec.RscadaSpec Spec.XmlVifSpec
  Proof.BaseFacts Proof.CoreFacts Proof.FloatFacts Proof.NumberFacts Proof.DecimalFacts Proof.ScaledFacts Proof.ShowFacts
  Proof.RecordFacts Proof.HeaderFacts Proof.HeaderProps Proof.NumberProps Proof.OutputValues Proof.VifFacts Proof.VifeFacts Proof.XmlFacts Proof.RscadaFacts Proof.RscadaRecords
  Proof.RscadaValues Proof.AnnotateProps Proof.OutputProps Proof.DetailRecords Proof.RscadaProps.
Open Scope N_scope.
Open Scope list_scope.

(** ** the header *)
Lemma chained_header cf dif difes bytes rest hdr r :
  bytes_ok ((dif :: difes) ++ bytes ++ rest) -> dif_chain dif (dif :: difes) -> chained bytes -> contains_ascii (hd 0 bytes) = false -> len bytes <= 11 ->
  data_record_parse cf ((dif :: difes) ++ bytes ++ rest) hdr = Ok r ->
  header_of cf ((dif :: difes) ++ bytes) rest (dr_header r) dif (hd 0 bytes) /\
  rh_vib (drh_raw (dr_header r)) = Some (block bytes).
Proof.
  intros B C Ch A L H.
  pose proof H as P. apply record_split in P as (p & rr & di0 & _ & _ & Hh & _).
  pose proof Hh as Hh'. apply header_dib in Hh' as (di' & _ & Hb & _).
  destruct (dif_chain_block _ _ _ _ B C Hb) as [E1 E2].
  assert (V : rh_vib (drh_raw (dr_header r)) = Some (block bytes) /\ dib_get_size (rh_dib (drh_raw (dr_header r))) = len (dif :: difes)).
  { pose proof Hh as H2. unfold header_try_from in H2. apply bind_ok in H2 as (raw & Hr & H2). apply bind_ok in H2 as (pr & _ & H2). apply Ok_inj in H2.
    rewrite <- H2 in *. cbn [drh_raw] in *. unfold raw_header_try_from, from_die in Hr. rewrite Hb in Hr. cbn [map_err bind] in Hr.
    assert (Sp : is_special_function (dib_dif (rh_dib raw)) = false).
    { rewrite E1. unfold is_special_function. rewrite land_15. apply N.eqb_neq. apply C. }
    rewrite Sp in Hr. cbn [negb] in Hr. apply bind_ok in Hr as (rst & Hg & Hr). apply ok_or_ok in Hg.
    assert (Sz : dib_get_size (rh_dib raw) = len (dif :: difes)).
    { unfold dib_get_size. rewrite len_cons. rewrite <- E2. destruct (dib_difes (rh_dib raw)); cbn; lia. }
    rewrite Sz, get_from_app in Hg. injection Hg as <-. apply bind_ok in Hr as (v & Hv & Hr). apply map_err_ok in Hv.
    rewrite (block_read cf bytes rest Ch L A) in Hv. apply Ok_inj in Hv. subst v.
    apply Ok_inj in Hr. rewrite <- Hr in Sz |- *. split; [reflexivity|exact Sz]. }
  destruct V as [V Sz]. split; [|exact V].
  split; [rewrite <- app_assoc; exact B|]. split; [rewrite <- app_assoc; exact Hh|]. split; [|split; [exact E1|exists (block bytes); auto]].
  unfold header_get_size. rewrite V, Sz. rewrite len_app. f_equal. destruct bytes as [|b [|b' l]]; [contradiction| |]; unfold vib_get_size; cbn [block hd tl vib_vifes vib_plaintext]; rewrite ?len_cons; change (len (@nil N)) with 0; lia.
Qed.

(** ** the table *)
Definition row_codes (r : ext_row) : list N := map N.of_nat (seq 0 (N.to_nat (xr_count r))).
Definition otherwise (vif code : N) : bool := (vif =? 0xFB) && existsb (N.eqb code) [0x08; 0x09; 0x30; 0x31; 0x79].
Definition pair_eqb (a b : Z * Z) : bool := (fst a =? fst b)%Z && (snd a =? snd b)%Z.
Definition row_found (r : ext_row) (n : N) : bool :=
  let code := xr_first r + n in
  (code <? 0x80) && (((xr_table r =? 0xFD) && negb (code =? 0x30) && negb (code =? 0x70)) || (xr_table r =? 0xFB)) &&
  (otherwise (xr_table r) code ||
   match find (fun entry => let '(vif, _, _, _) := entry in vif =? N.lor (N.land code 0x7F) (if xr_table r =? 0xFD then 0x100 else 0x200)) vif_table with
   | Some (_, me, unit_text, quantity) =>
       pair_eqb me (xr_seconds r, xml_scale r n) && same_text unit_text (xr_unit r) && same_text quantity (xr_quantity r)
   | None => false
   end) &&
  same_text (blanked (xr_unit r)) (xr_unit r) && same_text (blanked (xr_quantity r)) (xr_quantity r) &&
  (0 <? xr_seconds r)%Z && (xr_seconds r <=? 86400)%Z && ((xml_scale r n <=? 7)%Z || otherwise (xr_table r) code) && ((xml_scale r n =? 0)%Z || (xr_seconds r =? 1)%Z).
Lemma rows_found : forallb (fun r => forallb (row_found r) (row_codes r)) ext_rows = true.
Proof. vm_compute. reflexivity. Qed.
Lemma otherwise_not vif code : ~ shown_otherwise vif code -> otherwise vif code = false.
Proof.
  intros H. unfold otherwise. destruct (vif =? 0xFB) eqn:E; [|reflexivity]. apply N.eqb_eq in E. cbn [andb].
  destruct (existsb (N.eqb code) [0x08; 0x09; 0x30; 0x31; 0x79]) eqn:K; [|reflexivity]. exfalso. apply H. split; [exact E|].
  apply existsb_exists in K as (c & K1 & K2). apply N.eqb_eq in K2. now subst c.
Qed.
Lemma row_after vif code r n : after vif code r n -> ~ shown_otherwise vif code ->
  code < 0x80 /\ (vif = 0xFD /\ code <> 0x30 /\ code <> 0x70 \/ vif = 0xFB) /\
  (forall powi custom x, vib_unit_normalize powi vif [code] custom x =
     Some (xr_unit r, f64_mul x (f64_literal (xr_seconds r) (xml_scale r n)), xr_quantity r)) /\
  blanked (xr_unit r) = xr_unit r /\ blanked (xr_quantity r) = xr_quantity r /\
  (0 < xr_seconds r <= 86400)%Z /\ (xml_scale r n <= 7)%Z /\ (xml_scale r n <> 0 -> xr_seconds r = 1)%Z.
Proof.
  intros (Hi & Hn & -> & ->) Ho. apply otherwise_not in Ho.
  pose proof rows_found as F. rewrite forallb_forall in F. specialize (F r Hi). cbn beta in F. rewrite forallb_forall in F.
  assert (K : In n (row_codes r)). { apply in_map_iff. exists (N.to_nat n). split; [lia|]. apply in_seq. lia. }
  specialize (F n K). unfold row_found in F. cbv zeta in F. rewrite Ho in F. cbn [orb] in F. rewrite orb_false_r in F.
  rewrite !andb_true_iff in F. destruct F as ((((((((F1 & F2) & F3) & F4) & F5) & F6) & F7) & F8) & F9).
  apply N.ltb_lt in F1. apply same_text_true in F4, F5. apply Z.ltb_lt in F6. apply Z.leb_le in F7, F8.
  assert (T : xr_table r = 0xFD /\ xr_first r + n <> 0x30 /\ xr_first r + n <> 0x70 \/ xr_table r = 0xFB).
  { apply orb_true_iff in F2 as [F2|F2]; [left|right; now apply N.eqb_eq]. rewrite !andb_true_iff, !negb_true_iff in F2.
    destruct F2 as ((A & B) & C). apply N.eqb_eq in A. apply N.eqb_neq in B, C. auto. }
  split; [exact F1|]. split; [exact T|]. split; [|repeat split; try assumption; try lia].
  intros powi custom x. unfold vib_unit_normalize.
  assert (M : forall t, In t [0x100; 0x200] -> N.land (N.lor (N.land (xr_first r + n) 0x7F) t) 0xF7F = N.lor (N.land (xr_first r + n) 0x7F) t).
  { intros t Ht. rewrite N.land_lor_distr_l, <- N.land_assoc. destruct Ht as [<-|[<-|[]]]; reflexivity. }
  destruct T as [(E & _)|E]; rewrite E in F3 |- *.
  - change (0xFD =? 0xFD) with true in *. cbv iota in *. unfold vif_unit_normalize. rewrite M by (cbn; auto).
      destruct (find _ vif_table) as [[[[k [m e]] u] q]|]; [|discriminate F3].
      rewrite !andb_true_iff in F3. destruct F3 as ((P & U) & Q). apply same_text_true in U, Q. unfold pair_eqb in P. cbn [fst snd] in P.
      apply andb_true_iff in P as [P1 P2]. apply Z.eqb_eq in P1, P2. subst. rewrite andb_false_r. reflexivity.
  - change (0xFB =? 0xFD) with false in *. change (0xFB =? 0xFB) with true in *. cbv iota in *. unfold vif_unit_normalize. rewrite M by (cbn; auto).
      destruct (find _ vif_table) as [[[[k [m e]] u] q]|]; [|discriminate F3].
      rewrite !andb_true_iff in F3. destruct F3 as ((P & U) & Q). apply same_text_true in U, Q. unfold pair_eqb in P. cbn [fst snd] in P.
      apply andb_true_iff in P as [P1 P2]. apply Z.eqb_eq in P1, P2. subst. cbn [negb andb]. rewrite andb_false_r. reflexivity.
Qed.

(** ** the fields *)
Lemma extended_fields powi vif code row n cf head rest h dif r body x :
  header_of cf head rest h dif vif -> rh_vib (drh_raw h) = Some (block [vif; code]) -> after vif code row n -> ~ shown_otherwise vif code ->
  dr_header r = h -> dr_raw_bytes r = head ++ body ->
  dif <> 0x0F -> dif <> 0x1F -> variable_value_decode dif vif (Some code) body = Some (DReal x) ->
  lookup (txt "Unit") (record_fields powi r) = Some (xr_unit row) /\
  lookup (txt "Quantity") (record_fields powi r) = Some (xr_quantity row) /\
  lookup (txt "Value") (record_fields powi r) =
    Some (show_f64_6 (f64_mul x (f64_literal (xr_seconds row) (xml_scale row n)))).
Proof.
  intros (B & Hh & Hl & Hdif & b & Hb & Hvif) Eb Hp Ho Hr Hraw H0F H1F Hx.
  destruct (row_after _ _ _ _ Hp Ho) as (_ & _ & S & B1 & B2 & _).
  assert (Ef : normalize_record powi r = Some {| nr_function := function_string dif;
     nr_storage_number := xml_storage_number dif (difes_of h);
     nr_tariff := match difes_of h with [] => None | _ => Some (xml_tariff (difes_of h)) end; nr_device := xml_device (difes_of h);
     nr_unit := xr_unit row; nr_quantity := xr_quantity row;
     nr_value := DReal (f64_mul x (f64_literal (xr_seconds row) (xml_scale row n))) |}).
  { unfold normalize_record. rewrite (significand_data r h head body Hr Hl Hraw), Hr, Hdif, Eb.
    apply N.eqb_neq in H0F, H1F. rewrite H0F, H1F. cbn [orb]. cbn [block hd tl vib_vif vib_vifes vib_plaintext hd_error].
    rewrite Hx, S. reflexivity. }
  unfold record_fields. rewrite Ef. cbn [nr_function nr_storage_number nr_tariff nr_device nr_unit nr_quantity nr_value].
  rewrite B1, B2. destruct (difes_of h); cbn [app]; repeat split; look; reflexivity.
Qed.

Lemma integer_after dif vif code w body : integer_width (dif mod 16) = Some w -> (vif = 0xFD /\ code <> 0x30 /\ code <> 0x70 \/ vif = 0xFB) -> code < 0x80 ->
  len body = w -> variable_value_decode dif vif (Some code) body = Some (DReal (int_decode body)).
Proof.
  intros Hw Hv Hc Hl. unfold variable_value_decode.
  assert (V : N.land code 0x7F = code). { change 0x7F with (N.ones 7). rewrite N.land_ones. apply N.mod_small. exact Hc. }
  rewrite V, land_15.
  assert (D0 : (N.land vif 0x7F =? 0x6D) || ((vif =? 0xFD) && true && (code =? 0x30)) || ((vif =? 0xFD) && true && (code =? 0x70)) = false).
  { destruct Hv as [(-> & K1 & K2)| ->]; [|reflexivity]. apply N.eqb_neq in K1, K2. rewrite K1, K2. reflexivity. }
  assert (D1 : (N.land vif 0x7F =? 0x6C) = false) by (destruct Hv as [(-> & _)| ->]; reflexivity).
  rewrite D0, D1.
  unfold integer_width in Hw.
  assert (D : In (dif mod 16, w) [(1,1);(2,2);(3,3);(4,4);(6,6);(7,8)]).
  { destruct (dif mod 16) as [|[[[]|[]|]|[[]|[]|]|]]; inversion Hw; subst; cbn; tauto. }
  cbn [In] in D. destruct D as [D|[D|[D|[D|[D|[D|[]]]]]]]; apply pair_equal_spec in D; destruct D as [D1' D2];
    rewrite <- D1'; cbn [N.eqb Pos.eqb]; rewrite (get_to_all body) by congruence; reflexivity.
Qed.
Lemma bcd_after dif vif code w body : bcd_width (dif mod 16) = Some w -> len body = w ->
  variable_value_decode dif vif code body = Some (DReal (bcd_decode body)).
Proof.
  intros Hw Hl. unfold variable_value_decode. rewrite land_15. unfold bcd_width in Hw.
  assert (D : In (dif mod 16, w) [(9,1);(10,2);(11,3);(12,4);(14,6)]).
  { destruct (dif mod 16) as [|[[[[]|[]|]|[[]|[]|]|]|[[[]|[]|]|[[]|[]|]|]|]]; inversion Hw; subst; cbn; tauto. }
  cbn [In] in D. destruct D as [D|[D|[D|[D|[D|[]]]]]]; apply pair_equal_spec in D; destruct D as [D1 D2];
    rewrite <- D1; cbn [N.eqb Pos.eqb]; rewrite (get_to_all body) by congruence; reflexivity.
Qed.
Lemma no_date vif code row n : after vif code row n -> ~ shown_otherwise vif code -> ~ date_vif vif /\ chained [vif; code] /\ contains_ascii vif = false.
Proof.
  intros H Ho. destruct (row_after _ _ _ _ H Ho) as (C & V & _). destruct V as [(-> & _)| ->];
    (split; [intros [K|K]; discriminate K|]); (split; [|reflexivity]); cbn [chained]; lia.
Qed.

Lemma extended_integer cf dif difes vif code rest hdr row n w r powi i id fields :
  bytes_ok ((dif :: difes) ++ [vif; code] ++ rest) -> dif_chain dif (dif :: difes) ->
  after vif code row n -> ~ shown_otherwise vif code -> integer_width (dif mod 16) = Some w ->
  data_record_parse cf ((dif :: difes) ++ [vif; code] ++ rest) hdr = Ok r ->
  record_element (render_variable_record powi i r) = Some (id, fields) ->
  exists body rest', rest = body ++ rest' /\ len body = w /\ extended_number fields row n (twos_complement body).
Proof.
  intros B C Ha Ho Hw Hr E. rewrite record_element_fields in E. injection E as _ <-.
  destruct (no_date _ _ _ _ Ha Ho) as (Hd & Ch & As).
  destruct (chained_header cf dif difes [vif; code] rest hdr r B C Ch As ltac:(cbn; lia) Hr) as [Hh Hv]. cbn [hd] in Hh. rewrite app_assoc in Hr.
  destruct (integer_record _ _ _ hdr _ _ _ _ Hh Hd Hw) as [(_ & E)|(body & rest' & r' & x & E & L & Er & Eh & Eb & Ev & _)];
    rewrite Hr in *; [discriminate E|]. injection Er as <-.
  exists body, rest'. split; [exact E|]. split; [exact L|].
  assert (Bb : bytes_ok body). { rewrite E, !bytes_ok_app in B. tauto. }
  destruct (integer_coding _ _ Hw) as [Lw _].
  destruct (special_widths dif) as [N1 N2]. { intros K. rewrite K in Hw. discriminate Hw. }
  destruct (row_after _ _ _ _ Ha Ho) as (Hc & Hvc & _ & _ & _ & R1 & R2 & R3).
  destruct (extended_fields powi vif code row n cf _ rest _ dif r body (int_decode body) Hh Hv Ha Ho eq_refl Eb N1 N2) as (F1 & F2 & F3).
  { eapply integer_after; eassumption. }
  split; [exact F1|]. split; [exact F2|]. eexists. split; [exact F3|]. intros Hs.
  rewrite int_decode_value; [|exact Bb|intros ->; cbn in L; lia|unfold len in L; lia].
  now apply exact_text.
Qed.
Lemma extended_bcd cf dif difes vif code rest hdr row n w r powi i id fields :
  bytes_ok ((dif :: difes) ++ [vif; code] ++ rest) -> dif_chain dif (dif :: difes) ->
  after vif code row n -> ~ shown_otherwise vif code -> bcd_width (dif mod 16) = Some w ->
  data_record_parse cf ((dif :: difes) ++ [vif; code] ++ rest) hdr = Ok r ->
  record_element (render_variable_record powi i r) = Some (id, fields) ->
  exists body rest', rest = body ++ rest' /\ len body = w /\ all_decimal body /\
    extended_number fields row n (Z.of_N (FloatSpec.decimal (nibbles body))).
Proof.
  intros B C Ha Ho Hw Hr E. rewrite record_element_fields in E. injection E as _ <-.
  destruct (no_date _ _ _ _ Ha Ho) as (Hd & Ch & As).
  destruct (chained_header cf dif difes [vif; code] rest hdr r B C Ch As ltac:(cbn; lia) Hr) as [Hh Hv]. cbn [hd] in Hh. rewrite app_assoc in Hr.
  destruct (bcd_record _ _ _ hdr _ _ _ _ Hh Hd Hw) as [(_ & _ & E)|[(_ & E)|(body & rest' & r' & x & E & L & Er & Eh & Eb & Ev & Ad & _)]];
    rewrite Hr in *; [discriminate E..|]. injection Er as <-.
  assert (Bb : bytes_ok body). { rewrite E, !bytes_ok_app in B. tauto. }
  exists body, rest'. split; [exact E|]. split; [exact L|]. split; [exact Ad|].
  destruct (special_widths dif) as [N1 N2]. { intros K. rewrite K in Hw. discriminate Hw. }
  destruct (row_after _ _ _ _ Ha Ho) as (Hc & Hvc & _ & _ & _ & R1 & R2 & R3).
  destruct (extended_fields powi vif code row n cf _ rest _ dif r body (bcd_decode body) Hh Hv Ha Ho eq_refl Eb N1 N2) as (F1 & F2 & F3).
  { eapply bcd_after; eassumption. }
  split; [exact F1|]. split; [exact F2|]. eexists. split; [exact F3|]. intros Hs.
  rewrite bcd_decode_value by assumption. now apply exact_text.
Qed.

(** ** what is shown otherwise *)
Lemma extended_refuted cf powi : exists row1 row2 row3 r1 r2 r3 e1 e2 e3,
  after 0xFB 0x08 row1 0 /\ data_record_parse cf ([0x01] ++ [0xFB; 0x08] ++ [5]) None = Ok r1 /\
  record_element (render_variable_record powi 0 r1) = Some e1 /\
  lookup (txt "Unit") (snd e1) = Some (txt "Reserved") /\ xr_unit row1 = txt "J" /\
  after 0xFB 0x30 row2 0 /\ data_record_parse cf ([0x01] ++ [0xFB; 0x30] ++ [5]) None = Ok r2 /\
  record_element (render_variable_record powi 0 r2) = Some e2 /\
  lookup (txt "Unit") (snd e2) = Some (txt "J") /\ xr_unit row2 = txt "J/h" /\
  after 0xFB 0x79 row3 1 /\ data_record_parse cf ([0x01] ++ [0xFB; 0x79] ++ [5]) None = Ok r3 /\
  record_element (render_variable_record powi 0 r3) = Some e3 /\
  lookup (txt "Value") (snd e3) = Some (txt "0.005000") /\ xml_scale row3 1 = (-2)%Z.
Proof.
  exists (steps 0xFB 0x08 2 8 (txt "J") (txt "Energy")), (steps 0xFB 0x30 2 8 (txt "J/h") (txt "Power")), (steps 0xFB 0x78 8 (-3) (txt "W") (txt "Cumul count max power")).
  do 6 eexists.
  split; [split; [unfold ext_rows; cbn; auto 100|repeat split; cbn; lia]|]. split; [destruct cf as [[] []]; vm_compute; reflexivity|].
  split; [vm_compute; reflexivity|]. split; [vm_compute; reflexivity|]. split; [reflexivity|].
  split; [split; [unfold ext_rows; cbn; auto 100|repeat split; cbn; lia]|]. split; [destruct cf as [[] []]; vm_compute; reflexivity|].
  split; [vm_compute; reflexivity|]. split; [vm_compute; reflexivity|]. split; [reflexivity|].
  split; [split; [unfold ext_rows; cbn; auto 100|repeat split; cbn; lia]|]. split; [destruct cf as [[] []]; vm_compute; reflexivity|].
  split; [vm_compute; reflexivity|]. split; [vm_compute; reflexivity|]. reflexivity.
Qed.
Lemma per_hour_refuted cf powi : exists r e,
  In (0x22, says [] [(UHour, (-1)%Z)] 0) combinable_table /\
  data_record_parse cf ([0x01] ++ [0x93; 0x22] ++ [5]) None = Ok r /\
  record_element (render_variable_record powi 0 r) = Some e /\
  lookup (txt "Unit") (snd e) = Some (txt "m^3") /\ lookup (txt "Value") (snd e) = Some (txt "0.005000").
Proof.
  do 2 eexists. split; [in_table|]. split; [destruct cf as [[] []]; vm_compute; reflexivity|].
  split; [vm_compute; reflexivity|]. split; vm_compute; reflexivity.
Qed.
Lemma variable_number_refuted cf powi : exists r e h,
  header_of cf [0x0D; 0x13] [0xE1; 0x10] h 0x0D 0x13 /\
  data_record_parse cf ([0x0D; 0x13] ++ [0xE1; 0x10]) None = Ok r /\
  vo_value (ro_value (record_output 0 r)) = Some (JString (txt "0.016")) /\
  record_element (render_variable_record powi 0 r) = Some e /\
  lookup (txt "Unit") (snd e) = Some (txt "m^3") /\ lookup (txt "Value") (snd e) = Some (txt "10").
Proof.
  destruct cf as [[] []]; do 3 eexists; (split; [head|]); (split; [vm_compute; reflexivity|]); (split; [vm_compute; reflexivity|]);
  (split; [vm_compute; reflexivity|]); split; vm_compute; reflexivity.
Qed.

(** ** examples *)
Lemma extended_example : exists r id fields,
  dif_chain 0x02 [0x02] /\ after 0xFD 0x48 (steps 0xFD 0x40 16 (-9) (txt "V") (txt "Voltage")) 8 /\ ~ shown_otherwise 0xFD 0x48 /\
  bytes_ok ([0x02] ++ [0xFD; 0x48] ++ [0xFC; 0x08]) /\ integer_width (0x02 mod 16) = Some 2 /\
  data_record_parse debug ([0x02] ++ [0xFD; 0x48] ++ [0xFC; 0x08]) None = Ok r /\
  record_element (render_variable_record ex_powi 0 r) = Some (id, fields) /\
  six_digits 2300 (-1) /\ lookup (txt "Value") fields = Some (txt "230.000000").
Proof.
  do 3 eexists. split; [split; [discriminate|exists []; split; [reflexivity|left; split; [lia|reflexivity]]]|].
  split; [split; [unfold ext_rows; cbn; auto 100|repeat split; cbn; lia]|]. split; [intros [K _]; discriminate K|].
  split; [lit|]. split; [reflexivity|]. split; [vm_compute; reflexivity|]. split; [vm_compute; reflexivity|].
  split; [repeat split; cbn; lia|vm_compute; reflexivity].
Qed.
