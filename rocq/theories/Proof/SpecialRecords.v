(** Records without data: manufacturer blocks, special functions, data fields 0 and 8. *)
From Verif Require Import Proof.BaseFacts Proof.CoreFacts Model.Core Model.DataInfo Model.ValueInfo
  Model.Record Spec.RecordSpec Proof.RecordFacts Proof.HeaderFacts Proof.HeaderProps
  Proof.DateFacts Proof.NumberProps Proof.IterFacts.

Lemma special_header cf dif rest : dif mod 16 = 15 -> has_extension dif = false ->
  exists di, header_try_from cf (dif :: rest) =
    Ok {| drh_raw := {| rh_dib := {| dib_dif := dif; dib_difes := None |}; rh_vib := None |};
          drh_processed := {| ph_data_information := Some di; ph_value_information := None |} |} /\
    di_data_field_coding di = CSpecialFunctions (special_function dif).
Proof.
  intros H15 He. apply special_is_15 in H15 as Hs.
  unfold header_try_from, raw_header_try_from. rewrite dib_plain by assumption. unfold from_die.
  cbn [map_err bind dib_dif]. rewrite Hs. cbn [negb bind].
  unfold processed_header_try_from. cbn [rh_vib rh_dib dib_dif]. rewrite Hs.
  unfold data_information_try_from, from_die. cbn [dib_dif dib_difes map_err bind].
  eexists. split; [reflexivity|]. cbn [di_data_field_coding].
  unfold data_field_coding_of. cbv zeta. rewrite land_15, H15. reflexivity.
Qed.

Lemma special_parse cf dif rest hdr : dif mod 16 = 15 -> has_extension dif = false ->
  exists h, data_record_parse cf (dif :: rest) hdr =
    (d <- coding_parse cf (CSpecialFunctions (special_function dif)) rest hdr ;;
     raw <- ok_or (get_to (dif :: rest) (if 1 + len rest <? 1 + d_size d then 1 + len rest else 1 + d_size d)) RInsufficientData ;;
     Ok {| dr_header := h; dr_data := d; dr_raw_bytes := raw |}) /\
    ph_value_information (drh_processed h) = None.
Proof.
  intros H15 He. destruct (special_header cf dif rest H15 He) as (di & E & Hc).
  eexists. split; [|shelve]. unfold data_record_parse. rewrite E. cbn [bind].
  change (header_get_size _) with 1. cbn [drh_processed ph_data_information]. rewrite Hc, len_cons.
  replace (len rest + 1) with (1 + len rest) by lia.
  destruct (N.ltb_spec (1 + len rest) 1); [lia|].
  change (dif :: rest) with ([dif] ++ rest) at 1. rewrite (get_from_app_n [dif]) by reflexivity. cbn [ok_or bind]. reflexivity.
  Unshelve. reflexivity.
Qed.

Lemma manufacturer_parse cf dif rest hdr : dif = 0x0F \/ dif = 0x1F ->
  exists r, data_record_parse cf (dif :: rest) hdr = Ok r /\ dr_raw_bytes r = dif :: rest /\
    d_value (dr_data r) = Some (ManufacturerSpecific rest) /\
    ph_value_information (drh_processed (dr_header r)) = None.
Proof.
  intros H. assert (P : dif mod 16 = 15 /\ has_extension dif = false /\
    coding_parse cf (CSpecialFunctions (special_function dif)) rest hdr =
    Ok {| d_value := Some (ManufacturerSpecific rest); d_size := len rest |}) by (destruct H as [-> | ->]; repeat split).
  destruct P as (H15 & He & P). destruct (special_parse cf dif rest hdr H15 He) as (h & E & Hv).
  rewrite E, P. cbn [bind d_size]. rewrite N.ltb_irrefl.
  assert (G : get_to (dif :: rest) (1 + len rest) = Some (dif :: rest)).
  { rewrite <- (app_nil_r (dif :: rest)) at 1. apply get_to_app_n. rewrite len_cons. lia. }
  rewrite G. cbn [ok_or bind]. eexists. split; [reflexivity|]. repeat split. exact Hv.
Qed.

Lemma manufacturer_block cf dif rest hdr : bytes_ok (dif :: rest) -> dif = 0x0F \/ dif = 0x1F ->
  exists r, records_all cf (dif :: rest) hdr = Some [Ok r] /\ dr_raw_bytes r = dif :: rest /\
    d_value (dr_data r) = Some (ManufacturerSpecific rest) /\
    ph_value_information (drh_processed (dr_header r)) = None.
Proof.
  intros Hb H. destruct (manufacturer_parse cf dif rest hdr H) as (r & E & Hr & Hv & Hi).
  exists r. split; [|auto]. destruct (laid_out_records cf (dif :: rest) hdr Hb) as (items & Ha & L). rewrite Ha. f_equal.
  inversion L as [|b t i S L' |b t r' rst i S P Q Hne L' |b t e S P|b t p S P]; subst.
  - destruct S as (_ & S0 & S1 & _). destruct H; contradiction.
  - rewrite E in P. apply Ok_inj in P. subst r'. rewrite Hr in Q.
    assert (rst = []). { apply (f_equal (@length N)) in Q. rewrite app_length in Q. destruct rst; [reflexivity|cbn in Q; lia]. }
    subst rst. inversion L'; subst. reflexivity.
  - rewrite E in P. discriminate P.
  - rewrite E in P. discriminate P.
Qed.

Lemma readout_parse cf rest hdr :
  exists r, data_record_parse cf (0x7F :: rest) hdr = Ok r /\ dr_raw_bytes r = [0x7F] /\
    d_value (dr_data r) = None /\ ph_value_information (drh_processed (dr_header r)) = None.
Proof.
  destruct (special_parse cf 0x7F rest hdr eq_refl eq_refl) as (h & E & Hv). rewrite E. cbn [coding_parse special_function N.eqb Pos.eqb bind d_size].
  destruct (N.ltb_spec (1 + len rest) (1 + 0)); [lia|].
  change (0x7F :: rest) with ([0x7F] ++ rest) at 1. rewrite (get_to_app_n [0x7F]) by reflexivity.
  cbn [ok_or bind]. eexists. split; [reflexivity|]. repeat split. exact Hv.
Qed.

Lemma readout_records cf rest hdr : bytes_ok rest ->
  exists r items, records_all cf (0x7F :: rest) hdr = Some (Ok r :: items) /\
    laid_out (fun d => data_record_parse cf d hdr) rest items /\
    dr_raw_bytes r = [0x7F] /\ d_value (dr_data r) = None /\ ph_value_information (drh_processed (dr_header r)) = None.
Proof.
  intros Hb. destruct (readout_parse cf rest hdr) as (r & E & Hr & Hv & Hi).
  assert (Hb' : bytes_ok (0x7F :: rest)) by (apply bytes_ok_cons; split; [lia|exact Hb]).
  destruct (laid_out_records cf (0x7F :: rest) hdr Hb') as (items & Ha & L).
  inversion L as [|b t i S L' |b t r' rst i S P Q Hne L' |b t e S P|b t p S P]; subst.
  - destruct S as (_ & _ & _ & S). contradiction.
  - rewrite E in P. apply Ok_inj in P. subst r'. rewrite Hr in Q. injection Q as <-. exists r, i. auto.
  - rewrite E in P. discriminate P.
  - rewrite E in P. discriminate P.
Qed.

Lemma reserved_refused cf dif rest hdr r : dif mod 16 = 15 ->
  dif <> 0x0F -> dif <> 0x1F -> dif <> 0x2F -> dif <> 0x7F -> data_record_parse cf (dif :: rest) hdr <> Ok r.
Proof.
  intros H15 H0 H1 H2 H7 H. unfold data_record_parse in H. apply bind_ok in H as (h & Hh & H).
  destruct (_ <? _); [discriminate H|]. apply bind_ok in H as (d & Hd & _).
  unfold header_try_from in Hh. apply bind_ok in Hh as (raw & Hr & Hh). apply bind_ok in Hh as (p & Hp & Hh).
  apply Ok_inj in Hh. subst h. cbn [drh_processed] in Hd.
  unfold raw_header_try_from, from_die in Hr. apply bind_ok in Hr as (b & Hb & Hr).
  apply map_err_ok in Hb. assert (Hdif : dib_dif b = dif).
  { unfold dib_try_from in Hb. destruct (has_extension dif); repeat match type of Hb with
      | (if ?c then _ else _) = _ => destruct c
      | bind _ _ = _ => apply bind_ok in Hb as (? & _ & Hb)
      | match ?c with _ => _ end = _ => destruct c
      end; try discriminate Hb; apply Ok_inj in Hb; subst b; reflexivity. }
  rewrite Hdif in Hr. pose proof (proj2 (special_is_15 dif) H15) as Hs. rewrite Hs in Hr. cbn [negb] in Hr.
  apply Ok_inj in Hr. subst raw. unfold processed_header_try_from in Hp. cbn [rh_vib rh_dib] in Hp. rewrite Hdif, Hs in Hp.
  apply bind_ok in Hp as (di & Hdi & Hp). apply Ok_inj in Hp. subst p. cbn [ph_data_information] in Hd.
  apply bind_ok in Hd as (rst & _ & Hd). unfold from_die in Hdi. apply map_err_ok in Hdi.
  assert (Hc : di_data_field_coding di = CSpecialFunctions SFReserved).
  { unfold data_information_try_from in Hdi. cbv zeta in Hdi. apply bind_ok in Hdi as ([[[[st ta] de] ex] ix] & _ & Hdi).
    apply Ok_inj in Hdi. subst di. cbn [di_data_field_coding]. rewrite Hdif. unfold data_field_coding_of. cbv zeta. rewrite land_15, H15.
    cbn [N.eqb Pos.eqb]. unfold special_function. rewrite !(proj2 (N.eqb_neq _ _)) by assumption. reflexivity. }
  rewrite Hc in Hd. discriminate Hd.
Qed.

Lemma no_data_record cf head rest hdr h dif vif :
  header_of cf head rest h dif vif -> ~ date_vif vif -> dif mod 16 = 0 \/ dif mod 16 = 8 ->
  exists r, data_record_parse cf (head ++ rest) hdr = Ok r /\ dr_header r = h /\ dr_raw_bytes r = head /\ d_value (dr_data r) = None.
Proof.
  intros Hh Hd Hn. rewrite (record_of_coding _ _ _ _ _ _ _ Hh Hd).
  unfold data_field_coding_of. cbv zeta. rewrite land_15.
  destruct Hn as [-> | ->]; cbn [N.eqb Pos.eqb coding_parse d_size]; (eexists; split; [reflexivity|]);
    cbn [dr_header dr_raw_bytes dr_data d_value d_size N.to_nat firstn]; rewrite app_nil_r; auto.
Qed.
