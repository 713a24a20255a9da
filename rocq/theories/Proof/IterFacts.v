(** Facts about the record iterator. *)
From Verif Require Import Proof.BaseFacts Model.Core Model.F64 Model.DataInfo Model.ValueInfo Model.Record
  Spec.RecordSpec Proof.RecordFacts.

(** bytes the iterator steps over *)
Definition skips (b : N) : bool :=
  is_special_function b &&
  match special_function b with SFIdleFiller | SFReserved => true | _ => false end.

Lemma skips_spec b : b < 256 -> skips b = true <-> skipped b.
Proof.
  intros H.
  assert (G := sweep256 (fun b => Bool.eqb (skips b)
     ((b mod 16 =? 15) && negb (b =? 0x0F) && negb (b =? 0x1F) && negb (b =? 0x7F))) eq_refl b H).
  cbv beta in G. apply Bool.eqb_prop in G. rewrite G. unfold skipped. clear G.
  destruct (N.eqb_spec (b mod 16) 15), (N.eqb_spec b 0x0F), (N.eqb_spec b 0x1F), (N.eqb_spec b 0x7F);
    cbn [andb negb]; split; intros; try discriminate; try reflexivity; try tauto.
Qed.

(** what the iterator yields on a buffer, as a relation *)
Inductive decodes (cf : config) (hdr : option long_tpl_header) : list N -> list item -> Prop :=
| dc_nil : decodes cf hdr [] []
| dc_skip b rest l : skips b = true -> decodes cf hdr rest l -> decodes cf hdr (b :: rest) l
| dc_rec b t r rest l :
    skips b = false -> data_record_parse cf (b :: t) hdr = Ok r ->
    b :: t = dr_raw_bytes r ++ rest -> decodes cf hdr rest l ->
    decodes cf hdr (b :: t) (Ok r :: l)
| dc_err b t e :
    skips b = false -> data_record_parse cf (b :: t) hdr = Err e ->
    decodes cf hdr (b :: t) [Err e]
| dc_panic b t p :
    skips b = false -> data_record_parse cf (b :: t) hdr = Panic p ->
    decodes cf hdr (b :: t) [Panic p].

Lemma decodes_det cf hdr data l l' :
  decodes cf hdr data l -> decodes cf hdr data l' -> l = l'.
Proof.
  intros H; revert l'.
  induction H as [|b rest l Hs _ IH|b t r rest l Hs Hp Hd _ IH|b t e Hs Hp|b t p Hs Hp]; intros l' H'.
  - inversion H'; reflexivity.
  - inversion H'; subst; try congruence. apply IH; assumption.
  - inversion H' as [|? ? ? Hs'|? ? r' rest' l'' Hs' Hp' Hd'|? ? ? Hs' Hp'|? ? ? Hs' Hp']; subst; try congruence.
    rewrite Hp in Hp'; apply Ok_inj in Hp'; subst r'.
    rewrite Hd in Hd'; apply app_inv_head in Hd'; subst rest'. f_equal; apply IH; assumption.
  - inversion H'; subst; try congruence.
  - inversion H'; subst; try congruence.
Qed.

(** the bytes still to be read *)
Definition rem (s : data_records) : list N := skipn (N.to_nat (rs_offset s)) (rs_data s).

Fixpoint strip (l : list N) : list N :=
  match l with
  | [] => []
  | b :: t => if skips b then strip t else l
  end.

Lemma strip_len l : (length (strip l) <= length l)%nat.
Proof. induction l as [|b t IH]; cbn [strip]; [auto|]. destruct (skips b); cbn [length]; lia. Qed.

Lemma strip_head l b t : strip l = b :: t -> skips b = false.
Proof.
  induction l as [|x l IH]; cbn [strip]; [discriminate|].
  destruct (skips x) eqn:E; [assumption|]. intros H; injection H as <- _; assumption.
Qed.

Lemma decodes_strip cf hdr data l : decodes cf hdr (strip data) l -> decodes cf hdr data l.
Proof.
  induction data as [|b t IH]; cbn [strip]; [auto|].
  destruct (skips b) eqn:E; [|auto]. intros H; constructor; auto.
Qed.

Lemma rem_cons s :
  rs_offset s < len (rs_data s) ->
  exists b t, rem s = b :: t /\ get (rs_data s) (rs_offset s) = Some b /\
    get_from (rs_data s) (rs_offset s) = Some (b :: t) /\
    rem (set_offset s (rs_offset s + 1)) = t.
Proof.
  intros H. unfold rem.
  destruct (skipn (N.to_nat (rs_offset s)) (rs_data s)) as [|b t] eqn:E.
  - assert (length (skipn (N.to_nat (rs_offset s)) (rs_data s)) = 0%nat) by (rewrite E; reflexivity).
    rewrite skipn_length in *; unfold len in *; lia.
  - exists b, t; repeat split.
    + unfold get. rewrite <- (firstn_skipn (N.to_nat (rs_offset s)) (rs_data s)), E.
      rewrite nth_error_app2 by (rewrite firstn_length; lia).
      rewrite firstn_length, Nat.min_l by (unfold len in *; lia).
      rewrite Nat.sub_diag; reflexivity.
    + apply get_from_ok; split; [lia|congruence].
    + cbn [set_offset rs_offset rs_data].
      replace (N.to_nat (rs_offset s + 1)) with (N.to_nat (rs_offset s) + 1)%nat by lia.
      rewrite <- skipn_skipn, E; reflexivity.
Qed.

Lemma rem_end s : len (rs_data s) <= rs_offset s -> rem s = [].
Proof. intros H; apply skipn_all2; unfold len in *; lia. Qed.

(** single special bytes *)
Lemma parse_rest_dif cf b t hdr :
  b = 0x0F \/ b = 0x1F ->
  exists r, data_record_parse cf (b :: t) hdr = Ok r /\ dr_raw_bytes r = b :: t.
Proof.
  intros Hb. unfold data_record_parse, header_try_from, raw_header_try_from, from_die.
  rewrite dib_plain by (destruct Hb as [->| ->]; reflexivity).
  cbn [map_err bind dib_dif].
  replace (is_special_function b) with true by (destruct Hb as [->| ->]; reflexivity).
  cbn [negb bind]. unfold processed_header_try_from; cbn [rh_vib rh_dib dib_dif].
  replace (is_special_function b) with true by (destruct Hb as [->| ->]; reflexivity).
  unfold data_information_try_from, from_die; cbn [dib_dif dib_difes map_err bind].
  unfold header_get_size; cbn [drh_raw rh_dib rh_vib drh_processed ph_data_information dib_get_size
    dib_difes di_data_field_coding].
  unfold dib_get_size; cbn [dib_difes].
  rewrite len_cons. destruct (N.ltb_spec (len t + 1) (1 + 0)); [lia|].
  change (b :: t) with ([b] ++ t). rewrite (get_from_app_n [b] t) by reflexivity.
  cbn [ok_or bind].
  assert (E : coding_parse cf (data_field_coding_of b) t hdr =
              Ok {| d_value := Some (ManufacturerSpecific t); d_size := len t |})
    by (destruct Hb as [->| ->]; reflexivity).
  rewrite E; cbn [bind d_size].
  destruct (N.ltb_spec (len t + 1) (1 + 0 + len t)); [lia|].
  pose proof (get_to_app_n ([b] ++ t) [] (1 + 0 + len t)) as G.
  rewrite app_nil_r in G. rewrite G by (rewrite len_app; reflexivity).
  cbn [ok_or bind]. eexists; split; reflexivity.
Qed.

Lemma parse_readout_dif cf t hdr :
  exists r, data_record_parse cf (0x7F :: t) hdr = Ok r /\ dr_raw_bytes r = [0x7F].
Proof.
  unfold data_record_parse, header_try_from, raw_header_try_from, from_die.
  rewrite dib_plain by reflexivity.
  cbn [map_err bind dib_dif].
  change (is_special_function 0x7F) with true.
  cbn [negb bind]. unfold processed_header_try_from; cbn [rh_vib rh_dib dib_dif].
  change (is_special_function 0x7F) with true.
  unfold data_information_try_from, from_die; cbn [dib_dif dib_difes map_err bind].
  unfold header_get_size; cbn [drh_raw rh_dib rh_vib drh_processed ph_data_information dib_get_size
    dib_difes di_data_field_coding].
  unfold dib_get_size; cbn [dib_difes].
  rewrite len_cons. destruct (N.ltb_spec (len t + 1) (1 + 0)); [lia|].
  change (0x7F :: t) with ([0x7F] ++ t). rewrite (get_from_app_n [0x7F] t) by reflexivity.
  cbn [ok_or bind].
  change (coding_parse cf (data_field_coding_of 0x7F) t hdr)
    with (Ok (E := data_record_error) {| d_value := None; d_size := 0 |}).
  cbn [bind d_size].
  destruct (N.ltb_spec (len t + 1) (1 + 0 + 0)); [lia|].
  rewrite (get_to_app_n [0x7F] t) by reflexivity.
  cbn [ok_or bind]. eexists; split; reflexivity.
Qed.

Lemma special_readout b : special_function b = SFGlobalReadoutRequest -> b = 0x7F.
Proof.
  unfold special_function.
  destruct (N.eqb_spec b 0x0F); [discriminate|]. destruct (N.eqb_spec b 0x1F); [discriminate|].
  destruct (N.eqb_spec b 0x2F); [discriminate|]. destruct (N.eqb_spec b 0x7F); [auto|discriminate].
Qed.
Lemma special_rest b :
  special_function b = SFManufacturerSpecific \/ special_function b = SFMoreRecordsFollow ->
  b = 0x0F \/ b = 0x1F.
Proof.
  unfold special_function.
  destruct (N.eqb_spec b 0x0F); [auto|]. destruct (N.eqb_spec b 0x1F); [auto|].
  destruct (N.eqb_spec b 0x2F); [intros []; discriminate|].
  destruct (N.eqb_spec b 0x7F); intros []; discriminate.
Qed.

Lemma parse_split cf data hdr r :
  data_record_parse cf data hdr = Ok r ->
  dr_raw_bytes r <> [] /\ exists rest, data = dr_raw_bytes r ++ rest.
Proof.
  intros H; destruct (record_split _ _ _ _ H) as (p & rest & di & -> & _ & _ & _ & _ & (t & ->) & q & s & -> & -> & _).
  split; [discriminate|]. exists s. rewrite app_assoc; reflexivity.
Qed.

(** one call of [next] *)
Definition next_ok (cf : config) (s : data_records) (res : next_result) (s' : data_records) : Prop :=
  rs_data s' = rs_data s /\ rs_header s' = rs_header s /\
  match res with
  | NFuel => False
  | NDone => strip (rem s) = [] /\ rem s' = []
  | NItem (Ok r) =>
      data_record_parse cf (strip (rem s)) (rs_header s) = Ok r /\
      strip (rem s) = dr_raw_bytes r ++ rem s'
  | NItem (Err e) =>
      data_record_parse cf (strip (rem s)) (rs_header s) = Err e /\
      strip (rem s) <> [] /\ rem s' = []
  | NItem (Panic p) =>
      data_record_parse cf (strip (rem s)) (rs_header s) = Panic p /\ strip (rem s) <> []
  end.

Lemma rem_advance s b t raw rest :
  rem s = b :: t -> b :: t = raw ++ rest -> rem (set_offset s (rs_offset s + len raw)) = rest.
Proof.
  unfold rem; cbn [set_offset rs_offset rs_data]; intros Hr E.
  replace (N.to_nat (rs_offset s + len raw)) with (N.to_nat (rs_offset s) + length raw)%nat
    by (unfold len; lia).
  rewrite <- skipn_skipn, Hr, E, skipn_app, skipn_all, Nat.sub_diag; reflexivity.
Qed.

Lemma records_next_spec cf fuel s :
  (length (rem s) < fuel)%nat ->
  next_ok cf s (fst (records_next cf fuel s)) (snd (records_next cf fuel s)).
Proof.
  revert s; induction fuel as [|fuel IH]; intros s Hf; [lia|].
  cbn [records_next]. destruct (N.ltb_spec (rs_offset s) (len (rs_data s))) as [Ho|Ho].
  2:{ cbn. repeat split; rewrite rem_end by assumption; reflexivity. }
  destruct (rem_cons s Ho) as (b & t & Hr & Hg & Hgf & Hnext). rewrite Hg, Hgf.
  assert (Hend : rem (set_offset s (len (rs_data s))) = []).
  { apply rem_end; cbn; lia. }
  destruct (is_special_function b) eqn:S.
  - destruct (special_function b) eqn:F.
    + assert (Hb : b = 0x0F \/ b = 0x1F) by (apply special_rest; auto).
      destruct (parse_rest_dif cf b t (rs_header s) Hb) as (r & Hp & Hraw).
      cbn [fst snd]. unfold next_ok. rewrite Hr. cbn [strip].
      assert (K : skips b = false) by (unfold skips; rewrite S, F; reflexivity). rewrite K.
      rewrite Hp. repeat split. rewrite Hend, app_nil_r; auto.
    + assert (Hb : b = 0x0F \/ b = 0x1F) by (apply special_rest; auto).
      destruct (parse_rest_dif cf b t (rs_header s) Hb) as (r & Hp & Hraw).
      cbn [fst snd]. unfold next_ok. rewrite Hr. cbn [strip].
      assert (K : skips b = false) by (unfold skips; rewrite S, F; reflexivity). rewrite K.
      rewrite Hp. repeat split. rewrite Hend, app_nil_r; auto.
    + assert (K : skips b = true) by (unfold skips; rewrite S, F; reflexivity).
      specialize (IH (set_offset s (rs_offset s + 1))).
      rewrite Hnext in IH. rewrite Hr in Hf; cbn [length] in Hf.
      specialize (IH ltac:(lia)). unfold next_ok in *. rewrite Hr; cbn [strip]. rewrite K.
      rewrite Hnext in IH. exact IH.
    + assert (K : skips b = true) by (unfold skips; rewrite S, F; reflexivity).
      specialize (IH (set_offset s (rs_offset s + 1))).
      rewrite Hnext in IH. rewrite Hr in Hf; cbn [length] in Hf.
      specialize (IH ltac:(lia)). unfold next_ok in *. rewrite Hr; cbn [strip]. rewrite K.
      rewrite Hnext in IH. exact IH.
    + pose proof (special_readout b F) as ->.
      destruct (parse_readout_dif cf t (rs_header s)) as (r & Hp & Hraw).
      cbn [fst snd]. unfold next_ok. rewrite Hr. cbn [strip].
      change (skips 0x7F) with false. cbv iota. rewrite Hp, Hraw, Hnext. repeat split.
  - assert (K : skips b = false) by (unfold skips; rewrite S; reflexivity).
    destruct (data_record_parse cf (b :: t) (rs_header s)) as [r|e|p] eqn:P; cbn [fst snd];
      unfold next_ok; rewrite Hr; cbn [strip]; rewrite K, P.
    + destruct (parse_split _ _ _ _ P) as (_ & rest & E). repeat split.
      unfold dr_get_size. rewrite (rem_advance s b t _ rest Hr E). exact E.
    + repeat split; [discriminate|exact Hend].
    + repeat split; discriminate.
Qed.

Lemma next_spec cf s :
  next_ok cf s (fst (next cf s)) (snd (next cf s)).
Proof.
  apply records_next_spec. unfold rem; rewrite skipn_length; lia.
Qed.

Lemma collect_decodes cf fuel s :
  (length (rem s) < fuel)%nat ->
  exists l, collect cf fuel s = Some l /\ decodes cf (rs_header s) (rem s) l.
Proof.
  revert s; induction fuel as [|fuel IH]; intros s Hf; [lia|].
  cbn [collect]. pose proof (next_spec cf s) as Hn.
  destruct (next cf s) as [res s']; cbn [fst snd] in Hn.
  destruct Hn as (Hd & Hh & Hn). pose proof (strip_len (rem s)) as Hl.
  destruct res as [|[r|e|p]|].
  - exists []; split; [reflexivity|]. apply decodes_strip. destruct Hn as [-> _]; constructor.
  - destruct Hn as [Hp E]. destruct (parse_split _ _ _ _ Hp) as (Hne & _).
    assert (Hl' : length (strip (rem s)) = (length (dr_raw_bytes r) + length (rem s'))%nat)
      by (rewrite E, app_length; reflexivity).
    assert (length (dr_raw_bytes r) <> 0)%nat by (destruct (dr_raw_bytes r); [congruence|discriminate]).
    destruct (IH s') as (l & Hc & Hdec); [lia|]. rewrite Hc.
    exists (Ok r :: l); split; [reflexivity|]. apply decodes_strip.
    destruct (strip (rem s)) as [|b t] eqn:Es; [destruct (dr_raw_bytes r); [congruence|discriminate]|].
    rewrite Hh in Hdec. apply dc_rec with (rest := rem s'); auto. apply strip_head in Es; assumption.
  - destruct Hn as (Hp & Hne & E).
    destruct (IH s') as (l & Hc & Hdec).
    { rewrite E. destruct (strip (rem s)); [congruence|]; cbn [length] in *; lia. }
    rewrite Hc. rewrite E in Hdec; inversion Hdec; subst.
    exists [Err e]; split; [reflexivity|]. apply decodes_strip.
    destruct (strip (rem s)) as [|b t] eqn:Es; [congruence|].
    apply dc_err; auto. apply strip_head in Es; assumption.
  - destruct Hn as (Hp & Hne).
    exists [Panic p]; split; [reflexivity|]. apply decodes_strip.
    destruct (strip (rem s)) as [|b t] eqn:Es; [congruence|].
    apply dc_panic; auto. apply strip_head in Es; assumption.
  - destruct Hn.
Qed.

Lemma records_all_decodes cf data hdr :
  exists l, records_all cf data hdr = Some l /\ decodes cf hdr data l.
Proof.
  unfold records_all.
  destruct (collect_decodes cf (S (length data)) (records_new data hdr)) as (l & Hc & Hd).
  - unfold rem, records_new; cbn. lia.
  - exists l; split; [exact Hc|]. exact Hd.
Qed.

Lemma records_all_iff cf data hdr l :
  records_all cf data hdr = Some l <-> decodes cf hdr data l.
Proof.
  destruct (records_all_decodes cf data hdr) as (l' & Hc & Hd). rewrite Hc; split; intros H.
  - injection H as <-; assumption.
  - f_equal; eapply decodes_det; eassumption.
Qed.

(** *** C17 *)
Lemma decodes_laid_out cf hdr data l :
  bytes_ok data -> decodes cf hdr data l -> laid_out (fun d => data_record_parse cf d hdr) data l.
Proof.
  intros Hb H; revert Hb.
  induction H as [|b rest l Hs _ IH|b t r rest l Hs Hp Hd _ IH|b t e Hs Hp|b t p Hs Hp]; intros Hb;
    [constructor|..]; pose proof Hb as Hb'; apply bytes_ok_cons in Hb'; destruct Hb' as [Hb1 Hb2];
    pose proof (skips_spec b Hb1) as Hk.
  - constructor; [apply Hk; assumption|auto].
  - destruct (parse_split _ _ _ _ Hp) as [Hne _].
    apply lo_record with rest; auto; [rewrite <- Hk; congruence|].
    apply IH. rewrite Hd in Hb. apply bytes_ok_app in Hb; tauto.
  - constructor; [rewrite <- Hk; congruence|assumption].
  - constructor; [rewrite <- Hk; congruence|assumption].
Qed.

Lemma laid_out_records cf data hdr :
  bytes_ok data ->
  exists items, records_all cf data hdr = Some items /\
    laid_out (fun d => data_record_parse cf d hdr) data items.
Proof.
  intros Hb; destruct (records_all_decodes cf data hdr) as (l & Hc & Hd).
  exists l; split; [assumption|]. eapply decodes_laid_out; eassumption.
Qed.

(** *** C18 *)
Lemma error_is_last cf data hdr pre e post :
  records_all cf data hdr = Some (pre ++ Err e :: post) ->
  post = [] /\ Forall (fun x => exists r, x = Ok r) pre.
Proof.
  rewrite records_all_iff. intros H.
  remember (pre ++ Err e :: post) as l eqn:El. revert pre El.
  induction H as [|b rest l Hs _ IH|b t r rest l Hs Hp Hd _ IH|b t e' Hs Hp|b t p Hs Hp]; intros pre El.
  - destruct pre; discriminate.
  - apply IH; assumption.
  - destruct pre as [|x pre]; [discriminate|]. injection El as <- El.
    destruct (IH _ El) as [-> Hf]. split; [reflexivity|]. constructor; eauto.
  - destruct pre as [|x pre].
    + inversion El; subst; split; [reflexivity|constructor].
    + injection El as _ El; destruct pre; discriminate.
  - destruct pre as [|x pre]; [discriminate|]. injection El as _ El; destruct pre; discriminate.
Qed.

Lemma next_done_forever cf s s' :
  next cf s = (NDone, s') -> next cf s' = (NDone, s').
Proof.
  intros H. pose proof (next_spec cf s) as Hn. rewrite H in Hn; cbn [fst snd] in Hn.
  destruct Hn as (_ & _ & _ & Hr).
  unfold next. destruct (length (rs_data s')) eqn:L.
  - cbn [records_next]. unfold len; rewrite L.
    destruct (N.ltb_spec (rs_offset s') (N.of_nat 0)); [lia|reflexivity].
  - cbn [records_next].
    destruct (N.ltb_spec (rs_offset s') (len (rs_data s'))) as [Hlt|]; [|reflexivity].
    destruct (rem_cons s' Hlt) as (b & t & E & _). congruence.
Qed.

Lemma next_error_done cf s e s' :
  next cf s = (NItem (Err e), s') -> next cf s' = (NDone, s').
Proof.
  intros H. pose proof (next_spec cf s) as Hn. rewrite H in Hn; cbn [fst snd] in Hn.
  destruct Hn as (_ & _ & _ & _ & Hr).
  unfold next. cbn [records_next].
  destruct (N.ltb_spec (rs_offset s') (len (rs_data s'))) as [Hlt|]; [|reflexivity].
  destruct (rem_cons s' Hlt) as (b & t & E & _). congruence.
Qed.

(** *** C19, C20 *)
Lemma decodes_fillers cf hdr n data l :
  decodes cf hdr data l -> decodes cf hdr (repeat 0x2F n ++ data) l.
Proof. intros H; induction n; cbn [repeat app]; [assumption|]. constructor; [reflexivity|assumption]. Qed.

Lemma decodes_app cf hdr a la b lb :
  bytes_ok a ->
  decodes cf hdr a la ->
  Forall (fun x => exists r, x = Ok r /\ complete_record r) la ->
  decodes cf hdr b lb ->
  decodes cf hdr (a ++ b) (la ++ lb).
Proof.
  intros Hb H; revert Hb.
  induction H as [|x rest l Hs _ IH|x t r rest l Hs Hp Hd _ IH|x t e Hs Hp|x t p Hs Hp];
    intros Hb Hf Hdb.
  - exact Hdb.
  - apply bytes_ok_cons in Hb; destruct Hb. cbn [app]. constructor; auto.
  - inversion Hf as [|? ? (r' & Er & Hc) Hf']; subst. apply Ok_inj in Er; subst r'.
    assert (Hbr : bytes_ok rest) by (rewrite Hd in Hb; apply bytes_ok_app in Hb; tauto).
    specialize (IH Hbr Hf' Hdb).
    pose proof (record_local cf _ hdr r Hb Hp Hc (rest ++ b)) as Hloc.
    rewrite app_assoc, <- Hd in Hloc. cbn [app] in Hloc |- *.
    apply dc_rec with (rest := rest ++ b); auto.
    rewrite app_assoc, <- Hd; reflexivity.
  - inversion Hf as [|? ? (r' & Er & _)]; discriminate.
  - inversion Hf as [|? ? (r' & Er & _)]; discriminate.
Qed.

Lemma concatenation cf hdr a la b :
  bytes_ok a ->
  records_all cf a hdr = Some la ->
  Forall (fun x => exists r, x = Ok r /\ complete_record r) la ->
  exists lb, records_all cf b hdr = Some lb /\ records_all cf (a ++ b) hdr = Some (la ++ lb).
Proof.
  intros Hb Ha Hf. destruct (records_all_decodes cf b hdr) as (lb & Hlb & Hd).
  exists lb; split; [assumption|]. apply records_all_iff. apply records_all_iff in Ha.
  apply decodes_app; assumption.
Qed.

Lemma with_fillers_decodes cf hdr fillers buffers :
  Forall bytes_ok buffers ->
  Forall (fun a => exists la, records_all cf a hdr = Some la /\
                    Forall (fun x => exists r, x = Ok r /\ complete_record r) la) buffers ->
  exists l, decodes cf hdr (with_fillers fillers buffers) l /\
            decodes cf hdr (concat buffers) l.
Proof.
  revert buffers; induction fillers as [|n fillers IH]; intros buffers Hb Hf.
  - assert (E : with_fillers [] buffers = concat buffers) by (destruct buffers; reflexivity).
    rewrite E. destruct (records_all_decodes cf (concat buffers) hdr) as (l & _ & Hd). eauto.
  - destruct buffers as [|b buffers].
    + cbn [with_fillers concat]. exists []; split; [|constructor].
      rewrite <- (app_nil_r (repeat 0x2F n)). apply decodes_fillers; constructor.
    + inversion Hb as [|? ? Hb1 Hb2]; subst. inversion Hf as [|? ? (la & Ha & Hc) Hf2]; subst.
      destruct (IH buffers Hb2 Hf2) as (l & H1 & H2). apply records_all_iff in Ha.
      cbn [with_fillers concat]. exists (la ++ l); split.
      * apply decodes_fillers. apply decodes_app; assumption.
      * apply decodes_app; assumption.
Qed.

Lemma fillers_ignored cf hdr fillers buffers :
  Forall bytes_ok buffers ->
  Forall (fun a => exists la, records_all cf a hdr = Some la /\
                    Forall (fun x => exists r, x = Ok r /\ complete_record r) la) buffers ->
  records_all cf (with_fillers fillers buffers) hdr = records_all cf (concat buffers) hdr.
Proof.
  intros Hb Hf; destruct (with_fillers_decodes cf hdr fillers buffers Hb Hf) as (l & H1 & H2).
  apply records_all_iff in H1, H2. congruence.
Qed.
