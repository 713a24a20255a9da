(** Record sizes, DIF and VIF chains, corrections, panics: lemmas behind the
    property theorems. *)
From Coq Require Import Permutation.
From Verif Require Import Proof.BaseFacts Proof.CoreFacts Model.Core Model.F64 Model.DataInfo Model.ValueInfo
  Model.Record Spec.RecordSpec Proof.RecordFacts Proof.HeaderFacts Proof.IterFacts.

(** *** C31 *)
Lemma coding_width cf dif rest hdr d :
  dif mod 16 <> 15 ->
  coding_parse cf (data_field_coding_of dif) rest hdr = Ok d ->
  field_width (dif mod 16) rest = Some (d_size d) /\ d_size d <= len rest.
Proof.
  intros Hn H. unfold data_field_coding_of in H. cbv zeta in H. rewrite land_15 in H.
  assert (Hk : dif mod 16 < 16) by lia.
  set (k := dif mod 16) in *. clearbody k.
  destruct (N.eqb_spec k 0) as [->|N0].
  { apply Ok_inj in H; subst d; cbn; auto. }
  destruct (N.eqb_spec k 1) as [->|N1]; [apply integer_size in H; destruct H as [-> ?]; auto|].
  destruct (N.eqb_spec k 2) as [->|N2]; [apply integer_size in H; destruct H as [-> ?]; auto|].
  destruct (N.eqb_spec k 3) as [->|N3]; [apply integer_size in H; destruct H as [-> ?]; auto|].
  destruct (N.eqb_spec k 4) as [->|N4]; [apply integer_size in H; destruct H as [-> ?]; auto|].
  destruct (N.eqb_spec k 5) as [->|N5].
  { cbn [coding_parse] in H. destruct (N.ltb_spec (len rest) 4); [discriminate|].
    bind_all H. apply Ok_inj in H; subst d; cbn [d_size]; auto. }
  destruct (N.eqb_spec k 6) as [->|N6]; [apply integer_size in H; destruct H as [-> ?]; auto|].
  destruct (N.eqb_spec k 7) as [->|N7]; [apply integer_size in H; destruct H as [-> ?]; auto|].
  destruct (N.eqb_spec k 8) as [->|N8].
  { apply Ok_inj in H; subst d; cbn; auto. }
  destruct (N.eqb_spec k 9) as [->|N9]; [apply bcd_size in H; destruct H as [-> ?]; auto|].
  destruct (N.eqb_spec k 10) as [->|N10]; [apply bcd_size in H; destruct H as [-> ?]; auto|].
  destruct (N.eqb_spec k 11) as [->|N11]; [apply bcd_size in H; destruct H as [-> ?]; auto|].
  destruct (N.eqb_spec k 12) as [->|N12]; [apply bcd_size in H; destruct H as [-> ?]; auto|].
  destruct (N.eqb_spec k 13) as [->|N13].
  { cbn [coding_parse] in H. apply variable_size in H. destruct H as (n & w & Hg & Hw & -> & Hl).
    split; [|assumption].
    destruct rest as [|x rest]; [discriminate|]. injection Hg as ->. cbn [field_width]. rewrite Hw; reflexivity. }
  destruct (N.eqb_spec k 14) as [->|N14]; [apply bcd_size in H; destruct H as [-> ?]; auto|].
  lia.
Qed.

Lemma special_is_15 dif : is_special_function dif = true <-> dif mod 16 = 15.
Proof. unfold is_special_function; rewrite land_15; apply N.eqb_eq. Qed.

Lemma coding_special cf dif rest hdr d :
  dif mod 16 = 15 -> dif <> 0x0F -> dif <> 0x1F ->
  coding_parse cf (data_field_coding_of dif) rest hdr = Ok d -> d_size d = 0.
Proof.
  intros Hn H0 H1 H. unfold data_field_coding_of in H. cbv zeta in H. rewrite land_15, Hn in H.
  cbn [N.eqb Pos.eqb] in H. unfold special_function in H.
  destruct (N.eqb_spec dif 0x0F); [contradiction|].
  destruct (N.eqb_spec dif 0x1F); [contradiction|].
  destruct (N.eqb_spec dif 0x2F); [apply Ok_inj in H; subst; reflexivity|].
  destruct (N.eqb_spec dif 0x7F); [apply Ok_inj in H; subst; reflexivity|]. discriminate.
Qed.

Definition header_vif (h : data_record_header) : option N := option_map vib_vif (rh_vib (drh_raw h)).
Definition header_dif (h : data_record_header) : N := dib_dif (rh_dib (drh_raw h)).

Lemma not_date_selected vif c :
  ~ date_vif vif -> selected vif c = c.
Proof.
  unfold date_vif, selected; rewrite land_127; intros H.
  destruct (N.eqb_spec (vif mod 128) 0x6C); [tauto|].
  destruct (N.eqb_spec (vif mod 128) 0x6D); [tauto|]. reflexivity.
Qed.

Lemma header_coding_plain cf data h di :
  bytes_ok data -> header_try_from cf data = Ok h ->
  ph_data_information (drh_processed h) = Some di ->
  (forall v, rh_vib (drh_raw h) = Some v -> ~ date_vif (vib_vif v)) ->
  di_data_field_coding di = data_field_coding_of (dib_dif (rh_dib (drh_raw h))).
Proof.
  intros Hb H Hdi Hv. rewrite (header_coding cf data h di Hb H Hdi).
  destruct (rh_vib (drh_raw h)) as [v|]; [|reflexivity].
  apply not_date_selected; auto.
Qed.

Lemma record_width cf data hdr r :
  bytes_ok data -> data_record_parse cf data hdr = Ok r ->
  let raw := drh_raw (dr_header r) in
  let dif := dib_dif (rh_dib raw) in
  (forall v, rh_vib raw = Some v -> ~ date_vif (vib_vif v)) ->
  dif <> 0x0F -> dif <> 0x1F ->
  exists head body rest,
    data = head ++ body ++ rest /\ dr_raw_bytes r = head ++ body /\
    len head = header_get_size (dr_header r) /\ len body = d_size (dr_data r) /\
    if dif mod 16 =? 15 then body = [] else field_width (dif mod 16) (body ++ rest) = Some (len body).
Proof.
  intros Hb H. cbv zeta; intros Hv H0 H1.
  destruct (record_split _ _ _ _ H) as (p & rest & di & -> & Hp & Hh & Hdi & Hc & _ & q & s & -> & Hraw & Hq).
  rewrite (header_coding_plain _ _ _ _ Hb Hh Hdi Hv) in Hc.
  exists p, q, s. split; [reflexivity|]. split; [assumption|]. split; [assumption|].
  destruct (N.eqb_spec (dib_dif (rh_dib (drh_raw (dr_header r))) mod 16) 15) as [E|E].
  - apply coding_special in Hc; try assumption. rewrite Hc in Hq.
    assert (len q = 0) by lia. split; [lia|]. apply len_0; assumption.
  - apply coding_width in Hc; [|assumption]. destruct Hc as [Hw Hl].
    rewrite len_app in Hl.
    assert (Hlq : len q = d_size (dr_data r)).
    { destruct Hq as [|[-> ?]]; [assumption|]. rewrite len_nil in Hl; lia. }
    split; [assumption|]. rewrite Hlq; assumption.
Qed.

(** *** C27 *)
Lemma dib_accepts data b :
  bytes_ok data ->
  dib_try_from data = Ok b <->
  (exists dif rest, data = dif :: rest /\ dif < 128 /\ b = {| dib_dif := dif; dib_difes := None |}) \/
  (exists dif difes rest, data = dif :: difes ++ rest /\ 128 <= dif /\ chain difes /\ len difes <= 11 /\
     b = {| dib_dif := dif; dib_difes := Some difes |}).
Proof.
  intros Hb; split.
  - intros H; apply dib_ok in H.
    destruct H as [(dif & rest & -> & E & ->)|(dif & difes & rest & -> & E & Hx & Hl & ->)];
      apply bytes_ok_cons in Hb; destruct Hb as [Hd Hb]; rewrite has_extension_spec in E by assumption.
    + left; exists dif, rest; repeat split; lia.
    + right; exists dif, difes, rest. apply bytes_ok_app in Hb; destruct Hb as [Hb _].
      repeat split; try assumption; [lia|]. apply xchain_chain; assumption.
  - intros [(dif & rest & -> & E & ->)|(dif & difes & rest & -> & E & Hx & Hl & ->)];
      apply bytes_ok_cons in Hb; destruct Hb as [Hd Hb].
    + apply dib_plain. rewrite has_extension_spec by assumption; lia.
    + apply bytes_ok_app in Hb; destruct Hb as [Hb _].
      apply dib_ext; [rewrite has_extension_spec by assumption; lia| |assumption].
      apply xchain_chain; assumption.
Qed.

Lemma ext_Forall m : bytes_ok m ->
  Forall (fun x => has_extension x = true) m <-> Forall extends m.
Proof.
  intros Hb; rewrite !Forall_forall. unfold bytes_ok, byte_ok in Hb; rewrite Forall_forall in Hb.
  unfold extends; split; intros H x Hx; specialize (H x Hx); specialize (Hb x Hx);
    rewrite has_extension_spec in * by assumption; lia.
Qed.

Lemma dib_rejects data e :
  bytes_ok data ->
  dib_try_from data = Err e <->
  (data = [] /\ e = NoData) \/
  (exists dif m rest, data = dif :: m ++ rest /\ 128 <= dif /\ Forall extends m /\ len m = 11 /\ e = DataTooLong) \/
  (exists dif m, data = dif :: m /\ 128 <= dif /\ Forall extends m /\ len m < 11 /\ e = DataTooShort).
Proof.
  intros Hb. destruct data as [|dif data].
  { cbn [dib_try_from]; split.
    - intros H; injection H as <-; auto.
    - intros [[_ ->]|[(?&?&?&?&_)|(?&?&?&_)]]; [reflexivity|discriminate|discriminate]. }
  apply bytes_ok_cons in Hb; destruct Hb as [Hd Hb].
  cbn [dib_try_from]. rewrite has_extension_spec by assumption.
  destruct (N.leb_spec 128 dif) as [E|E]; cbn [andb].
  2:{ split; [discriminate|].
      intros [[? _]|[(?&?&?&H&?&_)|(?&?&H&?&_)]]; [discriminate| |]; injection H as <- _; lia. }
  destruct (count_ext_split data) as (m & r & -> & Hm & Hc & Hr). rewrite Hc.
  apply bytes_ok_app in Hb; destruct Hb as [Hbm Hbr].
  assert (Hm' := Hm). apply (ext_Forall m Hbm) in Hm'.
  unfold MAXIMUM_DATA_INFORMATION_SIZE.
  assert (Huniq : forall m2 rest2, m ++ r = m2 ++ rest2 -> Forall extends m2 -> len m2 <= len m).
  { intros m2 rest2 Eq Hm2. apply app_eq_app in Eq.
    destruct Eq as (z & [[-> ->]|[-> ->]]); [rewrite len_app; lia|].
    destruct Hr as [Hr|(b' & r' & Er & Hb')].
    - apply app_eq_nil in Hr; destruct Hr as [-> _]. rewrite app_nil_r; lia.
    - destruct z as [|z1 z2]; [rewrite app_nil_r; lia|].
      injection Er as -> _. apply Forall_app in Hm2; destruct Hm2 as [_ Hm2].
      inversion Hm2 as [|? ? Hx _]; subst. unfold extends in Hx.
      apply bytes_ok_app in Hbr; destruct Hbr as [Hbr _]. apply bytes_ok_cons in Hbr.
      rewrite has_extension_spec in Hb' by tauto. lia. }
  destruct (N.ltb_spec 11 (len m + 1)) as [Hl|Hl].
  - split.
    + intros H; injection H as <-. right; left.
      exists dif, (firstn 11 m), (skipn 11 m ++ r). rewrite app_assoc, firstn_skipn.
      repeat split; auto.
      * rewrite <- (firstn_skipn 11 m) in Hm'; apply Forall_app in Hm'; tauto.
      * rewrite len_firstn; lia.
    + intros [[? _]|[(?&?&?&H&?&_&_& ->)|(?&m2&H&?&Hf&Hlt&_)]]; [discriminate|reflexivity|].
      injection H as _ H. exfalso.
      assert (len (m ++ r) = len m2) by congruence. rewrite len_app in *. lia.
  - destruct (N.ltb_spec (len (m ++ r)) (len m + 1)) as [Hs|Hs].
    + assert (r = []) as -> by (apply len_0; rewrite len_app in Hs; lia).
      rewrite app_nil_r in *. split.
      * intros H; injection H as <-. right; right. exists dif, m; repeat split; auto; lia.
      * intros [[? _]|[(?&m2&r2&H&?&Hf&Hl2&_)|(?&?&?&_&_&_& ->)]]; [discriminate| |reflexivity].
        injection H as _ H. exfalso. specialize (Huniq m2 r2 H Hf). lia.
    + unfold ok_or. destruct (get_to (m ++ r) (len m + 1)) eqn:G.
      2:{ unfold get_to in G. destruct (N.leb_spec (len m + 1) (len (m ++ r))); [discriminate|lia]. }
      cbn [bind]. split; [discriminate|].
      intros [[? _]|[(?&m2&r2&H&?&Hf&Hl2&_)|(?&m2&H&?&Hf&Hl2&_)]]; [discriminate| |].
      * injection H as _ H. exfalso. specialize (Huniq m2 r2 H Hf). lia.
      * injection H as _ H. exfalso.
        assert (Hle : len m2 <= len m) by (apply (Huniq m2 []); [rewrite app_nil_r; assumption|assumption]).
        assert (len (m ++ r) = len m2) by congruence. lia.
Qed.

(** *** C25 *)
Lemma lor_shift a b k : a < 2 ^ k -> N.lor a (N.shiftl b k) = a + b * 2 ^ k.
Proof.
  intros Ha. rewrite N.add_nocarry_lxor.
  - rewrite <- N.shiftl_mul_pow2. symmetry. apply N.lxor_lor.
    apply N.bits_inj_0. intros n. rewrite N.land_spec.
    destruct (N.lt_ge_cases n k) as [Hn|Hn].
    + rewrite N.shiftl_spec_low by assumption. apply andb_false_r.
    + replace (N.testbit a n) with false; [reflexivity|].
      symmetry. destruct (N.eq_0_gt_0_cases a) as [->|H0]; [apply N.bits_0|].
      apply N.bits_above_log2. apply N.log2_lt_pow2 in Ha; [lia|assumption].
  - apply N.bits_inj_0. intros n. rewrite N.land_spec.
    destruct (N.lt_ge_cases n k) as [Hn|Hn].
    + rewrite N.mul_pow2_bits_low by assumption. apply andb_false_r.
    + replace (N.testbit a n) with false; [reflexivity|].
      symmetry. destruct (N.eq_0_gt_0_cases a) as [->|H0]; [apply N.bits_0|].
      apply N.bits_above_log2. apply N.log2_lt_pow2 in Ha; [lia|assumption].
Qed.

Lemma dife_fields b : b < 256 ->
  N.shiftr (N.land b 0x30) 4 = (b / 16) mod 4 /\ N.shiftr (N.land b 0x40) 6 = (b / 64) mod 2.
Proof.
  intros H; split; apply N.eqb_eq.
  - exact (sweep256 (fun b => N.shiftr (N.land b 0x30) 4 =? (b / 16) mod 4) eq_refl b H).
  - exact (sweep256 (fun b => N.shiftr (N.land b 0x40) 6 =? (b / 64) mod 2) eq_refl b H).
Qed.

Lemma dife_loop_ok difes st ta de x i ti di :
  bytes_ok difes -> ta < 2 ^ ti -> de < 2 ^ di -> i + len difes <= 12 ->
  exists x', dife_loop difes st ta de x i ti di =
    Ok (st + 2 ^ (i * 4 + 1) * digits 16 (fun b => b mod 16) difes,
        ta + 2 ^ ti * en_tariff difes,
        de + 2 ^ di * en_subunit difes, x', i + len difes).
Proof.
  unfold en_tariff, en_subunit.
  revert st ta de x i ti di; induction difes as [|b difes IH]; intros st ta de x i ti di Hb Ht Hd Hi.
  - exists x; cbn [dife_loop digits]. rewrite !N.mul_0_r, !N.add_0_r. reflexivity.
  - apply bytes_ok_cons in Hb; destruct Hb as [Hb Hbs]. rewrite len_cons in Hi.
    cbn [dife_loop digits]. unfold MAXIMUM_DATA_INFORMATION_SIZE.
    destruct (N.ltb_spec 11 i); [lia|].
    destruct (dife_fields b Hb) as [-> ->]. rewrite land_15.
    rewrite !lor_shift by assumption. rewrite N.shiftl_mul_pow2.
    edestruct (IH (st + b mod 16 * 2 ^ (i * 4 + 1)) (ta + (b / 16) mod 4 * 2 ^ ti)
                  (de + (b / 64) mod 2 * 2 ^ di) (has_extension b) (i + 1) (ti + 2) (di + 1))
      as (x' & ->); try assumption.
    + rewrite N.pow_add_r. change (2 ^ 2) with 4.
      assert ((b / 16) mod 4 < 4) by lia. nia.
    + rewrite N.pow_add_r. change (2 ^ 1) with 2.
      assert ((b / 64) mod 2 < 2) by lia. nia.
    + lia.
    + exists x'. f_equal. rewrite len_cons.
      replace ((i + 1) * 4 + 1) with (i * 4 + 1 + 4) by lia.
      rewrite (N.pow_add_r 2 (i * 4 + 1) 4), (N.pow_add_r 2 ti 2), (N.pow_add_r 2 di 1).
      change (2 ^ 4) with 16. change (2 ^ 2) with 4. change (2 ^ 1) with 2.
      assert (D : forall s d p k e, s + d * p + p * k * e = s + p * (d + k * e)) by (intros; ring).
      rewrite !D. replace (i + 1 + len difes) with (i + (len difes + 1)) by lia. reflexivity.
Qed.

Lemma data_information_fields b :
  bytes_ok (dib_dif b :: match dib_difes b with Some l => l | None => [] end) ->
  match dib_difes b with Some l => len l <= 11 | None => True end ->
  exists di, data_information_try_from b = Ok di /\
    let difes := match dib_difes b with Some l => l | None => [] end in
    di_storage_number di = (dib_dif b / 64) mod 2 + 32 * digits 16 (fun x => x mod 16) difes /\
    di_tariff di = en_tariff difes /\
    di_device di = en_subunit difes /\
    di_size di = 1 + len difes.
Proof.
  destruct b as [dif difes]; cbn [dib_dif dib_difes]. intros Hb Hl.
  apply bytes_ok_cons in Hb; destruct Hb as [Hd Hb].
  unfold data_information_try_from; cbn [dib_dif dib_difes].
  destruct (dife_fields dif Hd) as [_ ->].
  destruct difes as [difes|].
  - edestruct (dife_loop_ok difes ((dif / 64) mod 2) 0 0 (has_extension dif) 1 0 0) as (x' & ->);
      try assumption; try reflexivity; [lia|].
    cbn [bind]. eexists; split; [reflexivity|]. cbn.
    change (2 ^ 5) with 32. rewrite !N.mul_1_l. auto.
  - cbn [bind]. eexists; split; [reflexivity|]. cbn. rewrite N.add_0_r. auto.
Qed.

(** *** C28 *)
Lemma vib_accepts cf data v :
  bytes_ok data -> vib_try_from cf data = Ok v ->
  let vifes := match vib_vifes v with Some l => l | None => [] end in
  let text := match vib_plaintext v with Some t => len t :: t | None => [] end in
  exists rest,
    data = vib_vif v :: (if plaintext_before_extension cf then text ++ vifes else vifes ++ text) ++ rest /\
    vib_get_size v = len data - len rest /\
    (* the chain ends at the first byte without extension bit, or with the data *)
    (vib_vif v < 128 /\ vifes = [] \/
     128 <= vib_vif v /\ (chain vifes \/ Forall extends vifes /\ rest = [])) /\
    len vifes <= 10 /\
    (vib_plaintext v <> None <->
     (vib_vif v = 0xFC \/ (vib_vif v = 0x7C /\ plaintext_before_extension cf = true))).
Proof.
  intros Hb H; cbv zeta.
  destruct (vib_ok _ _ _ H) as (rest & -> & Hs).
  exists rest.
  assert (E : vib_bytes cf v =
    vib_vif v :: (if plaintext_before_extension cf
                  then plain_bytes (vib_plaintext v) ++ vife_bytes (vib_vifes v)
                  else vife_bytes (vib_vifes v) ++ plain_bytes (vib_plaintext v))) by reflexivity.
  fold (plain_bytes (vib_plaintext v)). fold (vife_bytes (vib_vifes v)).
  apply bytes_ok_app in Hb; destruct Hb as [Hb _].
  assert (Hvif : vib_vif v < 256) by (apply bytes_ok_cons in Hb; tauto).
  assert (Hvs : bytes_ok (vife_bytes (vib_vifes v))).
  { apply bytes_ok_cons in Hb; destruct Hb as [_ Hb].
    destruct (plaintext_before_extension cf); apply bytes_ok_app in Hb; tauto. }
  split; [rewrite E; reflexivity|].
  split; [rewrite len_app, vib_bytes_len; lia|].
  unfold vib_shape in Hs. rewrite !has_extension_spec in Hs by assumption.
  destruct Hs as [Hs1 Hs2].
  destruct (vib_vifes v) as [l|]; cbn [vife_bytes] in *.
  - destruct Hs1 as (H1 & H2 & H3 & H4). split; [|split; [assumption|]].
    + right; split; [lia|]. destruct H4 as [H4|(-> & H4 & _)].
      * left; apply xchain_chain; assumption.
      * right; split; [|reflexivity]. apply ext_Forall; assumption.
    + unfold contains_ascii in *. destruct (vib_plaintext v) as [t|].
      * destruct Hs2 as (H5 & _ & H6). split; [intros _|discriminate].
        destruct (N.eqb_spec (vib_vif v) 0x7C) as [E1|]; cbn [orb] in H5; [lia|].
        left; apply N.eqb_eq; assumption.
      * split; [congruence|]. intros H6 _. destruct Hs2 as [H5|[H5 H7]]; lia.
  - split; [|split; [auto|]].
    + destruct Hs1 as [H1|[-> H1]]; [left; split; [lia|reflexivity]|].
      destruct (N.leb_spec 128 (vib_vif v)); [right|left; split; [lia|reflexivity]].
      split; [lia|]. right; split; [constructor|reflexivity].
    + unfold contains_ascii in *. destruct (vib_plaintext v) as [t|].
      * destruct Hs2 as (H5 & _ & H6). split; [intros _|discriminate].
        destruct (plaintext_before_extension cf).
        -- lia.
        -- specialize (H6 eq_refl). lia.
      * split; [congruence|]. intros H6 _.
        destruct Hs2 as [H5|[H5 H7]]; [lia|].
        rewrite H5 in H6. lia.
Qed.

(** *** C33 *)
Lemma land_plus128 v k : v < 128 -> k < 128 -> N.land (v + 128) k = N.land v k.
Proof.
  intros Hv Hk. replace (v + 128) with (N.lor v (N.shiftl 1 7)) by (rewrite lor_shift; [reflexivity|assumption]).
  rewrite N.land_lor_distr_l.
  replace (N.land (N.shiftl 1 7) k) with 0; [apply N.lor_0_r|].
  symmetry. apply N.bits_inj_0. intros n. rewrite N.land_spec.
  destruct (N.lt_ge_cases n 7) as [Hn|Hn].
  - rewrite N.shiftl_spec_low by assumption. reflexivity.
  - replace (N.testbit k n) with false; [apply andb_false_r|].
    symmetry. destruct (N.eq_0_gt_0_cases k) as [->|H0]; [apply N.bits_0|].
    apply N.bits_above_log2. change 128 with (2 ^ 7) in Hk. apply N.log2_lt_pow2 in Hk; [lia|assumption].
Qed.

Lemma primary_ops_ext v : v < 128 -> primary_ops (v + 128) = primary_ops v.
Proof. intros H; unfold primary_ops. rewrite !land_plus128 by (assumption || reflexivity). reflexivity. Qed.
Lemma orth_ops_ext v : v < 128 -> orth_ops (v + 128) = orth_ops v.
Proof. intros H; unfold orth_ops. rewrite !land_plus128 by (assumption || reflexivity). reflexivity. Qed.
Lemma orth_extension_ops_ext v : v < 128 -> orth_extension_ops (v + 128) = orth_extension_ops v.
Proof. intros H; unfold orth_extension_ops. rewrite !land_plus128 by (assumption || reflexivity). reflexivity. Qed.
Lemma alternate_ops_ext v : v < 128 -> alternate_ops (v + 128) = alternate_ops v.
Proof. intros H; unfold alternate_ops. rewrite !land_plus128 by (assumption || reflexivity). reflexivity. Qed.
Lemma main_ops_ext v s : v < 128 -> main_ops (v + 128) s = main_ops v s.
Proof. intros H; unfold main_ops. rewrite !land_plus128 by (assumption || reflexivity). reflexivity. Qed.
Lemma main_ops_second v s : s < 128 -> main_ops v (Some (s + 128)) = main_ops v (Some s).
Proof. intros H; unfold main_ops. rewrite !(land_plus128 s) by (assumption || reflexivity). reflexivity. Qed.

Lemma correction_code n : n < 8 ->
  orth_ops (0x70 + n) = [AddScale (Z.of_N n - 6)%Z] /\
  (0x70 + n =? 0xFC) = false /\ N.land (0x70 + n) 0x7F = 0x70 + n.
Proof.
  intros H.
  assert (n = 0 \/ n = 1 \/ n = 2 \/ n = 3 \/ n = 4 \/ n = 5 \/ n = 6 \/ n = 7)
    as [->|[->|[->|[->|[->|[->|[->| ->]]]]]]] by lia; repeat split; reflexivity.
Qed.

Lemma main_ops_second_correction v n : n < 8 -> main_ops v (Some (0x70 + n)) = main_ops v None.
Proof.
  intros H; unfold main_ops. destruct (correction_code n H) as (_ & _ & ->).
  destruct (N.eqb_spec (0x70 + n) 0x00); [lia|].
  destruct (N.eqb_spec (0x70 + n) 0x02); [lia|].
  destruct (N.eqb_spec (0x70 + n) 0x03); [lia|].
  destruct (N.eqb_spec (0x70 + n) 0x3E); [lia|]. reflexivity.
Qed.

Fixpoint pend (vs : list N) (ext : bool) : bool :=
  match vs with [] => ext | v :: vs => pend vs (v =? 0xFC) end.

Lemma pend_snoc m y ext : pend (m ++ [y]) ext = (y =? 0xFC).
Proof. revert ext; induction m as [|x m IH]; intros ext; cbn [app pend]; [reflexivity|apply IH]. Qed.

Lemma bind_assoc {E A B C} (x : outcome E A) (f : A -> outcome E B) (g : B -> outcome E C) :
  bind (bind x f) g = bind x (fun a => bind (f a) g).
Proof. destruct x; reflexivity. Qed.

Lemma consume_app vs ws ext s :
  consume_orthogonal (vs ++ ws) ext s =
  bind (consume_orthogonal vs ext s) (fun s' => consume_orthogonal ws (pend vs ext) s').
Proof.
  revert ext s; induction vs as [|v vs IH]; intros ext s; [reflexivity|].
  cbn [app consume_orthogonal pend].
  destruct (v =? 0xFC); [apply IH|].
  destruct ext; rewrite bind_assoc; destruct (vi_runs _ s); cbn [bind]; [apply IH|reflexivity|reflexivity|
    apply IH|reflexivity|reflexivity].
Qed.

Lemma consume_last_ext m y ext s :
  y < 128 -> y <> 0x7C ->
  consume_orthogonal (m ++ [y + 128]) ext s = consume_orthogonal (m ++ [y]) ext s.
Proof.
  intros H1 H2. rewrite !consume_app. destruct (consume_orthogonal m ext s); [|reflexivity|reflexivity].
  cbn [bind consume_orthogonal].
  destruct (N.eqb_spec (y + 128) 0xFC); [lia|]. destruct (N.eqb_spec y 0xFC); [lia|].
  rewrite orth_ops_ext, orth_extension_ops_ext by assumption. reflexivity.
Qed.

Lemma consume_correction n s :
  n < 8 -> consume_orthogonal [0x70 + n] false s = Ok (scaled_by (Z.of_N n - 6) s).
Proof.
  intros H; cbn [consume_orthogonal]. destruct (correction_code n H) as (-> & -> & _).
  reflexivity.
Qed.

Lemma consume_appended m y n s s' :
  y < 128 -> y <> 0x7C -> n < 8 ->
  consume_orthogonal (m ++ [y]) false s = Ok s' ->
  consume_orthogonal (m ++ [y + 128; 0x70 + n]) false s = Ok (scaled_by (Z.of_N n - 6) s').
Proof.
  intros H1 H2 H3 H.
  replace (m ++ [y + 128; 0x70 + n]) with ((m ++ [y + 128]) ++ [0x70 + n])
    by (rewrite <- app_assoc; reflexivity).
  rewrite consume_app, consume_last_ext, H by assumption; cbn [bind].
  rewrite pend_snoc. destruct (N.eqb_spec (y + 128) 0xFC); [lia|].
  apply consume_correction; assumption.
Qed.

Lemma coding_from_primary {E} vif :
  vif <= 0x7B \/ 0x80 <= vif <= 0xFA -> value_information_coding_from (E := E) vif = Ok VPrimary.
Proof.
  intros H; unfold value_information_coding_from.
  replace ((vif <=? 0x7B) || ((0x80 <=? vif) && (vif <=? 0xFA))) with true by lia. reflexivity.
Qed.

Lemma correction_step b n b' v :
  n < 8 -> correctable b -> appended b (0x70 + n) b' ->
  value_information_try_from b = Ok v ->
  value_information_try_from b' = Ok (scaled_by (Z.of_N n - 6) v) /\ correctable b'.
Proof.
  destruct b as [vif vifes pt], b' as [vif' vifes' pt']; unfold correctable, appended;
    cbn [vib_vif vib_vifes vib_plaintext].
  intros Hn (Hb & Hvif & Hl) (-> & Ha) H.
  assert (Hx : forall m, Some (m ++ [0x70 + n]) <> Some (m ++ [0x7C])) .
  { intros m E; injection E as E. apply app_inv_head in E. injection E as E; lia. }
  unfold value_information_try_from in *; cbn [vib_vif vib_vifes] in *.
  destruct Ha as [(-> & Hv & -> & ->)|(m & y & -> & Hy & -> & ->)].
  - assert (Hv7 : vif < 0x7B) by lia.
    rewrite coding_from_primary in H by lia. rewrite coding_from_primary by lia. cbn [bind] in *.
    rewrite primary_ops_ext by assumption. split.
    + bind_inv H. bind_inv H. rewrite Ha; cbn [bind]. rewrite Ha0; cbn [bind].
      cbn [consume_orthogonal] in H; apply Ok_inj in H; subst a0. apply consume_correction; assumption.
    + split; [|split; [lia|]].
      * apply bytes_ok_cons in Hb. apply bytes_ok_cons; split; [lia|]. apply bytes_ok_cons; split; [lia|constructor].
      * intros m E; injection E as E. destruct m as [|? [|]]; cbn in E; injection E as E; try discriminate.
        lia.
  - assert (Hy7 : y <> 0x7C) by (intros ->; apply (Hl m); reflexivity).
    assert (Hb' : bytes_ok (vif :: m ++ [y + 128; 0x70 + n])).
    { apply bytes_ok_cons in Hb; destruct Hb as [Hb1 Hb2]. apply bytes_ok_app in Hb2; destruct Hb2 as [Hb2 _].
      apply bytes_ok_cons; split; [assumption|]. apply bytes_ok_app; split; [assumption|].
      apply bytes_ok_cons; split; [lia|]. apply bytes_ok_cons; split; [lia|constructor]. }
    split; [|split; [exact Hb'|split; [exact Hvif|]]].
    2:{ intros m' E; injection E as E.
        replace (m ++ [y + 128; 0x70 + n]) with ((m ++ [y + 128]) ++ [0x70 + n]) in E
          by (rewrite <- app_assoc; reflexivity).
        apply app_inj_tail in E; destruct E as [_ E]. lia. }
    bind_inv H. rewrite Ha; cbn [bind].
    apply bytes_ok_cons in Hb. pose proof (coding_from_cases _ _ (proj1 Hb) Ha) as Hc.
    destruct a; cbn [bind] in *.
    + bind_inv H. bind_inv H. rewrite Ha0; cbn [bind]. rewrite Ha1; cbn [bind].
      apply consume_appended; assumption.
    + lia.
    + bind_inv H. bind_inv H. apply ok_or_ok in Ha0.
      destruct m as [|f m].
      * cbn [app] in *. change (get [y] 0) with (Some y) in Ha0. injection Ha0 as <-.
        change (get [y + 128; 0x70 + n] 0) with (Some (y + 128)).
        change (get [y + 128; 0x70 + n] 1) with (Some (0x70 + n)).
        change (get_from [y + 128; 0x70 + n] 1) with (Some [0x70 + n]).
        change (get [y] 1) with (@None N) in Ha1. change (get_from [y] 1) with (Some (@nil N)) in H.
        cbn [ok_or bind]. rewrite main_ops_ext, main_ops_second_correction by assumption.
        rewrite Ha1; cbn [bind]. cbn [consume_orthogonal] in H; apply Ok_inj in H; subst a0.
        apply consume_correction; assumption.
      * change ((f :: m) ++ [y]) with (f :: (m ++ [y])) in *.
        change ((f :: m) ++ [y + 128; 0x70 + n]) with (f :: (m ++ [y + 128; 0x70 + n])).
        change (get (f :: m ++ [y]) 0) with (Some f) in Ha0. injection Ha0 as <-.
        change (get (f :: m ++ [y + 128; 0x70 + n]) 0) with (Some f). cbn [ok_or bind].
        change (f :: m ++ [y]) with ([f] ++ m ++ [y]) in H.
        rewrite (get_from_app_n [f] (m ++ [y])) in H by reflexivity.
        change (get_from (f :: m ++ [y + 128; 0x70 + n]) 1)
          with (get_from ([f] ++ m ++ [y + 128; 0x70 + n]) 1).
        rewrite (get_from_app_n [f] (m ++ [y + 128; 0x70 + n])) by reflexivity.
        assert (E : main_ops f (get (f :: m ++ [y + 128; 0x70 + n]) 1) = main_ops f (get (f :: m ++ [y]) 1)).
        { destruct m as [|g m]; [|reflexivity]. cbn [app].
          change (get [f; y + 128; 0x70 + n] 1) with (Some (y + 128)).
          change (get [f; y] 1) with (Some y). apply main_ops_second; assumption. }
        rewrite E, Ha1; cbn [bind]. apply consume_appended; assumption.
    + bind_inv H. bind_inv H. apply ok_or_ok in Ha0.
      destruct m as [|f m].
      * cbn [app] in *. change (get [y] 0) with (Some y) in Ha0. injection Ha0 as <-.
        change (get [y + 128; 0x70 + n] 0) with (Some (y + 128)).
        change (get_from [y + 128; 0x70 + n] 1) with (Some [0x70 + n]).
        change (get_from [y] 1) with (Some (@nil N)) in H.
        cbn [ok_or bind]. rewrite alternate_ops_ext by assumption.
        rewrite Ha1; cbn [bind]. cbn [consume_orthogonal] in H; apply Ok_inj in H; subst a0.
        apply consume_correction; assumption.
      * change ((f :: m) ++ [y]) with (f :: (m ++ [y])) in *.
        change ((f :: m) ++ [y + 128; 0x70 + n]) with (f :: (m ++ [y + 128; 0x70 + n])).
        change (get (f :: m ++ [y]) 0) with (Some f) in Ha0. injection Ha0 as <-.
        change (get (f :: m ++ [y + 128; 0x70 + n]) 0) with (Some f). cbn [ok_or bind].
        change (f :: m ++ [y]) with ([f] ++ m ++ [y]) in H.
        rewrite (get_from_app_n [f] (m ++ [y])) in H by reflexivity.
        change (get_from (f :: m ++ [y + 128; 0x70 + n]) 1)
          with (get_from ([f] ++ m ++ [y + 128; 0x70 + n]) 1).
        rewrite (get_from_app_n [f] (m ++ [y + 128; 0x70 + n])) by reflexivity.
        rewrite Ha1; cbn [bind]. apply consume_appended; assumption.
    + lia.
Qed.

Lemma scaled_by_add x y v : scaled_by x (scaled_by y v) = scaled_by (y + x) v.
Proof. unfold scaled_by; cbn. f_equal; lia. Qed.

Lemma corrections ns b b' v :
  Forall (fun n => n < 8) ns -> correctable b ->
  appended_all b (map (fun n => 0x70 + n) ns) b' ->
  value_information_try_from b = Ok v ->
  value_information_try_from b' = Ok (scaled_by (correction_sum ns) v).
Proof.
  revert b v; induction ns as [|n ns IH]; intros b v Hn Hc Ha H; inversion Ha; subst; cbn [correction_sum].
  - rewrite H; f_equal. destruct v; unfold scaled_by; cbn. f_equal; lia.
  - inversion Hn; subst.
    match goal with H1 : appended ?b0 _ ?b1, H4 : appended_all ?b1 _ _ |- _ =>
      destruct (correction_step b0 n b1 v) as [K2 K3]; [assumption..|];
      rewrite (IH b1 _ ltac:(assumption) K3 H4 K2) end.
    rewrite scaled_by_add. reflexivity.
Qed.

Lemma correction_sum_perm ns ns' : Permutation ns ns' -> correction_sum ns = correction_sum ns'.
Proof. induction 1; cbn [correction_sum]; lia. Qed.

Lemma Forall_perm {A} (P : A -> Prop) l l' : Permutation l l' -> Forall P l -> Forall P l'.
Proof. intros Hp; rewrite !Forall_forall; intros H x Hx; apply H. eapply Permutation_in; [symmetry|]; eassumption. Qed.

Lemma corrections_any_order ns ns' b b1 b2 v :
  Permutation ns ns' -> Forall (fun n => n < 8) ns -> correctable b ->
  appended_all b (map (fun n => 0x70 + n) ns) b1 ->
  appended_all b (map (fun n => 0x70 + n) ns') b2 ->
  value_information_try_from b = Ok v ->
  value_information_try_from b1 = value_information_try_from b2.
Proof.
  intros Hp Hn Hc H1 H2 H.
  rewrite (corrections ns b b1 v), (corrections ns' b b2 v); try assumption.
  - rewrite (correction_sum_perm ns ns' Hp); reflexivity.
  - eapply Forall_perm; eassumption.
Qed.
