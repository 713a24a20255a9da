(** Facts about value information, data information and the coding they select. *)
From Coq Require Import Permutation.
From Verif Require Import Proof.BaseFacts Proof.CoreFacts Model.Core Model.F64 Model.DataInfo Model.ValueInfo
  Model.Record Spec.RecordSpec Proof.RecordFacts.

(** *** Effects of table entries *)

Definition labels_of (ops : list vi_op) : list value_label :=
  flat_map (fun o => match o with PushLabel l => [l] | _ => [] end) ops.
Definition units_of (ops : list vi_op) : list unit_ :=
  flat_map (fun o => match o with PushUnit n e => [{| u_name := n; u_exponent := e |}] | _ => [] end) ops.
Fixpoint scale_of (ops : list vi_op) (z : Z) : Z :=
  match ops with
  | [] => z
  | SetScale x :: ops => scale_of ops x
  | AddScale x :: ops => scale_of ops (z + x)
  | _ :: ops => scale_of ops z
  end.
Fixpoint offset_of (ops : list vi_op) (z : Z) : Z :=
  match ops with
  | [] => z
  | AddOffset x :: ops => offset_of ops (z + x)
  | _ :: ops => offset_of ops z
  end.

Definition vi_effect (ops : list vi_op) (s : value_information) : value_information :=
  {| vi_decimal_offset_exponent := offset_of ops (vi_decimal_offset_exponent s);
     vi_labels := vi_labels s ++ labels_of ops;
     vi_decimal_scale_exponent := scale_of ops (vi_decimal_scale_exponent s);
     vi_units := vi_units s ++ units_of ops |}.

Lemma vi_runs_ok ops s s' : vi_runs ops s = Ok s' -> s' = vi_effect ops s.
Proof.
  revert s; induction ops as [|o ops IH]; intros s H; cbn [vi_runs] in H.
  - apply Ok_inj in H; subst. unfold vi_effect; cbn. rewrite !app_nil_r. destruct s'; reflexivity.
  - bind_inv H. rewrite (IH _ H). unfold vi_effect.
    destruct o; cbn [vi_run] in Ha;
      [destruct (_ <? 10); [|discriminate]|destruct (_ <? 10); [|discriminate]| | | ];
      apply Ok_inj in Ha; subst a; cbn; rewrite <- ?app_assoc; reflexivity.
Qed.

Lemma vi_runs_enough ops s :
  len (vi_labels s) + len (labels_of ops) <= 10 ->
  len (vi_units s) + len (units_of ops) <= 10 ->
  vi_runs ops s = Ok (vi_effect ops s).
Proof.
  revert s; induction ops as [|o ops IH]; intros s Hl Hu; cbn [vi_runs].
  - unfold vi_effect; cbn. rewrite !app_nil_r. destruct s; reflexivity.
  - assert (E : exists s', vi_run o s = Ok s' /\ s' = vi_effect [o] s).
    { unfold vi_effect; destruct o; cbn [vi_run].
      - destruct (N.ltb_spec (len (vi_units s)) 10) as [|H];
          [|exfalso; cbn [units_of flat_map app] in Hu; rewrite len_cons in Hu; lia].
        eexists; split; [reflexivity|]. cbn; rewrite ?app_nil_r; reflexivity.
      - destruct (N.ltb_spec (len (vi_labels s)) 10) as [|H];
          [|exfalso; cbn [labels_of flat_map app] in Hl; rewrite len_cons in Hl; lia].
        eexists; split; [reflexivity|]. cbn; rewrite ?app_nil_r; reflexivity.
      - eexists; split; [reflexivity|]. cbn; rewrite ?app_nil_r; reflexivity.
      - eexists; split; [reflexivity|]. cbn; rewrite ?app_nil_r; reflexivity.
      - eexists; split; [reflexivity|]. cbn; rewrite ?app_nil_r; reflexivity. }
    destruct E as (s' & Hr & Es). rewrite Hr; cbn [bind].
    rewrite IH.
    + f_equal. subst s'. unfold vi_effect. destruct o; cbn; rewrite <- ?app_assoc; reflexivity.
    + subst s'. unfold vi_effect; cbn [vi_labels]. rewrite len_app.
      destruct o; cbn [labels_of flat_map app] in Hl |- *; rewrite ?len_cons, ?len_nil in *;
        change (len (@nil value_label)) with 0 in *; unfold labels_of in *; lia.
    + subst s'. unfold vi_effect; cbn [vi_units]. rewrite len_app.
      destruct o; cbn [units_of flat_map app] in Hu |- *; rewrite ?len_cons, ?len_nil in *;
        change (len (@nil unit_)) with 0 in *; unfold units_of in *; lia.
Qed.

Lemma vi_runs_no_err ops s e : vi_runs ops s <> Err e.
Proof.
  revert s; induction ops as [|o ops IH]; intros s; cbn [vi_runs]; [discriminate|].
  destruct o; cbn [vi_run]; try (destruct (_ <? 10)); cbn [bind]; try discriminate; apply IH.
Qed.

(** *** Date labels *)
Definition is_date_label (l : value_label) : bool :=
  is_LDate l || is_LDateTime l || is_LTime l || is_LDateTimeWithSeconds l.
Definition no_date (ls : list value_label) : bool := negb (existsb is_date_label ls).

Lemma no_date_app a b : no_date (a ++ b) = no_date a && no_date b.
Proof. unfold no_date; rewrite existsb_app, negb_orb; reflexivity. Qed.

Lemma orth_no_date v : v < 256 ->
  no_date (labels_of (orth_ops v)) = true /\ no_date (labels_of (orth_extension_ops v)) = true.
Proof.
  intros H; split.
  - exact (sweep256 (fun v => no_date (labels_of (orth_ops v))) eq_refl v H).
  - exact (sweep256 (fun v => no_date (labels_of (orth_extension_ops v))) eq_refl v H).
Qed.

Lemma consume_labels vs ext s s' :
  bytes_ok vs -> consume_orthogonal vs ext s = Ok s' ->
  exists ls, vi_labels s' = vi_labels s ++ ls /\ no_date ls = true.
Proof.
  intros Hb; revert ext s; induction vs as [|v vs IH]; intros ext s H; cbn [consume_orthogonal] in H.
  - apply Ok_inj in H; subst. exists []; rewrite app_nil_r; auto.
  - apply bytes_ok_cons in Hb; destruct Hb as [Hv Hb]. destruct (orth_no_date v Hv) as [N1 N2].
    destruct (v =? 0xFC); [exact (IH Hb _ _ H)|].
    destruct ext; bind_inv H; apply vi_runs_ok in Ha; subst a;
      destruct (IH Hb _ _ H) as (ls & E & Hn); cbn [vi_labels vi_effect] in E;
      eexists; (split; [rewrite E, <- app_assoc; reflexivity|]); rewrite no_date_app, Hn, andb_true_r; assumption.
Qed.

Lemma main_no_date v w : v < 256 -> no_date (labels_of (main_ops v w)) = true.
Proof.
  intros H. destruct w as [w|].
  2:{ exact (sweep256 (fun v => no_date (labels_of (main_ops v None))) eq_refl v H). }
  destruct (N.eqb_spec (N.land v 0x7F) 0x7D) as [E|E].
  - unfold main_ops. rewrite E. cbn [N.leb N.eqb N.compare Pos.compare Pos.compare_cont Pos.eqb andb].
    repeat match goal with |- context [if ?b then _ else _] => destruct b end; reflexivity.
  - assert (G : main_ops v (Some w) = main_ops v None).
    { unfold main_ops. destruct (N.eqb_spec (N.land v 0x7F) 0x7D); [contradiction|]. reflexivity. }
    rewrite G. exact (sweep256 (fun v => no_date (labels_of (main_ops v None))) eq_refl v H).
Qed.

Lemma alternate_no_date v : v < 256 -> no_date (labels_of (alternate_ops v)) = true.
Proof. exact (sweep256 (fun v => no_date (labels_of (alternate_ops v))) eq_refl v). Qed.

Lemma has_label_app is a b v :
  vi_labels v = a ++ b -> has_label is v = existsb is a || existsb is b.
Proof. unfold has_label; intros ->; apply existsb_app. Qed.

Lemma no_date_label ls is :
  (forall l, is l = true -> is_date_label l = true) ->
  no_date ls = true -> existsb is ls = false.
Proof.
  intros Hi; unfold no_date; rewrite negb_true_iff; intros H.
  destruct (existsb is ls) eqn:E; [|reflexivity].
  apply existsb_exists in E; destruct E as (l & Hl & Hl').
  assert (existsb is_date_label ls = true) by (apply existsb_exists; eauto). congruence.
Qed.

Definition date_kind (vif : N) : N := if N.land vif 0x7F =? 0x6C then 1 else if N.land vif 0x7F =? 0x6D then 2 else 0.

(** what the VIF makes of the coding announced by the DIF *)
Definition selected (vif : N) (c : data_field_coding) : data_field_coding :=
  if N.land vif 0x7F =? 0x6C then CDateTypeG
  else if N.land vif 0x7F =? 0x6D then
    match c with CInteger48Bit => CDateTimeTypeI | _ => CDateTimeTypeF end
  else c.

Lemma primary_date v : v < 256 ->
  match primary_ops v with
  | None => True
  | Some ops =>
      existsb is_LDate (labels_of ops) = (N.land v 0x7F =? 0x6C) /\
      existsb is_LDateTime (labels_of ops) = (N.land v 0x7F =? 0x6D) /\
      existsb is_LTime (labels_of ops) = false /\
      existsb is_LDateTimeWithSeconds (labels_of ops) = false
  end.
Proof.
  intros H.
  pose proof (sweep256 (fun v => match primary_ops v with
    | None => true
    | Some ops =>
      Bool.eqb (existsb is_LDate (labels_of ops)) (N.land v 0x7F =? 0x6C) &&
      Bool.eqb (existsb is_LDateTime (labels_of ops)) (N.land v 0x7F =? 0x6D) &&
      negb (existsb is_LTime (labels_of ops)) &&
      negb (existsb is_LDateTimeWithSeconds (labels_of ops)) end) eq_refl v H) as G.
  cbv beta in G. destruct (primary_ops v); [|exact I].
  apply andb_prop in G; destruct G as [G G4]. apply andb_prop in G; destruct G as [G G3].
  apply andb_prop in G; destruct G as [G1 G2].
  apply Bool.eqb_prop in G1, G2. apply negb_true_iff in G3, G4. auto.
Qed.

Lemma coding_from_cases {E} vif c :
  vif < 256 -> value_information_coding_from (E := E) vif = Ok c ->
  match c with
  | VPrimary => vif <= 0x7B \/ 0x80 <= vif <= 0xFA
  | VPlainText => vif = 0x7C \/ vif = 0xFC
  | VMainVIFExtension => vif = 0xFD
  | VAlternateVIFExtension => vif = 0xFB
  | VManufacturerSpecific => vif = 0x7E \/ vif = 0xFE \/ vif = 0x7F \/ vif = 0xFF
  end.
Proof.
  intros _; unfold value_information_coding_from.
  destruct ((vif <=? 0x7B) || ((0x80 <=? vif) && (vif <=? 0xFA))) eqn:E1;
    [intros H; injection H as <-; lia|].
  destruct ((vif =? 0x7C) || (vif =? 0xFC)) eqn:E2; [intros H; injection H as <-; lia|].
  destruct (N.eqb_spec vif 0xFD); [intros H; injection H as <-; lia|].
  destruct (N.eqb_spec vif 0xFB); [intros H; injection H as <-; lia|].
  destruct (N.eqb_spec vif 0x7E); [intros H; injection H as <-; lia|].
  destruct (N.eqb_spec vif 0xFE); [intros H; injection H as <-; lia|].
  destruct (N.eqb_spec vif 0x7F); [intros H; injection H as <-; lia|].
  destruct (N.eqb_spec vif 0xFF); [intros H; injection H as <-; lia|]. discriminate.
Qed.

Lemma override_none v d :
  no_date (vi_labels v) = true -> override_coding v d = d.
Proof.
  intros H; unfold override_coding, has_label.
  rewrite !(no_date_label (vi_labels v)) by (try assumption; intros []; cbn; auto). reflexivity.
Qed.

Lemma set_coding_id d : set_coding d (di_data_field_coding d) = d.
Proof. destruct d; reflexivity. Qed.

Lemma override_selected b v d :
  bytes_ok (vib_vif b :: vife_bytes (vib_vifes b)) ->
  value_information_try_from b = Ok v ->
  override_coding v d = set_coding d (selected (vib_vif b) (di_data_field_coding d)).
Proof.
  intros Hb H; apply bytes_ok_cons in Hb; destruct Hb as [Hvif Hvs].
  unfold value_information_try_from in H. fold (vife_bytes (vib_vifes b)) in H.
  bind_inv H. pose proof (coding_from_cases _ _ Hvif Ha) as Hc.
  set (vs := vife_bytes (vib_vifes b)) in *.
  assert (K : forall k, k = N.land (vib_vif b) 0x7F -> k <> 0x6C -> k <> 0x6D ->
                selected (vib_vif b) (di_data_field_coding d) = di_data_field_coding d).
  { intros k -> K1 K2; unfold selected.
    destruct (N.eqb_spec (N.land (vib_vif b) 0x7F) 0x6C); [contradiction|].
    destruct (N.eqb_spec (N.land (vib_vif b) 0x7F) 0x6D); [contradiction|]. reflexivity. }
  assert (Hget : forall t, bytes_ok (match get_from vs t with Some l => l | None => [] end)).
  { intros t; destruct (get_from vs t) eqn:G; [|constructor].
    apply get_from_ok in G; destruct G as [_ ->]. apply bytes_ok_skipn; assumption. }
  destruct a.
  - (* primary *)
    bind_inv H. bind_inv H. apply ok_or_ok in Ha0. apply vi_runs_ok in Ha1; subst a0.
    destruct (consume_labels _ _ _ _ Hvs H) as (ls & E & Hn). cbn [vi_labels vi_effect vi_init app] in E.
    pose proof (primary_date _ Hvif) as P. rewrite Ha0 in P. destruct P as (P1 & P2 & P3 & P4).
    assert (HD : forall is, (forall l, is l = true -> is_date_label l = true) ->
                  has_label is v = existsb is (labels_of a)).
    { intros is Hi. rewrite (has_label_app is _ _ v E), (no_date_label ls is Hi Hn), orb_false_r. reflexivity. }
    unfold override_coding.
    rewrite !HD by (intros []; cbn; auto). rewrite P1, P2, P3, P4. unfold selected.
    destruct (N.land (vib_vif b) 0x7F =? 0x6C); [reflexivity|].
    destruct (N.land (vib_vif b) 0x7F =? 0x6D); [reflexivity|]. rewrite set_coding_id; reflexivity.
  - bind_inv H. apply vi_runs_ok in Ha0; subst a.
    destruct (consume_labels _ _ _ _ Hvs H) as (ls & E & Hn). cbn [vi_labels vi_effect vi_init app] in E.
    rewrite override_none by (rewrite E, no_date_app, Hn; reflexivity).
    rewrite (K _ eq_refl) by (destruct Hc as [-> | ->]; discriminate). rewrite set_coding_id; reflexivity.
  - bind_inv H. bind_inv H. apply ok_or_ok in Ha0. apply vi_runs_ok in Ha1; subst a0.
    destruct (consume_labels _ _ _ _ (Hget 1) H) as (ls & E & Hn). cbn [vi_labels vi_effect vi_init app] in E.
    rewrite override_none.
    2:{ rewrite E, no_date_app, Hn, main_no_date; [reflexivity|]. eapply bytes_ok_get; eassumption. }
    rewrite (K _ eq_refl) by (rewrite Hc; discriminate). rewrite set_coding_id; reflexivity.
  - bind_inv H. bind_inv H. apply ok_or_ok in Ha0. apply vi_runs_ok in Ha1; subst a0.
    destruct (consume_labels _ _ _ _ (Hget 1) H) as (ls & E & Hn). cbn [vi_labels vi_effect vi_init app] in E.
    rewrite override_none.
    2:{ rewrite E, no_date_app, Hn, alternate_no_date; [reflexivity|]. eapply bytes_ok_get; eassumption. }
    rewrite (K _ eq_refl) by (rewrite Hc; discriminate). rewrite set_coding_id; reflexivity.
  - apply vi_runs_ok in H; subst v.
    rewrite override_none by reflexivity.
    rewrite (K _ eq_refl) by (destruct Hc as [-> |[-> |[-> | ->]]]; discriminate).
    rewrite set_coding_id; reflexivity.
Qed.

(** the coding of an accepted header *)
Lemma header_coding cf data h di :
  bytes_ok data -> header_try_from cf data = Ok h ->
  ph_data_information (drh_processed h) = Some di ->
  let dif := dib_dif (rh_dib (drh_raw h)) in
  di_data_field_coding di =
    match rh_vib (drh_raw h) with
    | Some v => selected (vib_vif v) (data_field_coding_of dif)
    | None => data_field_coding_of dif
    end.
Proof.
  intros Hb H Hdi. cbv zeta.
  unfold header_try_from in H. bind_inv H. bind_inv H. apply Ok_inj in H; subst h; cbn in *.
  apply raw_header_split in Ha. destruct Ha as (d & r & -> & _ & _ & _ & Hv).
  unfold processed_header_try_from, from_die in Ha0.
  destruct Hv as [[HS HN]|(HS & v & r2 & HV & -> & _)].
  - rewrite HN, HS in Ha0. bind_inv Ha0. apply map_err_ok in Ha. apply Ok_inj in Ha0; subst a0; cbn in Hdi.
    injection Hdi as <-. rewrite HN. apply data_information_coding; assumption.
  - rewrite HV in Ha0 |- *. bind_inv Ha0. bind_inv Ha0. apply map_err_ok in Ha, Ha1.
    apply Ok_inj in Ha0; subst a0; cbn in Hdi. injection Hdi as <-.
    apply bytes_ok_app in Hb; destruct Hb as [_ Hb]. apply bytes_ok_app in Hb; destruct Hb as [Hb _].
    rewrite (override_selected v a1 a2); [|unfold vib_bytes in Hb|assumption].
    + cbn [di_data_field_coding set_coding]. rewrite (data_information_coding _ _ Ha1). reflexivity.
    + apply bytes_ok_cons in Hb; destruct Hb as [Hb1 Hb2]. apply bytes_ok_cons; split; [assumption|].
      destruct (plaintext_before_extension cf); apply bytes_ok_app in Hb2; tauto.
Qed.
