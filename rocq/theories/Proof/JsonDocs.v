(** What the JSON documents say. *)
From Coq Require Import List NArith ZArith Lia Bool String.
Import ListNotations.
From Verif Require Import Model.Base Model.Text Model.Core Model.F64 Model.Hex Model.Wired Model.DataInfo Model.ValueInfo Model.Record Model.MbusData Model.Show
  Model.Output Model.Format Model.Render Model.Json Spec.TextSpec Spec.JsonSpec
  Proof.BaseFacts Proof.CoreFacts Proof.TextFacts Proof.ShowFacts Proof.OutputFacts Proof.OutputRecords Proof.RenderFacts Proof.JsonFacts.
Open Scope N_scope.
Open Scope list_scope.

(** ** Numbers *)
Lemma dec_numeral n : numeral (dec n).
Proof.
  destruct (dec_text n) as (D & E & Z & _). exists [], (dec n), [], []. rewrite !app_nil_r. repeat split; [now left| |now left|now left].
  destruct (dec n) as [|c rest] eqn:K; [congruence|]. inversion D as [|? ? Hc Hr]; subst. unfold digit_char in Hc.
  destruct (N.eq_dec c 48) as [->|Nc]; [left; now rewrite (Z 48 rest eq_refl eq_refl)|]. right. exists c, rest. repeat split; try lia. exact Hr.
Qed.

(** ** Distinct names, and numerals *)
Fixpoint no_dup (l : list text) : bool :=
  match l with [] => true | x :: r => negb (existsb (text_eqb x) r) && no_dup r end.
Lemma no_dup_ok l : no_dup l = true -> NoDup l.
Proof.
  induction l as [|x r IH]; intros H; [constructor|]. cbn in H. apply andb_true_iff in H as (A & B). constructor; [|now apply IH].
  intros K. apply negb_true_iff in A. assert (existsb (text_eqb x) r = true); [|congruence]. apply existsb_exists. exists x. split; [exact K|]. now apply text_eqb_ok.
Qed.
Definition fine (v : json) : Prop := distinct v /\ good_numbers v.
Lemma fine_string t : fine (VString t).
Proof. split; constructor; exact I. Qed.
Lemma fine_bool b : fine (VBool b).
Proof. split; constructor; exact I. Qed.
Lemma fine_null : fine VNull.
Proof. split; constructor; exact I. Qed.
Lemma fine_number t : numeral t -> fine (VNumber t).
Proof. intros H. split; [constructor; exact I|now constructor]. Qed.
Lemma fine_int n : fine (VInt n).
Proof. apply fine_number, dec_numeral. Qed.
Lemma fine_array {A} (f : A -> json) l : (forall a, In a l -> fine (f a)) -> fine (VArray (map f l)).
Proof.
  intros H. split; constructor; apply Forall_forall; intros v K; apply in_map_iff in K as (a & <- & Ha); now apply H.
Qed.
Lemma fine_object m : no_dup (map fst m) = true -> Forall (fun x => fine (snd x)) m -> fine (VObject m).
Proof.
  intros D F. split; constructor; [now apply no_dup_ok|..]; apply Forall_map; (eapply Forall_impl; [|exact F]); intros x [A B]; assumption.
Qed.
Lemma fine_always n v : fine v -> Forall (fun x => fine (snd x)) (always n v).
Proof. intros H. constructor; [exact H|constructor]. Qed.
Lemma fine_some {A} n (f : A -> json) o : (forall a, o = Some a -> fine (f a)) -> Forall (fun x => fine (snd x)) (if_some n f o).
Proof. intros H. destruct o as [a|]; [apply Forall_cons; [now apply H|apply Forall_nil]|apply Forall_nil]. Qed.
Lemma fine_any {A} n (f : A -> json) l : (forall a, In a l -> fine (f a)) -> Forall (fun x => fine (snd x)) (if_any n f l).
Proof.
  intros H. unfold if_any. destruct l as [|a l]; [apply Forall_nil|]. apply Forall_cons; [|apply Forall_nil]. cbn [snd]. now apply fine_array.
Qed.
Ltac members_fine := repeat (apply Forall_app; split);
  first [apply fine_always | apply fine_some; intros ? _ | apply fine_any; intros ? _];
  first [apply fine_string | apply fine_int | apply fine_bool | idtac].
Ltac names := repeat match goal with
  | |- context [if_some _ _ ?o] => destruct o; cbn [if_some]
  | |- context [if_any _ _ ?l] => destruct l; cbn [if_any]
  end; cbn [map fst app always if_some if_any]; vm_compute; reflexivity.

Lemma frame_fine f : fine (frame_json f).
Proof. apply fine_object; [names|members_fine]. Qed.
Lemma identity_fine i : fine (identity_json i).
Proof. apply fine_object; [names|members_fine]. Qed.
Lemma meter_fine d : fine (meter_json d).
Proof. apply fine_object; [names|members_fine]; apply identity_fine. Qed.
Lemma access_fine x : fine (access_json x).
Proof. apply fine_object; [names|members_fine]. Qed.
Lemma status_fine x : fine (status_json x).
Proof. destruct x as [[a b] c]. apply fine_object; [names|members_fine]. Qed.
Lemma configuration_fine x : fine (configuration_json x).
Proof. apply fine_object; [names|members_fine]. Qed.
Lemma ell_fine e : fine (ell_json e).
Proof. apply fine_object; [names|members_fine]. Qed.
Lemma transport_fine t : fine (transport_json t).
Proof. apply fine_object; [names|members_fine]; auto using access_fine, status_fine, configuration_fine, ell_fine. Qed.
Lemma security_fine s : fine (security_json s).
Proof. apply fine_object; [names|members_fine]. Qed.
Lemma raw_fine r : fine (raw_json r).
Proof. apply fine_object; [names|members_fine]. Qed.
Lemma diagnostic_fine d : fine (diagnostic_json d).
Proof. apply fine_object; [names|members_fine]. Qed.
Lemma enrichment_fine c e : fine (enrichment_json c e).
Proof. destruct e as [[a b] x]. apply fine_object; [names|members_fine]. Qed.

(** what holds of a value in the output of a decoder *)
Definition proper (v : json_value) : Prop :=
  match v with JString _ => True | JFloat x => finite x | JObject parts => no_dup (map fst parts) = true end.
Definition proper_record (r : record_out) : Prop := forall v, vo_value (ro_value r) = Some v -> proper v.
Lemma float_proper x : proper (float_value x).
Proof. destruct x as [s|[]| |s m e]; exact I. Qed.
Lemma temporal_proper k d m y h mi s v : vo_value (temporal_value k d m y h mi s) = Some v -> proper v.
Proof.
  unfold temporal_value. cbn [vo_value]. intros E. injection E as <-. destruct (temporal_iso d m y h mi s k); [exact I|]. cbn [proper].
  destruct (text_eqb k (txt "time")), h, mi, s; vm_compute; reflexivity.
Qed.
Lemma value_proper r v : vo_value (value_output r) = Some v -> proper v.
Proof.
  unfold value_output. cbv zeta. destruct (d_value (dr_data r)) as [[]|]; try discriminate; try apply temporal_proper;
    try (cbn [vo_value]; intros E; injection E as <-; exact I);
    (match goal with |- context [if ?b then _ else _] => destruct b end); cbn [vo_value]; intros E; injection E as <-; first [exact I|apply float_proper].
Qed.
Lemma outs_proper rs : forall i, Forall proper_record (outs_of i rs).
Proof.
  induction rs as [|r rs IH]; intros i; [constructor|]. cbn [outs_of]. constructor; [|apply IH]. intros v H. exact (value_proper r v H).
Qed.
Lemma decoded_proper env data key en d : decode_bytes env data key en = Ok d -> Forall proper_record (do_records d).
Proof. intros H. destruct (decoded_outs _ _ _ _ _ H) as (rs & ->). apply outs_proper. Qed.
Lemma decoded_enrichment env data key en d e : decode_bytes env data key en = Ok d -> do_enrichment d = Some e -> exists code, identity_code d code.
Proof.
  intros H. apply decode_builds in H as (pr & fr & nm & st & pl & u & rs & ae & id & sc & _ & H & _). unfold build_output in H.
  apply bind_ok in H as ((outs & re) & _ & H). destruct (meter_and_transport u id) as [[i al] tr]. apply Ok_inj in H. subst d. unfold identity_code. cbn [do_enrichment do_identity].
  destruct en; [|discriminate]. destruct i as [i|]; [|discriminate]. unfold and_then. destruct (id_manufacturer_code i) as [c|] eqn:Ec; [|discriminate]. eauto.
Qed.

Lemma json_value_fine number v : numerals number -> proper v -> fine (json_value_json number v).
Proof.
  intros Hn H. destruct v as [t|x|parts]; cbn [json_value_json]; [apply fine_string|apply fine_number, Hn, H|].
  apply fine_object.
  - rewrite map_map. cbn [proper] in H. rewrite <- H. f_equal. apply map_ext. intros [k c]. reflexivity.
  - apply Forall_map, Forall_forall. intros [k [n|t]] _; cbn [snd]; [apply fine_int|apply fine_string].
Qed.
Lemma record_fine number r : numerals number -> proper_record r -> fine (record_json number r).
Proof.
  intros Hn H. apply fine_object; [names|members_fine].
  - apply fine_array. intros q _. apply fine_string.
  - apply fine_object; [names|]. apply Forall_app. split; [apply fine_always, fine_string|]. apply fine_some. intros v E. apply json_value_fine; [exact Hn|now apply H].
Qed.
Lemma decoded_fine number d : numerals number -> Forall proper_record (do_records d) -> fine (decoded_json number d).
Proof.
  intros Hn H. apply fine_object; [names|members_fine]; auto using frame_fine, meter_fine, transport_fine, security_fine, raw_fine, enrichment_fine.
  - apply fine_array. intros r Hr. apply record_fine; [exact Hn|]. rewrite Forall_forall in H. now apply H.
  - apply fine_array. intros x _. apply diagnostic_fine.
Qed.

(** ** What the fields hold *)
Lemma forall2_map {A} (is : A -> json -> Prop) (f : A -> json) l : (forall a, In a l -> is a (f a)) -> Forall2 is l (map f l).
Proof. induction l as [|a l IH]; intros H; cbn [map]; constructor; [apply H; now left|]. apply IH. intros b Hb. apply H. now right. Qed.
Lemma list_map {A} (is : A -> json -> Prop) (f : A -> json) l : (forall a, In a l -> is a (f a)) -> list_of is (Some (VArray (map f l))) l.
Proof. intros H. eexists. split; [reflexivity|]. now apply forall2_map. Qed.
Lemma frame_said f : says_frame f (frame_json f).
Proof. destruct f as [k [] [] []]; repeat split. Qed.
Lemma identity_said i : says_identity i (identity_json i).
Proof. destruct i as [s [] [] [] [] []]; repeat split. Qed.
Lemma any_said {A} (is : A -> json -> Prop) f l : (forall a, is a (f a)) ->
  if_not_empty is (match l with [] => None | _ => Some (VArray (map f l)) end) l.
Proof. intros H. destruct l as [|a l]; [reflexivity|]. cbn [if_not_empty]. apply list_map. auto. Qed.
Lemma meter_said d : says_meter d (meter_json d).
Proof.
  unfold says_meter, meter_json. split.
  - destruct (do_identity d) as [i|]; [|destruct (do_alternate_identities d); reflexivity]. eexists. split; [reflexivity|apply identity_said].
  - pose proof (any_said says_identity identity_json (do_alternate_identities d) identity_said) as K.
    destruct (do_identity d), (do_alternate_identities d); exact K.
Qed.
Lemma access_said x : says_access x (access_json x).
Proof. repeat split. Qed.
Lemma status_said x : says_status x (status_json x).
Proof. destruct x as [[a b] c]. repeat split. Qed.
Lemma configuration_said x : says_configuration x (configuration_json x).
Proof. repeat split. Qed.
Lemma ell_said e : says_ell e (ell_json e).
Proof. destruct e as [a b [] [] [] []]; repeat split. Qed.
Lemma transport_said t : says_transport t (transport_json t).
Proof.
  pose proof (any_said says_access access_json (to_access_numbers t) access_said) as A.
  pose proof (any_said says_status status_json (to_statuses t) status_said) as B.
  unfold says_transport, transport_json. destruct t as [k ac st c e]; cbn [to_header_kind to_access_numbers to_statuses to_configuration to_ell] in *.
  destruct k, ac, st, c, e; (split; [reflexivity|]); (split; [exact A|]); (split; [exact B|]); split;
    first [reflexivity | eexists; split; [reflexivity|]; first [apply configuration_said | apply ell_said]].
Qed.
Lemma security_said s : says_security s (security_json s).
Proof. destruct s as [a [] [] b c [] []]; repeat split. Qed.
Lemma raw_said r : says_raw r (raw_json r).
Proof. destruct r as [[] a b c d []]; repeat split. Qed.
Lemma diagnostic_said d : says_diagnostic d (diagnostic_json d).
Proof. destruct d as [a b c d []]; repeat split. Qed.
Lemma value_said number v : says_value number v (json_value_json number v).
Proof.
  destruct v as [t|x|parts]; try reflexivity. eexists. split; [reflexivity|].
  induction parts as [|[k c] parts IH]; cbn [map]; constructor; [|exact IH]. destruct c; split; reflexivity.
Qed.
Lemma record_said number r : says_record number r (record_json number r).
Proof.
  assert (V : says_value_out number (ro_value r) (value_json number (ro_value r))).
  { destruct (ro_value r) as [k [v|]]; split; try reflexivity. eexists. split; [reflexivity|apply value_said]. }
  assert (Q : list_of (fun q x => x = VString q) (Some (VArray (map VString (ro_quantities r)))) (ro_quantities r)) by now apply list_map.
  unfold says_record, record_json. destruct (ro_unit r);
  (repeat match goal with |- _ /\ _ => split end); first [reflexivity | exact Q | eexists; split; [reflexivity|exact V]].
Qed.
Lemma enrichment_said c e : says_enrichment c e (enrichment_json (Some c) e).
Proof. destruct e as [[a b] d]. repeat split. Qed.
Lemma decoded_said number d : (forall e, do_enrichment d = Some e -> exists code, identity_code d code) ->
  says_decoded number d (decoded_json number d).
Proof.
  intros H. assert (R : list_of (says_record number) (Some (VArray (map (record_json number) (do_records d)))) (do_records d)).
  { apply list_map. intros r _. apply record_said. }
  assert (G : list_of says_diagnostic (Some (VArray (map diagnostic_json (do_diagnostics d)))) (do_diagnostics d)).
  { apply list_map. intros r _. apply diagnostic_said. }
  unfold says_decoded, decoded_json. destruct (do_enrichment d) as [e|].
  - destruct (H e eq_refl) as (code & i & Ei & Ec). rewrite Ei, Ec.
    (repeat match goal with |- _ /\ _ => split end); try reflexivity; try exact R; try exact G; try (eexists; split; [reflexivity|]; first [apply frame_said|apply meter_said|apply transport_said|apply security_said|apply raw_said]).
    exists code. split; [exists i; auto|]. eexists. split; [reflexivity|apply enrichment_said].
  - (repeat match goal with |- _ /\ _ => split end); try reflexivity; try exact R; try exact G; eexists; (split; [reflexivity|]); first [apply frame_said|apply meter_said|apply transport_said|apply security_said|apply raw_said].
Qed.

Theorem json_output env rn data options t : numerals (rn_number rn) -> render_bytes env rn data FJson options = Ok t ->
  exists d v, decode_bytes env data (op_key options) (op_include_enrichment options) = Ok d /\ json_text t v /\
    (forall v', json_text t v' -> v' = v) /\ distinct v /\ says_decoded (rn_number rn) d v.
Proof.
  intros Hn H. cbn [render_bytes] in H. apply bind_ok in H as (d & Hd & H). apply map_err_ok in Hd. apply Ok_inj in H.
  destruct (decoded_fine (rn_number rn) d Hn (decoded_proper _ _ _ _ _ Hd)) as [D G].
  exists d, (decoded_json (rn_number rn) d). split; [exact Hd|]. pose proof (pretty_text _ G) as P.
  change (to_string_pretty _) with (render_json (rn_number rn) d) in P. rewrite H in P. split; [exact P|].
  split; [intros v' K; exact (one_value _ _ _ K P)|]. split; [exact D|]. apply decoded_said. intros e. exact (decoded_enrichment _ _ _ _ _ e Hd).
Qed.
