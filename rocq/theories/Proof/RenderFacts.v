(** Lemmas about rendering: values, CSV and errors. *)
From Coq Require Import String List NArith Lia Bool.
Import ListNotations.
From Verif Require Import Model.Base Model.Text Model.F64 Model.DataInfo Model.ValueInfo Model.Record Model.Show Model.Hex Model.Format Model.Output Model.Rscada Model.Json Model.Csv Model.Render
  Spec.CsvSpec Spec.RenderSpec Proof.BaseFacts Proof.CsvFacts Proof.ShowFacts Proof.TextFacts Proof.RecordFacts Proof.OutputFacts Proof.OutputRecords.
Open Scope N_scope.

Lemma items_outs message items : forall index offset outs re,
  collect_items message items index offset = Ok (outs, re) -> exists rs, outs = outs_of index rs.
Proof.
  induction items as [|[r|e|p] items IH]; cbn [collect_items]; intros index offset outs re H.
  - inversion H; subst. exists []. reflexivity.
  - bind_inv H. destruct a as [rest er]. destruct (IH _ _ _ _ Ha) as (rs & ->). inversion H; subst. exists (r :: rs). reflexivity.
  - inversion H; subst. exists []. reflexivity.
  - discriminate.
Qed.

(** the records of a decoded frame are numbered from 0 *)
Lemma decoded_outs env data key en d : decode_bytes env data key en = Ok d -> exists rs, do_records d = outs_of 0 rs.
Proof.
  intros H. destruct (decode_builds _ _ _ _ _ H) as (pr & fr & nm & st & pl & u & rs & ae & id & sc & _ & B & _).
  destruct (build_output_ok _ _ _ _ _ _ _ _ _ _ _ _ _ _ B) as (outs & re & C & -> & _).
  destruct rs as [rs|]; [|cbn in C; inversion C; exists []; reflexivity].
  cbn [collect_records] in C. destruct (collect _ _ _) as [items|]; [|discriminate]. exact (items_outs _ _ _ _ _ _ C).
Qed.

Lemma outs_nth rs : forall k i r, nth_error (outs_of k rs) i = Some r -> exists x, r = record_output (k + N.of_nat i) x.
Proof.
  induction rs as [|x rs IH]; intros k [|i] r H; try discriminate; cbn [outs_of nth_error] in H.
  - inversion H. exists x. rewrite N.add_0_r. reflexivity.
  - destruct (IH _ _ _ H) as (y & ->). exists y. f_equal. lia.
Qed.

Lemma separated_join sep l : join sep l = separated sep l.
Proof. induction l as [|a [|b l] IH]; [reflexivity|reflexivity|]. cbn [join separated] in *. rewrite IH. reflexivity. Qed.

Lemma replace_filter s : replace_char 32 [] s = filter (fun c => negb (c =? 32)) s.
Proof. induction s as [|c s IH]; [reflexivity|]. cbn. fold (replace_char 32 [] s). rewrite IH. destruct (c =? 32); reflexivity. Qed.

(** the values that occur *)
Definition regular (v : value_out) : Prop :=
  (exists j, vo_value v = Some j) \/ vo_kind v = txt "manufacturer_specific" \/ vo_kind v = txt "none".
Lemma value_regular r : regular (value_output r).
Proof.
  unfold value_output, regular. destruct (d_value (dr_data r)) as [[]|]; try (left; eexists; reflexivity);
    try (right; left; reflexivity); try (right; right; reflexivity);
    (destruct (ph_data_information _) as [i|]; [destruct (di_data_field_coding i)|]; left; eexists; reflexivity).
Qed.
Lemma value_shown rn r : regular (ro_value r) -> shown_value (rn_number rn) r (value_display rn r).
Proof.
  intros H. unfold value_display. destruct (vo_value (ro_value r)) as [[t|x|c]|] eqn:E.
  - apply SvText. exact E.
  - apply SvNumber. exact E.
  - rewrite separated_join. exact (SvComponents _ _ c E).
  - destruct H as [[j H]|[H|H]]; [congruence| |]; rewrite H.
    + rewrite replace_filter. apply SvBytes; assumption.
    + apply SvNothing; assumption.
Qed.
Lemma shown_unique number r v1 v2 : shown_value number r v1 -> shown_value number r v2 -> v1 = v2.
Proof. intros [] []; congruence || (try congruence); repeat match goal with H : ?a = _, G : ?a = _ |- _ => rewrite H in G; clear H end; discriminate. Qed.

Lemma bytes_shown r : shown_bytes r (record_hex r).
Proof. unfold shown_bytes, record_hex. destruct (ro_header_hex r), (ro_data_hex r); reflexivity. Qed.
Lemma reading_shown rn r : regular (ro_value r) -> shown_reading (rn_number rn) r (reading rn r).
Proof.
  intros H. exists (value_display rn r). split; [exact (value_shown rn r H)|]. unfold reading. cbv zeta.
  destruct (ro_quantities r); [reflexivity|rewrite separated_join; reflexivity].
Qed.
Lemma numbers_shown r : numbers r = shown_numbers r.
Proof. reflexivity. Qed.

(** *** CSV *)
Lemma dec_digits n : Forall (fun c => 48 <= c <= 57) (dec n) /\ dec n <> [].
Proof. destruct (dec_text n) as (H & H1 & _). split; [|exact H1]. exact H. Qed.
Lemma dec_injective a b : dec a = dec b -> a = b.
Proof. intros H. destruct (dec_text a) as (_ & _ & _ & <-), (dec_text b) as (_ & _ & _ & <-). rewrite H. reflexivity. Qed.

Definition record_header (i : N) (field : text) : text := txt "record_" ++ dec i ++ txt "_" ++ field.

Lemma digits_under a b f g : Forall (fun c => 48 <= c <= 57) a -> Forall (fun c => 48 <= c <= 57) b ->
  a ++ 95 :: f = b ++ 95 :: g -> a = b /\ f = g.
Proof.
  revert b. induction a as [|x a IH]; intros [|y b] Ha Hb H; cbn in H.
  - inversion H. auto.
  - inversion H; subst. inversion Hb; subst. lia.
  - inversion H; subst. inversion Ha; subst. lia.
  - inversion H; subst. inversion Ha; inversion Hb; subst. destruct (IH b) as [-> ->]; auto.
Qed.
Lemma record_header_injective i j f g : record_header i f = record_header j g -> i = j /\ f = g.
Proof.
  intros H. unfold record_header in H. apply app_inv_head in H.
  destruct (digits_under (dec i) (dec j) f g (proj1 (dec_digits i)) (proj1 (dec_digits j)) H) as [E ->].
  split; [apply dec_injective; exact E|reflexivity].
Qed.
Lemma record_header_frame i f : ~ In (record_header i f) frame_fields.
Proof.
  intros H. assert (B : forall x, In x frame_fields -> match skipn 7 x with c :: _ => firstn 7 x = txt "record_" -> 58 <= c | [] => True end).
  { clear. apply Forall_forall. unfold frame_fields. repeat constructor; cbn; try discriminate; lia. }
  specialize (B _ H). unfold record_header in B.
  change (skipn 7 (txt "record_" ++ dec i ++ txt "_" ++ f)) with (dec i ++ txt "_" ++ f) in B.
  change (firstn 7 (txt "record_" ++ dec i ++ txt "_" ++ f)) with (txt "record_") in B.
  destruct (dec_digits i) as [D N]. destruct (dec i) as [|c t]; [congruence|]. cbn in B. inversion D; subst.
  specialize (B eq_refl). lia.
Qed.

Definition record_headers (outs : list record_out) : list text :=
  flat_map (fun r => map (fun field => record_header (ro_index r) field) record_fields) outs.

Lemma record_headers_in rs : forall k x, In x (record_headers (outs_of k rs)) -> exists i f, k <= i /\ x = record_header i f.
Proof.
  intros k x H. apply in_flat_map in H. destruct H as (r & Hr & Hx). apply In_nth_error in Hr. destruct Hr as (i & Hi).
  destruct (outs_nth _ _ _ _ Hi) as (y & ->). apply in_map_iff in Hx. destruct Hx as (f & <- & _).
  exists (k + N.of_nat i), f. split; [lia|reflexivity].
Qed.

Lemma nodup_text (l : list text) : (fix go (l : list text) := match l with [] => true | x :: l => negb (existsb (text_eqb x) l) && go l end) l = true -> NoDup l.
Proof.
  induction l as [|x l IH]; intros H; [constructor|]. apply andb_true_iff in H. destruct H as [H1 H2].
  constructor; [|apply IH; exact H2]. intros Hin. apply negb_true_iff in H1.
  assert (E : existsb (text_eqb x) l = true). { apply existsb_exists. exists x. split; [exact Hin|]. apply text_eqb_ok. reflexivity. }
  congruence.
Qed.
Lemma record_fields_nodup : NoDup record_fields.
Proof. apply nodup_text. vm_compute. reflexivity. Qed.
Lemma frame_fields_nodup : NoDup frame_fields.
Proof. apply nodup_text. vm_compute. reflexivity. Qed.

Lemma nodup_app {A} (a b : list A) : NoDup a -> NoDup b -> (forall x, In x a -> In x b -> False) -> NoDup (a ++ b).
Proof.
  intros Ha Hb H. induction Ha as [|x a Hx Ha IH]; [exact Hb|]. cbn. constructor.
  - intros Hin. apply in_app_or in Hin. destruct Hin as [Hin|Hin]; [tauto|]. apply (H x); [left; reflexivity|exact Hin].
  - apply IH. intros y Hy. apply H. right. exact Hy.
Qed.

Lemma record_headers_nodup rs : forall k, NoDup (record_headers (outs_of k rs)).
Proof.
  induction rs as [|r rs IH]; intros k; [constructor|]. cbn [outs_of record_headers flat_map].
  apply nodup_app; [|apply IH|].
  - apply FinFun.Injective_map_NoDup; [|exact record_fields_nodup]. intros x y H. apply (record_header_injective _ _ _ _ H).
  - intros x H1 H2. apply in_map_iff in H1. destruct H1 as (f & <- & _).
    destruct (record_headers_in rs (k + 1) _ H2) as (i & g & Hi & E). apply record_header_injective in E. cbn in E. lia.
Qed.

Lemma csv_headers_split d : csv_headers d = frame_fields ++ record_headers (do_records d).
Proof. reflexivity. Qed.

Lemma csv_headers_nodup env data key en d : decode_bytes env data key en = Ok d -> NoDup (csv_headers d).
Proof.
  intros H. destruct (decoded_outs _ _ _ _ _ H) as (rs & E). rewrite csv_headers_split, E.
  apply nodup_app; [exact frame_fields_nodup|apply record_headers_nodup|].
  intros x H1 H2. destruct (record_headers_in _ _ _ H2) as (i & f & _ & ->). exact (record_header_frame _ _ H1).
Qed.

Lemma csv_lengths rn d : length (csv_row rn d) = length (csv_headers d).
Proof.
  unfold csv_row, csv_headers. rewrite !app_length. f_equal.
  induction (do_records d) as [|r l IH]; [reflexivity|]. cbn [flat_map]. rewrite !app_length, IH. reflexivity.
Qed.

Lemma column_app h1 h2 r1 r2 x c : length h1 = length r1 ->
  (column (h1 ++ h2) (r1 ++ r2) x c <-> column h1 r1 x c \/ column h2 r2 x c).
Proof.
  intros L. split.
  - intros (k & H1 & H2). destruct (Nat.lt_ge_cases k (length h1)) as [Hk|Hk].
    + left. exists k. rewrite nth_error_app1 in H1 by exact Hk. rewrite nth_error_app1 in H2 by lia. auto.
    + right. exists (k - length h1)%nat. rewrite nth_error_app2 in H1 by exact Hk. rewrite nth_error_app2, <- L in H2 by lia. auto.
  - intros [(k & H1 & H2)|(k & H1 & H2)].
    + exists k. split; [rewrite nth_error_app1; [exact H1|apply nth_error_Some; congruence]|].
      rewrite nth_error_app1; [exact H2|apply nth_error_Some; congruence].
    + exists (length h1 + k)%nat. rewrite !nth_error_app2 by lia. rewrite <- L. replace (length h1 + k - length h1)%nat with k by lia. auto.
Qed.
Lemma column_cons h hs r rs x c : column (h :: hs) (r :: rs) x c <-> (h = x /\ r = c) \/ column hs rs x c.
Proof.
  split.
  - intros ([|k] & H1 & H2); cbn in *; [left; split; congruence|right; exists k; auto].
  - intros [[-> ->]|(k & H)]; [exists 0%nat; auto|exists (S k); exact H].
Qed.
Lemma column_nil x c : ~ column [] [] x c.
Proof. intros ([|k] & H & _); discriminate. Qed.

Lemma record_columns rn r i x c : regular (ro_value r) ->
  (column (map (fun field => record_header i field) record_fields) (csv_record_values rn r) x c <->
   exists field, record_column (rn_number rn) r field c /\ x = record_header i field).
Proof.
  intros Hr. unfold record_fields, csv_record_values. cbn [map]. rewrite !column_cons, separated_join.
  assert (Hn := column_nil x c). split.
  - intros H. repeat (destruct H as [[<- <-]|H]); [..|contradiction]; eexists; (split; [|reflexivity]); constructor.
    apply value_shown. exact Hr.
  - intros (f & Hf & ->). destruct Hf; tauto || idtac.
    assert (E := shown_unique _ _ _ _ (value_shown rn r Hr) H). tauto.
Qed.

Lemma frame_columns d x c : column frame_fields (csv_frame_row d) x c <-> frame_column d x c.
Proof.
  unfold frame_fields, csv_frame_row. cbn [map]. rewrite !column_cons, !separated_join. cbv zeta.
  assert (Hn := column_nil x c).
  assert (E1 : map (fun '(source, value) => source ++ txt ":" ++ dec value) (to_access_numbers (do_transport d)) =
               map (fun a => fst a ++ txt ":" ++ dec (snd a)) (to_access_numbers (do_transport d))).
  { apply map_ext. intros []. reflexivity. }
  assert (E2 : map (fun '(_, raw, _) => raw) (to_statuses (do_transport d)) =
               map (fun s => snd (fst s)) (to_statuses (do_transport d)) :> list text).
  { apply map_ext. intros [[]]. reflexivity. }
  split.
  - intros H. repeat (destruct H as [[<- <-]|H]); [..|contradiction]; rewrite ?E1, ?E2; try (constructor; fail).
    all: try (destruct (do_identity d) as [i|] eqn:Ei; [econstructor; exact Ei|apply FcNoIdentity; [exact Ei|cbn; tauto]]).
    all: try (destruct (do_enrichment d) as [[[n w] ds]|] eqn:Ee; [econstructor; exact Ee|apply FcNoEnrichment; [exact Ee|cbn; tauto]]).
  - intros H. destruct H; rewrite ?E1, ?E2; try match goal with H : do_identity d = _ |- _ => rewrite H end;
      try match goal with H : do_enrichment d = _ |- _ => rewrite H end; try tauto.
    + destruct H0 as [<-|[<-|[<-|[]]]]; tauto.
    + destruct H0 as [<-|[<-|[]]]; tauto.
Qed.

Lemma csv_columns rn env data key en d : decode_bytes env data key en = Ok d ->
  forall x c, column (csv_headers d) (csv_row rn d) x c <-> csv_column (rn_number rn) d x c.
Proof.
  intros H x c. destruct (decoded_outs _ _ _ _ _ H) as (rs & E). rewrite csv_headers_split. unfold csv_row, csv_column.
  rewrite column_app by reflexivity. rewrite frame_columns. apply or_iff_compat_l. rewrite E. clear.
  assert (G : forall k, column (record_headers (outs_of k rs)) (flat_map (csv_record_values rn) (outs_of k rs)) x c <->
    exists i r field, nth_error (outs_of k rs) i = Some r /\ record_column (rn_number rn) r field c /\ x = record_header (k + N.of_nat i) field).
  { induction rs as [|r rs IH]; intros k.
    - split; [intros ([|] & H & _); discriminate|intros ([|] & r & f & H & _); discriminate].
    - cbn [outs_of record_headers flat_map]. rewrite column_app by reflexivity.
      cbn [ro_index record_output]. fold (record_output k r). rewrite record_columns by apply value_regular.
      unfold record_headers in IH. rewrite IH. split.
      + intros [(f & H1 & H2)|(i & r0 & f & H1 & H2 & H3)].
        * exists 0%nat, (record_output k r), f. rewrite N.add_0_r. auto.
        * exists (S i), r0, f. split; [exact H1|]. split; [exact H2|]. rewrite H3. f_equal. lia.
      + intros ([|i] & r0 & f & H1 & H2 & H3); cbn [nth_error] in H1.
        * left. inversion H1; subst r0. exists f. rewrite N.add_0_r in H3. auto.
        * right. exists i, r0, f. split; [exact H1|]. split; [exact H2|]. rewrite H3. f_equal. lia. }
  rewrite (G 0). reflexivity.
Qed.

Lemma render_csv_ok rn d : render_csv rn d = Ok (csv_line (csv_headers d) ++ csv_line (csv_row rn d)).
Proof. unfold render_csv. cbv zeta. unfold len. rewrite csv_lengths, N.eqb_refl. reflexivity. Qed.

Lemma csv_text env rn data options t : render_bytes env rn data FCsv options = Ok t ->
  exists d headers row, decode_bytes env data (op_key options) (op_include_enrichment options) = Ok d /\
    reads_only t [headers; row] /\
    length headers = length row /\ NoDup headers /\
    forall name cell, column headers row name cell <-> csv_column (rn_number rn) d name cell.
Proof.
  intros H. unfold render_bytes in H. apply bind_ok in H as (d & D & H). apply map_err_ok in D. rewrite render_csv_ok in H. apply Ok_inj in H. subst t.
  exists d, (csv_headers d), (csv_row rn d).
  split; [exact D|]. split; [apply two_lines; discriminate|]. split; [symmetry; apply csv_lengths|].
  split; [eapply csv_headers_nodup; exact D|]. eapply csv_columns. exact D.
Qed.

(** *** Errors *)
Lemma decoded_cases env (rn : renderers) data options (k : decoded_output -> outcome render_error text) :
  let r := (d <- map_err RDecode (decode_bytes env data (op_key options) (op_include_enrichment options)) ;; k d) in
  (exists d, decode_bytes env data (op_key options) (op_include_enrichment options) = Ok d /\ r = k d) \/
  (exists e, decode_bytes env data (op_key options) (op_include_enrichment options) = Err e /\ r = Err (RDecode e)) \/
  (exists p, decode_bytes env data (op_key options) (op_include_enrichment options) = Panic p /\ r = Panic p).
Proof.
  destruct rn. cbv zeta. destruct (decode_bytes _ _ _ _) as [d|e|p]; cbn.
  - left. exists d. auto.
  - right. left. exists e. auto.
  - right. right. exists p. auto.
Qed.

Lemma always_rendered env rn data options format : In format [FJson; FYaml; FCsv; FMermaid] ->
  (exists d t, decode_bytes env data (op_key options) (op_include_enrichment options) = Ok d /\
     render_bytes env rn data format options = Ok t) \/
  (exists e, decode_bytes env data (op_key options) (op_include_enrichment options) = Err e /\
     render_bytes env rn data format options = Err (RDecode e)) \/
  (exists p, decode_bytes env data (op_key options) (op_include_enrichment options) = Panic p /\
     render_bytes env rn data format options = Panic p).
Proof.
  intros H. destruct H as [<-|[<-|[<-|[<-|[]]]]]; unfold render_bytes; cbv zeta.
  - destruct (decoded_cases env rn data options (fun d => Ok (render_json (rn_number rn) d))) as [(d & D & R)|[R|R]]; [left|right; left; exact R|right; right; exact R].
    exists d. eexists. split; [exact D|exact R].
  - destruct (decoded_cases env rn data options (fun d => Ok (rn_yaml rn d))) as [(d & D & R)|[R|R]]; [left|right; left; exact R|right; right; exact R].
    exists d. eexists. split; [exact D|exact R].
  - destruct (decoded_cases env rn data options (render_csv rn)) as [(d & D & R)|[R|R]]; [left|right; left; exact R|right; right; exact R].
    exists d. eexists. split; [exact D|]. etransitivity; [exact R|]. apply render_csv_ok.
  - destruct (decoded_cases env rn data options (fun d => Ok (render_mermaid rn d))) as [(d & D & R)|[R|R]]; [left|right; left; exact R|right; right; exact R].
    exists d. eexists. split; [exact D|exact R].
Qed.

Lemma table_rendered env rn data options :
  let width := match op_table_width options with Some w => w | None => 100 end in
  (exists d t, decode_bytes env data (op_key options) (op_include_enrichment options) = Ok d /\ 32 <= width /\
     render_bytes env rn data FTable options = Ok t) \/
  (exists d o m, decode_bytes env data (op_key options) (op_include_enrichment options) = Ok d /\ width < 32 /\
     render_bytes env rn data FTable options = Err (RDecode (OInvalidOption o m))) \/
  (exists e, decode_bytes env data (op_key options) (op_include_enrichment options) = Err e /\
     render_bytes env rn data FTable options = Err (RDecode e)) \/
  (exists p, decode_bytes env data (op_key options) (op_include_enrichment options) = Panic p /\
     render_bytes env rn data FTable options = Panic p).
Proof.
  cbv zeta. unfold render_bytes. cbv zeta.
  destruct (decoded_cases env rn data options (fun d => render_table rn d (match op_table_width options with Some w => w | None => 100 end)))
    as [(d & D & R)|[R|R]]; [|right; right; left; exact R|right; right; right; exact R].
  cbv zeta in R. unfold render_table in R at 2. destruct (N.ltb_spec (match op_table_width options with Some w => w | None => 100 end) 32) as [L|L].
  - right. left. exists d. do 2 eexists. split; [exact D|]. split; [exact L|exact R].
  - left. exists d. eexists. split; [exact D|]. split; [exact L|exact R].
Qed.
