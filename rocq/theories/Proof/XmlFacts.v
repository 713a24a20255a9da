(** Lemmas about reading XML, and about the documents written by Model/Rscada.v. *)
From Coq Require Import Lia String.
From Verif Require Import Model.Base Model.Text Model.Escape Model.Show Model.Rscada Spec.EscapeSpec Spec.XmlSpec Proof.BaseFacts Proof.EscapeFacts.

Lemma same_text_refl a : same_text a a = true.
Proof. unfold same_text. destruct (list_eq_dec N.eq_dec a a); congruence. Qed.
Lemma same_text_true a b : same_text a b = true -> a = b.
Proof. unfold same_text. destruct (list_eq_dec N.eq_dec a b); congruence. Qed.

(** *** Pieces of content *)
(** reading [s] gives [l] and leaves the reader in text *)
Definition reads (s : text) (l : list xml) : Prop :=
  forall rest open done, read (s ++ rest) InText open done = read rest InText open (rev l ++ done).

Lemma reads_nil : reads [] [].
Proof. intros rest open done. reflexivity. Qed.
Lemma reads_app s1 l1 s2 l2 : reads s1 l1 -> reads s2 l2 -> reads (s1 ++ s2) (l1 ++ l2).
Proof.
  intros H1 H2 rest open done. rewrite <- app_assoc, H1, H2. rewrite rev_app_distr, <- app_assoc. reflexivity.
Qed.
Lemma reads_read s l : reads s l -> read s InText [] [] = Some l.
Proof.
  intros H. specialize (H [] [] []). rewrite app_nil_r in H. rewrite H. cbn. rewrite app_nil_r, rev_involutive. reflexivity.
Qed.

(** characters that stand for themselves *)
Definition plain (c : N) : bool :=
  negb ((c =? 60) || (c =? 38) || (c =? 62) || bad_control c).
Lemma reads_plain s : forallb plain s = true -> reads s (map XChar s).
Proof.
  induction s as [|c s IH]; intros H; [apply reads_nil|]. cbn in H. apply andb_true_iff in H. destruct H as [Hc Hs].
  intros rest open done. cbn [app map rev]. cbn [read].
  unfold plain in Hc. apply negb_true_iff in Hc. rewrite !orb_false_iff in Hc. destruct Hc as [[[-> ->] ->] ->]. cbn [orb].
  rewrite (IH Hs). rewrite <- app_assoc. reflexivity.
Qed.

Lemma reads_encode s : reads (xml_encode s) (map XChar (blanked s)).
Proof.
  induction s as [|c s IH]; [apply reads_nil|].
  unfold xml_encode in *. cbn [flat_map blanked map].
  change (XChar ?x :: ?l) with ([XChar x] ++ l). apply reads_app; [|exact IH]. clear IH s.
  unfold xml_encode_char, is_ascii_control. intros rest open done. cbn [rev app].
  destruct ((c <? 32) || (c =? 127)) eqn:Ctl; [reflexivity|].
  destruct (N.eqb_spec c 38); [subst; reflexivity|].
  destruct (N.eqb_spec c 60); [subst; reflexivity|].
  destruct (N.eqb_spec c 62); [subst; reflexivity|].
  destruct (N.eqb_spec c 34); [subst; reflexivity|].
  cbn [app read]. apply orb_false_iff in Ctl. destruct Ctl as [C1 C2].
  rewrite (proj2 (N.eqb_neq c 60)), (proj2 (N.eqb_neq c 38)), (proj2 (N.eqb_neq c 62)) by assumption.
  unfold bad_control. rewrite C1, C2. reflexivity.
Qed.

(** a tag *)
Definition tag_char (c : N) : bool := negb ((c =? 62) || ((c =? 60) || (c =? 38) || bad_control c)).
Lemma read_tag tag : forall rest open done acc, forallb tag_char tag = true ->
  read (tag ++ rest) (InTag acc) open done = read rest (InTag (rev tag ++ acc)) open done.
Proof.
  induction tag as [|c tag IH]; intros rest open done acc H; [reflexivity|].
  cbn in H. apply andb_true_iff in H. destruct H as [Hc Ht]. cbn [app read rev].
  unfold tag_char in Hc. apply negb_true_iff in Hc. apply orb_false_iff in Hc. destruct Hc as [-> ->].
  rewrite IH by exact Ht. rewrite <- app_assoc. reflexivity.
Qed.

Lemma letter_tag s : forallb letter s = true -> forallb tag_char s = true.
Proof.
  intros H. apply forallb_forall. intros c Hc. pose proof (proj1 (forallb_forall _ _) H c Hc) as L.
  unfold letter in L. unfold tag_char, bad_control.
  apply negb_true_iff. rewrite !orb_false_iff. repeat split; try apply N.eqb_neq; try apply andb_false_iff; lia.
Qed.

Lemma reads_element tag name attributes s l :
  forallb tag_char tag = true -> hd 0 tag <> 47 -> start_tag tag = Some (name, attributes) -> name_ok name = true -> reads s l ->
  reads (txt "<" ++ tag ++ txt ">" ++ s ++ txt "</" ++ name ++ txt ">") [XElem name attributes l].
Proof.
  intros Ht H47 Hs Hn R rest open done.
  assert (Ln : forallb letter name = true) by (destruct name; [discriminate|exact Hn]).
  change (txt "<") with [60]. change (txt ">") with [62]. change (txt "</") with [60; 47].
  rewrite <- !app_assoc. cbn [app read]. rewrite read_tag by exact Ht. rewrite app_nil_r. cbn [app read].
  change (62 =? 62) with true. cbn match. rewrite rev_involutive.
  destruct tag as [|t tag]; [discriminate Hs|]. cbn [hd] in H47. rewrite (proj2 (N.eqb_neq _ _) H47), Hs.
  rewrite R. cbn [read]. change (60 =? 60) with true. cbn match. cbn [read].
  change (47 =? 62) with false. change ((47 =? 60) || (47 =? 38) || bad_control 47) with false. cbn match.
  rewrite read_tag by (apply letter_tag; exact Ln). cbn [read]. change (62 =? 62) with true. cbn match.
  rewrite rev_app_distr, rev_involutive. cbn [rev app]. rewrite same_text_refl. rewrite app_nil_r, rev_involutive. reflexivity.
Qed.

(** *** Content up to blanks *)
Definition shows (s : text) (l : list xml) : Prop := exists l', reads s l' /\ unblanked l' = l.

Lemma unblanked_app a b : unblanked (a ++ b) = unblanked a ++ unblanked b.
Proof. apply filter_app. Qed.
Lemma shows_nil : shows [] [].
Proof. exists []. split; [apply reads_nil|reflexivity]. Qed.
Lemma shows_app s1 l1 s2 l2 : shows s1 l1 -> shows s2 l2 -> shows (s1 ++ s2) (l1 ++ l2).
Proof.
  intros (a & Ra & <-) (b & Rb & <-). exists (a ++ b). split; [apply reads_app; assumption|apply unblanked_app].
Qed.
Lemma shows_blank s : forallb (fun c => (c =? 32) || (c =? 10)) s = true -> shows s [].
Proof.
  intros H. exists (map XChar s). split.
  - apply reads_plain. apply forallb_forall. intros c Hc. pose proof (proj1 (forallb_forall _ _) H c Hc) as B. cbn beta in B.
    apply orb_true_iff in B. destruct B as [B|B]; apply N.eqb_eq in B; subst; reflexivity.
  - induction s as [|c s IH]; [reflexivity|]. cbn in H. apply andb_true_iff in H. destruct H as [Hc Hs].
    cbn [map unblanked filter is_blank]. rewrite Hc. cbn [negb]. apply IH. exact Hs.
Qed.

Lemma shows_element tag name attributes s l :
  forallb tag_char tag = true -> hd 0 tag <> 47 -> start_tag tag = Some (name, attributes) -> name_ok name = true -> reads s l ->
  shows (txt "<" ++ tag ++ txt ">" ++ s ++ txt "</" ++ name ++ txt ">") [XElem name attributes l].
Proof. intros. exists [XElem name attributes l]. split; [apply reads_element; assumption|reflexivity]. Qed.

(** *** Fields *)
Lemma characters_chars s : characters (map XChar s) = Some s.
Proof. induction s as [|c s IH]; [reflexivity|]. cbn. rewrite IH. reflexivity. Qed.

Lemma cut_none c s : forallb (fun x => negb (x =? c)) s = true -> cut c s = (s, None).
Proof.
  induction s as [|x s IH]; intros H; [reflexivity|]. cbn in H. apply andb_true_iff in H. destruct H as [Hx Hs]. cbn.
  apply negb_true_iff in Hx. rewrite Hx, IH by exact Hs. reflexivity.
Qed.
Lemma cut_some c s t : forallb (fun x => negb (x =? c)) s = true -> cut c (s ++ c :: t) = (s, Some t).
Proof.
  induction s as [|x s IH]; intros H; [cbn; rewrite N.eqb_refl; reflexivity|].
  cbn in H. apply andb_true_iff in H. destruct H as [Hx Hs]. cbn.
  apply negb_true_iff in Hx. rewrite Hx, IH by exact Hs. reflexivity.
Qed.
Lemma letters_not c s : letter c = false -> forallb letter s = true -> forallb (fun x => negb (x =? c)) s = true.
Proof.
  intros Hc H. apply forallb_forall. intros x Hx. pose proof (proj1 (forallb_forall _ _) H x Hx) as L.
  apply negb_true_iff, N.eqb_neq. intros ->. congruence.
Qed.
Lemma start_tag_name name : name_ok name = true -> start_tag name = Some (name, []).
Proof.
  intros H. assert (L : forallb letter name = true) by (destruct name; [discriminate|exact H]).
  unfold start_tag. rewrite cut_none by (apply letters_not; [reflexivity|exact L]). rewrite H. reflexivity.
Qed.
Lemma name_hd name : name_ok name = true -> hd 0 name <> 47.
Proof. destruct name as [|c s]; [discriminate|]. cbn. intros H E. subst. discriminate H. Qed.

(** a text shows the fields [fs] *)
Definition shows_fields (s : text) (fs : list (text * text)) : Prop :=
  exists l, shows s l /\ fields_of l = Some fs.
Lemma fields_of_app a b fa fb : fields_of a = Some fa -> fields_of b = Some fb -> fields_of (a ++ b) = Some (fa ++ fb).
Proof.
  revert fa. induction a as [|x a IH]; intros fa Ha Hb; [injection Ha as <-; exact Hb|].
  cbn in Ha |- *. destruct x as [|n [|] c]; try discriminate Ha.
  destruct (characters c); [|discriminate]. destruct (fields_of a); [|discriminate]. injection Ha as <-.
  rewrite (IH _ eq_refl Hb). reflexivity.
Qed.
Lemma shows_fields_app s1 f1 s2 f2 : shows_fields s1 f1 -> shows_fields s2 f2 -> shows_fields (s1 ++ s2) (f1 ++ f2).
Proof.
  intros (a & Sa & Fa) (b & Sb & Fb). exists (a ++ b). split; [apply shows_app; assumption|apply fields_of_app; assumption].
Qed.
Lemma shows_fields_nil : shows_fields [] [].
Proof. exists []. split; [apply shows_nil|reflexivity]. Qed.

Lemma field_shows name value v : name_ok name = true -> reads value (map XChar v) -> shows_fields (field name value) [(name, v)].
Proof.
  intros Hn Rv. exists [XElem name [] (map XChar v)]. split.
  - unfold field, line.
    replace ((txt "        <" ++ name ++ txt ">" ++ value ++ txt "</" ++ name ++ txt ">") ++ [10])
      with (txt "        " ++ (txt "<" ++ name ++ txt ">" ++ value ++ txt "</" ++ name ++ txt ">") ++ [10])
      by (rewrite <- !app_assoc; reflexivity).
    change [XElem name [] (map XChar v)] with ([] ++ [XElem name [] (map XChar v)] ++ []).
    assert (L : forallb letter name = true) by (destruct name; [discriminate|exact Hn]).
    apply shows_app; [apply shows_blank; reflexivity|]. apply shows_app; [|apply shows_blank; reflexivity].
    apply shows_element; [apply letter_tag; exact L|apply name_hd; exact Hn|apply start_tag_name; exact Hn|exact Hn|exact Rv].
  - cbn [fields_of]. rewrite characters_chars. reflexivity.
Qed.
Lemma field_plain name value : name_ok name = true -> forallb plain value = true -> shows_fields (field name value) [(name, value)].
Proof. intros Hn Hp. apply field_shows; [exact Hn|]. apply reads_plain. exact Hp. Qed.
Lemma field_encoded name value : name_ok name = true -> shows_fields (field name (xml_encode value)) [(name, blanked value)].
Proof. intros Hn. apply field_shows; [exact Hn|]. apply reads_encode. Qed.

(** *** Elements with fields, on lines of their own *)
Lemma block_shows tag name attributes body fs :
  forallb tag_char tag = true -> hd 0 tag <> 47 -> start_tag tag = Some (name, attributes) -> name_ok name = true ->
  shows_fields body fs ->
  exists l, shows (line (txt "    <" ++ tag ++ txt ">") ++ body ++ line (txt "    </" ++ name ++ txt ">") ++ [10])
                  [XElem name attributes l] /\ fields_of (unblanked l) = Some fs.
Proof.
  intros Ht Hh Hs Hn (lb & (lb' & Rb & Ub) & Fb).
  exists (map XChar [10] ++ lb' ++ map XChar (txt "    ")). split.
  - unfold line.
    replace (((txt "    <" ++ tag ++ txt ">") ++ [10]) ++ body ++ ((txt "    </" ++ name ++ txt ">") ++ [10]) ++ [10])
      with (txt "    " ++ (txt "<" ++ tag ++ txt ">" ++ ([10] ++ body ++ txt "    ") ++ txt "</" ++ name ++ txt ">") ++ [10; 10])
      by (rewrite <- !app_assoc; reflexivity).
    match goal with |- shows _ [?e] => change [e] with ([] ++ [e] ++ []) end.
    apply shows_app; [apply shows_blank; reflexivity|]. apply shows_app; [|apply shows_blank; reflexivity].
    apply shows_element; try assumption. apply reads_app; [apply reads_plain; reflexivity|].
    apply reads_app; [exact Rb|apply reads_plain; reflexivity].
  - rewrite !unblanked_app. cbn [app]. change (unblanked (map XChar (txt "    "))) with (@nil xml).
    change (unblanked (map XChar [10])) with (@nil xml). rewrite app_nil_r. cbn [app]. rewrite Ub. exact Fb.
Qed.

(** a text shows data records *)
Definition shows_records (s : text) (rs : list (text * list (text * text))) : Prop :=
  exists l, shows s l /\ records_of l = Some rs.
Lemma records_of_app a b ra rb : records_of a = Some ra -> records_of b = Some rb -> records_of (a ++ b) = Some (ra ++ rb).
Proof.
  revert ra. induction a as [|x a IH]; intros ra Ha Hb; [injection Ha as <-; exact Hb|].
  cbn [records_of app] in Ha |- *. destruct x as [|n [|[k i] [|]] c]; try discriminate Ha.
  destruct (same_text n (txt "DataRecord") && same_text k (txt "id")); [|discriminate].
  destruct (fields_of (unblanked c)); [|discriminate]. destruct (records_of a); [|discriminate]. injection Ha as <-.
  rewrite (IH _ eq_refl Hb). reflexivity.
Qed.
Lemma shows_records_nil : shows_records [] [].
Proof. exists []. split; [apply shows_nil|reflexivity]. Qed.
Lemma shows_records_app s1 r1 s2 r2 : shows_records s1 r1 -> shows_records s2 r2 -> shows_records (s1 ++ s2) (r1 ++ r2).
Proof.
  intros (a & Sa & Fa) (b & Sb & Fb). exists (a ++ b). split; [apply shows_app; assumption|apply records_of_app; assumption].
Qed.

Definition decimal_digit (c : N) : bool := (48 <=? c) && (c <=? 57).
Lemma record_shows id body fs : forallb decimal_digit id = true -> shows_fields body fs ->
  shows_records (line (txt "    <DataRecord id=""" ++ id ++ txt """>") ++ body ++ line (txt "    </DataRecord>") ++ [10]) [(id, fs)].
Proof.
  intros Hd Hb.
  assert (D : forall c, decimal_digit c = false -> forallb (fun x => negb (x =? c)) id = true).
  { intros c Hc. apply forallb_forall. intros x Hx. pose proof (proj1 (forallb_forall _ _) Hd x Hx) as L.
    apply negb_true_iff, N.eqb_neq. intros ->. congruence. }
  destruct (block_shows (txt "DataRecord id=""" ++ id ++ [34]) (txt "DataRecord") [(txt "id", id)] body fs) as (l & Sl & Fl); try assumption.
  - rewrite !forallb_app. change (forallb tag_char (txt "DataRecord id=""")) with true. change (forallb tag_char [34]) with true.
    rewrite andb_true_r. cbn [andb]. apply forallb_forall. intros x Hx. pose proof (proj1 (forallb_forall _ _) Hd x Hx) as L.
    unfold decimal_digit in L. unfold tag_char, bad_control. apply negb_true_iff. rewrite !orb_false_iff.
    repeat split; try apply N.eqb_neq; try apply andb_false_iff; lia.
  - cbn. discriminate.
  - unfold start_tag. change (txt "DataRecord id=""" ++ id ++ [34]) with (txt "DataRecord" ++ 32 :: (txt "id" ++ 61 :: 34 :: id ++ [34])).
    rewrite cut_some by reflexivity. rewrite cut_some by reflexivity. rewrite cut_some by (apply D; reflexivity). reflexivity.
  - reflexivity.
  - exists [XElem (txt "DataRecord") [(txt "id", id)] l]. split.
    + replace (line (txt "    <DataRecord id=""" ++ id ++ txt """>")) with (line (txt "    <" ++ (txt "DataRecord id=""" ++ id ++ [34]) ++ txt ">")).
      * exact Sl.
      * unfold line. rewrite <- !app_assoc. reflexivity.
    + cbn [records_of]. rewrite !same_text_refl. cbn [andb]. rewrite Fl. reflexivity.
Qed.

(** *** Documents *)
Lemma document_shows info fs recs rs :
  shows_fields info fs -> shows_records recs rs ->
  document (xml_processing_instruction ++ line (txt "<MBusData>") ++ [10]
            ++ (line (txt "    <SlaveInformation>") ++ info ++ line (txt "    </SlaveInformation>") ++ [10])
            ++ recs ++ line (txt "</MBusData>")) = Some (fs, rs).
Proof.
  intros Hi (lr & (lr' & Rr & Ur) & Fr).
  destruct (block_shows (txt "SlaveInformation") (txt "SlaveInformation") [] info fs eq_refl ltac:(cbn; discriminate) eq_refl eq_refl Hi)
    as (li & (li' & Ri & Ui) & Fi).
  change (line (txt "    <" ++ txt "SlaveInformation" ++ txt ">")) with (line (txt "    <SlaveInformation>")) in Ri.
  change (line (txt "    </" ++ txt "SlaveInformation" ++ txt ">")) with (line (txt "    </SlaveInformation>")) in Ri.
  set (si := line (txt "    <SlaveInformation>") ++ info ++ line (txt "    </SlaveInformation>") ++ [10]) in *.
  unfold document. change xml_processing_instruction with declaration.
  assert (A : forall s, after declaration (declaration ++ s) = Some s) by (intros s; reflexivity). rewrite A.
  assert (R : reads (line (txt "<MBusData>") ++ [10] ++ si ++ recs ++ line (txt "</MBusData>"))
                    ([XElem (txt "MBusData") [] (map XChar [10; 10] ++ li' ++ lr')] ++ map XChar [10])).
  { unfold line.
    replace ((txt "<MBusData>" ++ [10]) ++ [10] ++ si ++ recs ++ txt "</MBusData>" ++ [10])
      with ((txt "<" ++ txt "MBusData" ++ txt ">" ++ ([10; 10] ++ si ++ recs) ++ txt "</" ++ txt "MBusData" ++ txt ">") ++ [10])
      by (rewrite <- !app_assoc; reflexivity).
    apply reads_app; [|apply reads_plain; reflexivity]. apply reads_element; try reflexivity; [cbn; discriminate|].
    apply reads_app; [apply reads_plain; reflexivity|]. apply reads_app; assumption. }
  rewrite (reads_read _ _ R).
  assert (U1 : forall l, unblanked ([XElem (txt "MBusData") [] l] ++ map XChar [10]) = [XElem (txt "MBusData") [] l]) by reflexivity.
  rewrite U1. assert (U2 : unblanked (map XChar [10; 10] ++ li' ++ lr') = unblanked (li' ++ lr')) by reflexivity.
  rewrite U2, unblanked_app, Ui, Ur. cbn [app]. rewrite !same_text_refl. cbn [andb]. rewrite Fi, Fr. reflexivity.
Qed.
