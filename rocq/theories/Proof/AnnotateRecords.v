(** Facts about what annotations say: record fields, encrypted payloads, headers. *)
From Coq Require Import List NArith Lia Bool.
Import ListNotations.
From Verif Require Import Model.Base Model.Core Model.Wired Model.Wireless Model.DataInfo Model.ValueInfo Model.Record
  Model.UserData Model.MbusData Model.Annotate
  Spec.CoreSpec Spec.WiredSpec Spec.RecordSpec Spec.CrcSpec Spec.WirelessSpec Spec.AppSpec Spec.AnnotateSpec
  Proof.BaseFacts Proof.RecordFacts Proof.IterFacts Proof.WiredFacts Proof.WirelessFacts Proof.FormatAFacts Proof.AppFacts
  Proof.AnnotateFacts Proof.AnnotateFormatA.
Open Scope N_scope.

(** * Slices *)
Lemma slice_app pre x post a b : len pre = a -> len pre + len x = b -> slice (pre ++ x ++ post) a b = x.
Proof.
  intros <- <-. unfold slice. replace (len pre + len x - len pre) with (len x) by lia.
  rewrite !len_nat. rewrite skipn_app, skipn_all, Nat.sub_diag. cbn [app skipn].
  rewrite firstn_app, Nat.sub_diag, firstn_all. cbn. apply app_nil_r.
Qed.

(** parts laid out one after the other are the slices of the segments cut accordingly *)
Fixpoint lay (at_ : N) (g : option N) (parts : list (segment_kind * list N)) : list segment :=
  match parts with
  | [] => []
  | (k, bytes) :: rest => seg at_ (at_ + len bytes) k g LRecordField :: lay (at_ + len bytes) g rest
  end.
Lemma lay_app at_ g p q :
  lay at_ g (p ++ q) = lay at_ g p ++ lay (at_ + len (concat (map snd p))) g q.
Proof.
  revert at_. induction p as [|[k b] p IH]; intros at_; cbn [app lay map snd concat].
  - now rewrite len_nil, N.add_0_r.
  - cbn. f_equal. rewrite IH. rewrite len_app. now rewrite N.add_assoc.
Qed.
Lemma fields_lay D pre parts post g :
  D = pre ++ concat (map snd parts) ++ post -> fields D (lay (len pre) g parts) = parts.
Proof.
  revert pre. induction parts as [|[k b] parts IH]; intros pre E; [reflexivity|].
  cbn [lay fields map snd concat seg s_kind s_start s_end] in *. f_equal.
  - f_equal. rewrite E. rewrite <- app_assoc. apply slice_app; reflexivity.
  - specialize (IH (pre ++ b)). rewrite len_app in IH. apply IH. rewrite E, <- !app_assoc. reflexivity.
Qed.
Lemma part_lay at_ g k b :
  lay at_ g (part k b) = if 0 <? len b then [seg at_ (at_ + len b) k g LRecordField] else [].
Proof. destruct b; [reflexivity|]. rewrite len_cons. cbn [part lay]. rewrite len_cons.
  destruct (0 <? len b + 1) eqn:E; [reflexivity|apply N.ltb_ge in E; lia]. Qed.
Lemma part_concat k b : concat (map snd (part k b)) = b.
Proof. destruct b; [reflexivity|]. cbn. now rewrite app_nil_r. Qed.

(** * One record *)
Lemma raw_header_bytes cf data h : raw_header_try_from cf data = Ok h ->
  plaintext_before_extension cf = false \/ (forall v, rh_vib h = Some v -> vib_plaintext v = None) ->
  exists rest, data = concat (map snd (header_parts h)) ++ rest.
Proof.
  intros H Hc. unfold raw_header_try_from in H. apply bind_ok in H as (d & Hd & H).
  apply map_err_ok in Hd. 
  assert (Hdib : exists rest, data = dib_dif d :: match dib_difes d with Some l => l | None => [] end ++ rest).
  { apply dib_ok in Hd. destruct Hd as [(dif & rest & -> & _ & ->)|(dif & difes & rest & -> & _ & _ & _ & ->)];
      exists rest; reflexivity. }
  destruct Hdib as [rest Ed].
  assert (Ls : dib_get_size d = len (dib_dif d :: match dib_difes d with Some l => l | None => [] end)).
  { unfold dib_get_size. rewrite len_cons. destruct (dib_difes d); [lia|reflexivity]. }
  destruct (is_special_function (dib_dif d)); cbn [negb] in H.
  - apply Ok_inj in H. subst h. exists rest. unfold header_parts. cbn [rh_dib rh_vib].
    rewrite app_nil_r. cbn [app map snd concat]. rewrite Ed. destruct (dib_difes d); [now rewrite part_concat|reflexivity].
  - apply bind_ok in H as (r & Hr & H). apply ok_or_ok in Hr. apply bind_ok in H as (v & Hv & H).
    apply Ok_inj in H. subst h. cbn [rh_dib rh_vib] in *. apply map_err_ok in Hv.
    assert (Er : r = rest).
    { rewrite Ed in Hr. change (dib_dif d :: match dib_difes d with Some l => l | None => [] end ++ rest) with
        ((dib_dif d :: match dib_difes d with Some l => l | None => [] end) ++ rest) in Hr.
      rewrite (get_from_app_n _ _ _ (eq_sym Ls)) in Hr. now injection Hr. }
    subst r. apply vib_ok in Hv as (r2 & E2 & _). exists r2. unfold header_parts. cbn [rh_dib rh_vib].
    rewrite Ed, E2. unfold vib_bytes.
    rewrite !map_app, !concat_app. cbn [map snd concat app]. rewrite ?app_nil_r. f_equal.
    replace (concat (map snd match dib_difes d with Some l => part KDife l | None => [] end))
      with (match dib_difes d with Some l => l | None => [] end)
      by (destruct (dib_difes d); [now rewrite part_concat|reflexivity]).
    rewrite <- !app_assoc. f_equal. cbn [app]. f_equal.
    replace (concat (map snd match vib_vifes v with Some l => part KVife l | None => [] end))
      with (vife_bytes (vib_vifes v)) by (destruct (vib_vifes v); [cbn; now rewrite part_concat|reflexivity]).
    replace (concat (map snd match vib_plaintext v with Some p => [(KPlaintextVif, len p :: p)] | None => [] end))
      with (plain_bytes (vib_plaintext v)) by (destruct (vib_plaintext v); [cbn; now rewrite app_nil_r|reflexivity]).
    destruct Hc as [->|Hn].
    + now rewrite <- app_assoc.
    + rewrite (Hn v eq_refl). cbn [plain_bytes app]. rewrite app_nil_r. destruct (plaintext_before_extension cf); reflexivity.
Qed.

Lemma header_parts_len h hh : hh = {| drh_raw := h; drh_processed := drh_processed hh |} ->
  len (concat (map snd (header_parts h))) = header_get_size hh.
Proof.
  intros E. rewrite E. unfold header_get_size, header_parts. cbn [drh_raw].
  rewrite !map_app, !concat_app, !len_app. cbn [map snd concat app]. rewrite len_cons, len_nil.
  assert (Ed : dib_get_size (rh_dib h) = 1 + len (concat (map snd match dib_difes (rh_dib h) with Some l => part KDife l | None => [] end))).
  { unfold dib_get_size. destruct (dib_difes (rh_dib h)); [rewrite part_concat; lia|cbn; lia]. }
  rewrite Ed. destruct (rh_vib h) as [v|]; [|cbn; lia].
  cbn [map snd concat app]. rewrite !map_app, !concat_app, len_cons, !len_app.
  unfold vib_get_size. destruct (vib_vifes v); rewrite ?part_concat; destruct (vib_plaintext v); cbn [map snd concat app];
    rewrite ?app_nil_r, ?len_cons; change (len (@nil N)) with 0; lia.
Qed.


Lemma header_raw cf data h : header_try_from cf data = Ok h -> raw_header_try_from cf data = Ok (drh_raw h).
Proof.
  unfold header_try_from. intros H. apply bind_ok in H as (raw & Hr & H). apply bind_ok in H as (p & _ & H).
  apply Ok_inj in H. subst h. exact Hr.
Qed.

(** the segments of a record are its parts laid out *)
Lemma record_lay cf data hdr r at_ i :
  data_record_parse cf data hdr = Ok r -> is_special_function (dib_dif (rh_dib (drh_raw (dr_header r)))) = false ->
  fst (fst (record_segments r at_ (len data) i)) = lay at_ (Some i) (record_parts r).
Proof.
  intros H Hsp. destruct (record_sizes _ _ _ _ H) as (o & Ho & L1 & L2 & L3).
  unfold record_parts. set (h := drh_raw (dr_header r)) in *.
  replace ((dib_dif (rh_dib h) =? 0x0F) || (dib_dif (rh_dib h) =? 0x1F)) with false.
  2:{ symmetry. apply orb_false_iff; split; apply N.eqb_neq; intros E; rewrite E in Hsp; discriminate. }
  assert (Lp : len (concat (map snd (header_parts h))) = o).
  { rewrite <- Ho. apply header_parts_len. unfold h; now destruct (dr_header r). }
  rewrite lay_app, Lp, part_lay, len_skipn.
  fold (len (concat (map snd (header_parts h)))). rewrite Lp.
  change (len (dr_raw_bytes r)) with (dr_get_size r).
  pose proof (dib_size_pos (rh_dib h)) as Ld.
  assert (Edc : dib_get_size (rh_dib h) - 1 = len (concat (map snd match dib_difes (rh_dib h) with Some l => part KDife l | None => [] end))).
  { unfold dib_get_size. destruct (dib_difes (rh_dib h)); [rewrite part_concat; lia|reflexivity]. }
  assert (Ldif : lay (at_ + 1) (Some i) match dib_difes (rh_dib h) with Some l => part KDife l | None => [] end
               = if 0 <? dib_get_size (rh_dib h) - 1
                 then [seg (at_ + 1) (at_ + 1 + (dib_get_size (rh_dib h) - 1)) KDife (Some i) LRecordField] else []).
  { rewrite Edc. destruct (dib_difes (rh_dib h)); [rewrite part_concat; apply part_lay|reflexivity]. }
  unfold record_segments. fold h. cbv zeta. rewrite Ho.
  unfold header_parts. cbn [app lay]. rewrite len_cons. change (len (@nil N)) with 0. rewrite N.add_0_l.
  change (0 <? 1) with true. cbv iota.
  set (dc := dib_get_size (rh_dib h) - 1) in *.
  rewrite lay_app, Ldif, <- Edc.
  unfold header_get_size in Ho. fold h in Ho.
  destruct (rh_vib h) as [v|] eqn:Ev.
  - set (vc := match vib_vifes v with Some l => len l | None => 0 end).
    assert (Evc : vc = len (concat (map snd match vib_vifes v with Some l => part KVife l | None => [] end))).
    { unfold vc. destruct (vib_vifes v); [rewrite part_concat; lia|reflexivity]. }
    assert (Lvif : forall a, lay a (Some i) match vib_vifes v with Some l => part KVife l | None => [] end
               = if 0 <? vc then [seg a (a + vc) KVife (Some i) LRecordField] else []).
    { intros a. rewrite Evc. destruct (vib_vifes v); [rewrite part_concat; apply part_lay|reflexivity]. }
    assert (Eo : o = 1 + dc + 1 + vc + match vib_plaintext v with Some p => len p + 1 | None => 0 end).
    { rewrite <- Ho. unfold vib_get_size. fold vc. unfold dc. destruct (vib_plaintext v); lia. }
    rewrite <- Eo. replace (N.min (dr_get_size r - o) (len data - o)) with (dr_get_size r - o) by lia.
    cbn [app lay]. rewrite len_cons. change (len (@nil N)) with 0. rewrite N.add_0_l.
    rewrite lay_app, Lvif, <- Evc. cbn [fst].
    rewrite <- !app_assoc. cbn [app]. rewrite !N.add_0_r, <- !app_assoc, !N.add_assoc.
    f_equal. f_equal. f_equal. f_equal. destruct (vib_plaintext v) as [p|].
    + cbn [lay app]. rewrite len_cons. f_equal.
    + reflexivity.
  - cbn [app lay fst]. replace o with (1 + dc) by (unfold dc; lia).
    replace (N.min (dr_get_size r - (1 + dc)) (len data - (1 + dc))) with (dr_get_size r - (1 + dc)) by (unfold dc in *; lia).
    rewrite !N.add_0_r, !N.add_assoc, !app_nil_r. reflexivity.
Qed.

Lemma record_head cf data hdr r : data_record_parse cf data hdr = Ok r ->
  exists t, dr_raw_bytes r = dib_dif (rh_dib (drh_raw (dr_header r))) :: t.
Proof.
  intros H. destruct (record_split _ _ _ _ H) as (p & rest & di & _ & _ & _ & _ & _ & [t Et] & q & s & _ & Er & _).
  exists (t ++ q). rewrite Er, Et. reflexivity.
Qed.

(** the parts of a record make up its bytes *)
Lemma record_parts_bytes cf data hdr r : data_record_parse cf data hdr = Ok r -> text_before cf r ->
  concat (map snd (record_parts r)) = dr_raw_bytes r.
Proof.
  intros H Ht. unfold record_parts. set (h := drh_raw (dr_header r)) in *.
  destruct (_ || _); [cbn; apply app_nil_r|].
  rewrite map_app, concat_app, part_concat.
  destruct (record_split _ _ _ _ H) as (p & rest & di & Ed & Lp & Hh & _ & _ & _ & q & s & _ & Er & _).
  apply header_raw in Hh. fold h in Hh. apply raw_header_bytes in Hh as [r2 E2]; [|exact Ht].
  assert (Lh : len (concat (map snd (header_parts h))) = header_get_size (dr_header r)).
  { apply header_parts_len. unfold h; now destruct (dr_header r). }
  assert (Ep : p = concat (map snd (header_parts h))).
  { rewrite Ed in E2. assert (E3 : firstn (length p) (p ++ rest) = firstn (length p) (concat (map snd (header_parts h)) ++ r2)) by now rewrite E2.
    assert (Ln : length p = length (concat (map snd (header_parts h)))) by (unfold len in *; lia).
    rewrite Ln in E3 at 2. rewrite !firstn_app, !Nat.sub_diag, !firstn_all in E3. cbn [firstn] in E3.
    now rewrite !app_nil_r in E3. }
  rewrite Er, <- Ep. rewrite skipn_app, skipn_all, Nat.sub_diag. reflexivity.
Qed.

(** * Groups *)
Lemma group_app l m g : group (l ++ m) g = group l g ++ group m g.
Proof. apply filter_app. Qed.
Lemma group_all l g : Forall (fun s => s_group s = Some g) l -> group l g = l.
Proof. induction 1 as [|s l H F IH]; [reflexivity|]. unfold group in *. cbn. rewrite H, N.eqb_refl. now f_equal. Qed.
Lemma group_other l g g' : Forall (fun s => s_group s = Some g) l -> g <> g' -> group l g' = [].
Proof.
  intros F Hn. induction F as [|s l H F IH]; [reflexivity|]. unfold group in *. cbn. rewrite H.
  replace (g =? g') with false; [exact IH|]. symmetry. now apply N.eqb_neq.
Qed.
Lemma group_none l g : Forall (fun s => s_group s = None) l -> group l g = [].
Proof. induction 1 as [|s l H F IH]; [reflexivity|]. unfold group in *. cbn. now rewrite H. Qed.
Lemma lay_group at_ g parts : Forall (fun s => s_group s = Some g) (lay at_ (Some g) parts).
Proof. revert at_. induction parts as [|[k b] l IH]; intros at_; cbn; constructor; auto. Qed.


Lemma special_cases b : N.land b 0x0F = 0x0F -> skips b = true \/ b = 0x0F \/ b = 0x1F \/ b = 0x7F.
Proof.
  intros H. unfold skips, is_special_function, special_function.
  rewrite H. cbn [N.eqb andb]. change (0x0F =? 0x0F) with true. cbn [andb].
  destruct (b =? 0x0F) eqn:E1; [apply N.eqb_eq in E1; auto|].
  destruct (b =? 0x1F) eqn:E2; [apply N.eqb_eq in E2; auto|].
  destruct (b =? 0x2F) eqn:E3; [now left|]. destruct (b =? 0x7F) eqn:E4; [apply N.eqb_eq in E4; auto|]. now left.
Qed.

Lemma loop_groups cf fuel : forall base data offset i segs items D pre post,
  annotate_records_loop cf fuel base data offset i = Ok segs -> offset <= len data ->
  decodes cf None (skipn (N.to_nat offset) data) items -> Forall (item_ok cf) items ->
  D = pre ++ data ++ post -> len pre = base ->
  (forall k r, nth_error items k = Some (Ok r) -> fields D (group segs (i + N.of_nat k)) = record_parts r) /\
  (forall g, (forall k r, nth_error items k = Some (Ok r) -> g <> i + N.of_nat k) -> group segs g = []).
Proof.
  induction fuel as [|fuel IH]; intros base data offset i segs items D pre post H Ho Hd Hok ED Eb; [discriminate|].
  cbn [annotate_records_loop] in H.
  destruct (offset <? len data) eqn:El; cbn [negb] in H.
  2:{ apply N.ltb_ge in El. apply Ok_inj in H. subst segs.
      rewrite skipn_all2 in Hd by (unfold len in *; lia). inversion Hd; subst.
      split; [intros k r Hk; destruct k; discriminate|reflexivity]. }
  apply N.ltb_lt in El. destruct (get_lt_some data offset El) as [b Hb]. rewrite Hb in H.
  assert (Hsk : exists t, skipn (N.to_nat offset) data = b :: t /\ skipn (N.to_nat (offset + 1)) data = t).
  { unfold get in Hb. apply nth_error_split in Hb as (l1 & l2 & E & L). exists l2. rewrite E.
    split.
    - rewrite skipn_app, <- L, skipn_all, Nat.sub_diag. reflexivity.
    - replace (N.to_nat (offset + 1)) with (S (length l1)) by lia.
      replace (l1 ++ b :: l2) with ((l1 ++ [b]) ++ l2) by now rewrite <- app_assoc.
      replace (S (length l1)) with (length (l1 ++ [b])) by (rewrite app_length; cbn; lia).
      rewrite skipn_app, skipn_all, Nat.sub_diag. reflexivity. }
  destruct Hsk as (t & E1 & E2).
  assert (Hstep : forall k, skips b = true -> (rest <- annotate_records_loop cf fuel base data (offset + 1) i ;;
            Ok (seg (base + offset) (base + offset + 1) k None LRecordField :: rest)) = Ok segs ->
       (forall k r, nth_error items k = Some (Ok r) -> fields D (group segs (i + N.of_nat k)) = record_parts r) /\
       (forall g, (forall k r, nth_error items k = Some (Ok r) -> g <> i + N.of_nat k) -> group segs g = [])).
  { intros k Hs Hk. apply bind_ok in Hk as (rest & Hr & Hk). apply Ok_inj in Hk. subst segs.
    rewrite E1 in Hd. inversion Hd; subst; try congruence.
    destruct (IH _ _ _ _ _ items (pre ++ data ++ post) pre post Hr) as [G1 G2]; [lia|assumption|exact Hok|reflexivity|reflexivity|].
    split; [intros k' r Hk'; cbn [group filter seg s_group]; apply G1; exact Hk'|].
    intros g Hg. cbn [group filter seg s_group]. apply G2; exact Hg. }
  destruct (N.land b 0x0F =? 0x0F) eqn:Esp.
  - apply N.eqb_eq in Esp. destruct (special_cases b Esp) as [Hs|[Hs|[Hs|Hs]]].
    + destruct (b =? 0x2F); [now apply (Hstep KIdleFiller)|].
      destruct ((b =? 0x0F) || (b =? 0x1F)) eqn:Er; [|now apply (Hstep KUnknown)].
      exfalso. apply orb_true_iff in Er. destruct Er as [Er|Er]; apply N.eqb_eq in Er; subst b; discriminate.
    + replace (b =? 0x2F) with false in H by (subst b; reflexivity).
      replace ((b =? 0x0F) || (b =? 0x1F)) with true in H by (subst b; reflexivity).
      apply Ok_inj in H. subst segs. rewrite E1 in Hd.
      destruct (parse_rest_dif cf b t None) as (r0 & P0 & R0); [now left|].
      inversion Hd as [|? ? ? Hsk|? ? r rest l Hsk Hp Hr Hl|? ? ? Hsk Hp|? ? ? Hsk Hp]; subst; try congruence.
      { discriminate. }
      assert (r = r0) by congruence. subst r0. rewrite R0 in Hr.
      assert (rest = []). { apply (f_equal (@length N)) in Hr. rewrite app_length in Hr. destruct rest; [reflexivity|cbn in Hr; lia]. }
      subst rest. inversion Hl; subst l.
      pose proof (record_head _ _ _ _ Hp) as [t' Et']. rewrite R0 in Et'. injection Et' as Ed _.
      split.
      * intros k r' Hk. destruct k as [|k]; [|destruct k; discriminate]. cbn in Hk. injection Hk as <-.
        rewrite N.add_0_r. cbn [group filter seg s_group]. rewrite N.eqb_refl. cbn [fields map seg s_kind s_start s_end].
        unfold record_parts. rewrite <- Ed. cbn [N.eqb]. change ((0x0F =? 0x0F) || (0x0F =? 0x1F)) with true. cbv iota.
        rewrite R0, <- E1. apply (f_equal (fun x => [(KManufacturerSpecific, x)])).
        replace (pre ++ data ++ post) with ((pre ++ firstn (N.to_nat offset) data) ++ skipn (N.to_nat offset) data ++ post)
          by (rewrite <- (firstn_skipn (N.to_nat offset) data) at 3; rewrite <- !app_assoc; reflexivity).
        apply slice_app; rewrite ?len_app, len_firstn, ?len_skipn; lia.
      * intros g Hg. specialize (Hg O r eq_refl). cbn [group filter seg s_group].
        replace (i =? g) with false; [reflexivity|]. symmetry. apply N.eqb_neq. lia.
    + replace (b =? 0x2F) with false in H by (subst b; reflexivity).
      replace ((b =? 0x0F) || (b =? 0x1F)) with true in H by (subst b; reflexivity).
      apply Ok_inj in H. subst segs. rewrite E1 in Hd.
      destruct (parse_rest_dif cf b t None) as (r0 & P0 & R0); [now right|].
      inversion Hd as [|? ? ? Hsk|? ? r rest l Hsk Hp Hr Hl|? ? ? Hsk Hp|? ? ? Hsk Hp]; subst; try congruence.
      { discriminate. }
      assert (r = r0) by congruence. subst r0. rewrite R0 in Hr.
      assert (rest = []). { apply (f_equal (@length N)) in Hr. rewrite app_length in Hr. destruct rest; [reflexivity|cbn in Hr; lia]. }
      subst rest. inversion Hl; subst l.
      pose proof (record_head _ _ _ _ Hp) as [t' Et']. rewrite R0 in Et'. injection Et' as Ed _.
      split.
      * intros k r' Hk. destruct k as [|k]; [|destruct k; discriminate]. cbn in Hk. injection Hk as <-.
        rewrite N.add_0_r. cbn [group filter seg s_group]. rewrite N.eqb_refl. cbn [fields map seg s_kind s_start s_end].
        unfold record_parts. rewrite <- Ed. change ((0x1F =? 0x0F) || (0x1F =? 0x1F)) with true. cbv iota.
        rewrite R0, <- E1. apply (f_equal (fun x => [(KManufacturerSpecific, x)])).
        replace (pre ++ data ++ post) with ((pre ++ firstn (N.to_nat offset) data) ++ skipn (N.to_nat offset) data ++ post)
          by (rewrite <- (firstn_skipn (N.to_nat offset) data) at 3; rewrite <- !app_assoc; reflexivity).
        apply slice_app; rewrite ?len_app, len_firstn, ?len_skipn; lia.
      * intros g Hg. specialize (Hg O r eq_refl). cbn [group filter seg s_group].
        replace (i =? g) with false; [reflexivity|]. symmetry. apply N.eqb_neq. lia.
    + exfalso. rewrite E1 in Hd. subst b.
      destruct (parse_readout_dif cf t None) as (r0 & P0 & R0).
      inversion Hd as [|? ? ? Hsk|? ? r rest l Hsk Hp Hr Hl|? ? ? Hsk Hp|? ? ? Hsk Hp]; subst; try congruence.
      { discriminate. }
      assert (r = r0) by congruence. subst r0. inversion Hok as [|? ? Hi _]; subst. destruct (Hi r eq_refl) as [Hn _].
      pose proof (record_head _ _ _ _ Hp) as [t' Et']. rewrite R0 in Et'. injection Et' as Ed _. congruence.
  - clear E2 Hstep. apply N.eqb_neq in Esp.
    assert (Hsf : is_special_function b = false) by (unfold is_special_function; now apply N.eqb_neq).
    assert (Hsk0 : skips b = false) by (unfold skips; now rewrite Hsf).
    rewrite index_range_from in H by lia. cbn [bind] in H. rewrite E1 in H, Hd.
    inversion Hd as [|? ? ? Hsk|? ? r rest l Hsk Hp Hr Hl|? ? ? Hsk Hp|? ? ? Hsk Hp]; subst; try congruence.
    + rewrite Hp in H.
      pose proof (record_head _ _ _ _ Hp) as [t' Et']. rewrite Et' in Hr. injection Hr as Edif Hr0.
      assert (Hr : b :: t = dr_raw_bytes r ++ rest) by (rewrite Et', Edif, Hr0; reflexivity).
      destruct (record_tiles _ _ _ _ (len pre + offset) i Hp) as (ss & Es & _ & _).
      pose proof (record_lay _ _ _ _ (len pre + offset) i Hp) as Hlay. rewrite <- Edif in Hlay. specialize (Hlay Hsf).
      assert (Elen : len (b :: t) = len data - offset) by (rewrite <- E1, len_skipn; lia).
      rewrite Elen in Es, Hlay. rewrite Es in H, Hlay. cbn [fst] in Hlay.
      apply bind_ok in H as (sr & Hrr & H). apply Ok_inj in H. subst segs.
      inversion Hok as [|? ? Hi Hok']; subst. destruct (Hi r eq_refl) as [_ Ht].
      assert (Hsz : dr_get_size r <= len data - offset).
      { unfold dr_get_size. rewrite <- Elen, Hr, len_app. lia. }
      destruct (IH _ _ _ _ _ l (pre ++ data ++ post) pre post Hrr) as [G1 G2]; [lia| |exact Hok'|reflexivity|reflexivity|].
      { replace (skipn (N.to_nat (offset + dr_get_size r)) data) with rest; [exact Hl|].
        replace (N.to_nat (offset + dr_get_size r)) with (N.to_nat offset + length (dr_raw_bytes r))%nat
          by (unfold dr_get_size, len; lia).
        rewrite <- skipn_skipn, E1, Hr, skipn_app, skipn_all, Nat.sub_diag. reflexivity. }
      assert (Hgr : Forall (fun s => s_group s = Some i) (lay (len pre + offset) (Some i) (record_parts r))) by apply lay_group.
      split.
      * intros k r' Hk. rewrite group_app. destruct k as [|k].
        -- cbn in Hk. injection Hk as <-. rewrite N.add_0_r. rewrite group_all by exact Hgr.
           rewrite (G2 i) by (intros; lia). rewrite app_nil_r.
           replace (len pre + offset) with (len (pre ++ firstn (N.to_nat offset) data)) by (rewrite len_app, len_firstn; lia).
           apply (fields_lay _ _ _ (rest ++ post)).
           rewrite (record_parts_bytes _ _ _ _ Hp Ht).
           rewrite <- (firstn_skipn (N.to_nat offset) data) at 1. rewrite E1, Hr, <- !app_assoc. reflexivity.
        -- rewrite (group_other _ i) by (try exact Hgr; lia). cbn [app].
           replace (i + N.of_nat (S k)) with (i + 1 + N.of_nat k) by lia. apply G1. exact Hk.
      * intros g Hg. rewrite group_app. rewrite (group_other _ i); [cbn [app]|exact Hgr|].
        -- apply G2. intros k r' Hk. specialize (Hg (S k) r' Hk). lia.
        -- specialize (Hg O r eq_refl). lia.
    + rewrite Hp in H. apply Ok_inj in H. subst segs. split; [intros k r Hk; destruct k as [|k]; [discriminate|destruct k; discriminate]|].
      reflexivity.
    + rewrite Hp in H. discriminate.
Qed.
