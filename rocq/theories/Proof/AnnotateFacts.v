(** Facts about annotations. *)
From Coq Require Import List NArith Lia Bool.
Import ListNotations.
From Verif Require Import Model.Base Model.Core Model.Wired Model.Wireless Model.DataInfo Model.ValueInfo Model.Record
  Model.UserData Model.MbusData Model.Annotate
  Spec.CoreSpec Spec.WiredSpec Spec.RecordSpec Spec.WirelessSpec Spec.AnnotateSpec
  Proof.BaseFacts Proof.RecordFacts Proof.IterFacts Proof.WiredFacts Proof.WirelessFacts Proof.AppFacts.
Open Scope N_scope.

(** * Tilings *)
Lemma tiles_le a segs b : tiles a segs b -> a <= b.
Proof. induction 1; lia. Qed.
Lemma tiles_app a s m t b : tiles a s m -> tiles m t b -> tiles a (s ++ t) b.
Proof. induction 1 as [|s r m L H IH]; intros Ht; [exact Ht|]. cbn. constructor; [exact L|now apply IH]. Qed.
Lemma tiles_one a b k g l : a < b -> tiles a [seg a b k g l] b.
Proof. intros H. apply (tiles_cons (seg a b k g l)); [exact H|apply tiles_nil]. Qed.
Lemma tiles_seg a m k g l rest b : a < m -> tiles m rest b -> tiles a (seg a m k g l :: rest) b.
Proof. intros H H2. apply (tiles_cons (seg a m k g l)); [exact H|exact H2]. Qed.
Lemma tiles_head a s rest b : tiles a (s :: rest) b -> s_start s = a /\ s_start s < s_end s /\ tiles (s_end s) rest b.
Proof. inversion 1; subst; auto. Qed.
Lemma tiles_nonempty a segs b : tiles a segs b -> Forall (fun s => s_start s < s_end s) segs.
Proof. induction 1; constructor; auto. Qed.
Lemma tiles_start_ge a segs b : tiles a segs b -> Forall (fun s => a <= s_start s) segs.
Proof.
  induction 1 as [|s r b L H IH]; constructor; [lia|]. eapply Forall_impl; [|exact IH]. cbn. intros; lia.
Qed.

Lemma covers_eqb s i : (s_start s <=? i) && (i <? s_end s) = true <-> covers s i.
Proof. unfold covers. rewrite andb_true_iff, N.leb_le, N.ltb_lt. tauto. Qed.

Lemma tiles_covers a segs b : tiles a segs b -> forall s i, In s segs -> covers s i -> a <= i < b.
Proof.
  induction 1 as [|s r b L H IH]; intros t i Hin Hc; [destruct Hin|].
  destruct Hin as [->|Hin].
  - unfold covers in Hc. pose proof (tiles_le _ _ _ H). lia.
  - specialize (IH t i Hin Hc). lia.
Qed.

(** every byte is covered by exactly one segment *)
Lemma tiles_unique a segs b : tiles a segs b -> forall i, a <= i < b -> exists! s, In s segs /\ covers s i.
Proof.
  induction 1 as [|s r b L H IH]; intros i Hi; [lia|].
  destruct (N.lt_ge_cases i (s_end s)) as [Hlt|Hge].
  - exists s. split; [split; [now left|split; lia]|].
    intros t [Ht Hc]. destruct Ht as [->|Ht]; [reflexivity|].
    pose proof (tiles_covers _ _ _ H t i Ht Hc). lia.
  - destruct (IH i) as [t [[Ht Hc] Hu]]; [lia|].
    exists t. split; [split; [now right|exact Hc]|].
    intros t' [Ht' Hc']. destruct Ht' as [->|Ht']; [unfold covers in Hc'; lia|]. now apply Hu.
Qed.

(** * Records *)
Lemma record_sizes cf data hdr r :
  data_record_parse cf data hdr = Ok r ->
  exists o, header_get_size (dr_header r) = o /\ o <= dr_get_size r /\ dr_get_size r <= len data /\ 1 <= o.
Proof.
  intros H. pose proof (parse_split _ _ _ _ H) as [_ [rest' E]].
  destruct (record_split _ _ _ _ H) as (p & rest & di & Ed & Lp & _ & _ & _ & [t Et] & q & s & Eq & Er & _).
  eexists; split; [reflexivity|]. unfold dr_get_size. rewrite Er, E, !len_app, Er, !len_app. rewrite <- Lp.
  subst p. rewrite len_cons. lia.
Qed.

Lemma dib_size_pos b : 1 <= dib_get_size b.
Proof. unfold dib_get_size. destruct (dib_difes b); lia. Qed.

Lemma record_tiles cf data hdr r at_ i :
  data_record_parse cf data hdr = Ok r ->
  exists segs, record_segments r at_ (len data) i = (segs, dr_get_size r, true) /\
    tiles at_ segs (at_ + dr_get_size r) /\ Forall (fun s => s_group s = Some i) segs.
Proof.
  intros H. destruct (record_sizes _ _ _ _ H) as (o & Ho & L1 & L2 & L3).
  unfold record_segments.
  set (raw := drh_raw (dr_header r)) in *.
  pose proof (dib_size_pos (rh_dib raw)) as Ld.
  set (dc := dib_get_size (rh_dib raw) - 1).
  assert (Hf : forall a n k, exists l,
     (if 0 <? n then [seg (at_ + a) (at_ + a + n) k (Some i) LRecordField] else []) = l /\
     tiles (at_ + a) l (at_ + a + n) /\ Forall (fun s => s_group s = Some i) l).
  { intros a n k. eexists; split; [reflexivity|]. destruct (0 <? n) eqn:E.
    - apply N.ltb_lt in E. split; [apply tiles_one; lia|repeat constructor].
    - apply N.ltb_ge in E. replace n with 0 by lia. rewrite N.add_0_r. split; constructor. }
  assert (Hvib : exists vs,
    match rh_vib raw with
    | None => ([], 1 + dc)
    | Some vib =>
        let vife_count := match vib_vifes vib with Some l => len l | None => 0 end in
        let pt := match vib_plaintext vib with
                  | Some p => [seg (at_ + (1 + dc + 1 + vife_count)) (at_ + (1 + dc + 1 + vife_count) + (len p + 1))
                                 KPlaintextVif (Some i) LRecordField]
                  | None => [] end in
        let pt_size := match vib_plaintext vib with Some p => len p + 1 | None => 0 end in
        ((if 0 <? 1 then [seg (at_ + (1 + dc)) (at_ + (1 + dc) + 1) KVif (Some i) LRecordField] else [])
         ++ (if 0 <? vife_count then [seg (at_ + (1 + dc + 1)) (at_ + (1 + dc + 1) + vife_count) KVife (Some i) LRecordField] else [])
         ++ pt, 1 + dc + 1 + vife_count + pt_size)
    end = (vs, o) /\ tiles (at_ + (1 + dc)) vs (at_ + o) /\ Forall (fun s => s_group s = Some i) vs).
  { unfold header_get_size in Ho. fold raw in Ho. destruct (rh_vib raw) as [vib|].
    - cbv zeta. set (vc := match vib_vifes vib with Some l => len l | None => 0 end).
      assert (Eo : o = 1 + dc + 1 + vc + match vib_plaintext vib with Some p => len p + 1 | None => 0 end).
      { rewrite <- Ho. unfold vib_get_size. fold vc. unfold dc. destruct (vib_plaintext vib); lia. }
      eexists; split; [rewrite Eo; reflexivity|].
      destruct (Hf (1 + dc) 1 KVif) as (l1 & -> & T1 & G1).
      destruct (Hf (1 + dc + 1) vc KVife) as (l2 & -> & T2 & G2).
      split.
      + eapply tiles_app; [exact T1|]. eapply tiles_app; [rewrite <- N.add_assoc; exact T2|].
        rewrite Eo. destruct (vib_plaintext vib) as [p|].
        * replace (at_ + (1 + dc + 1) + vc) with (at_ + (1 + dc + 1 + vc)) by lia.
          replace (at_ + (1 + dc + 1 + vc + (len p + 1))) with (at_ + (1 + dc + 1 + vc) + (len p + 1)) by lia.
          apply tiles_one. lia.
        * replace (at_ + (1 + dc + 1 + vc + 0)) with (at_ + (1 + dc + 1) + vc) by lia. constructor.
      + apply Forall_app; split; [exact G1|]. apply Forall_app; split; [exact G2|].
        destruct (vib_plaintext vib); repeat constructor.
    - exists []. replace o with (1 + dc) by (unfold dc; lia). repeat split; constructor. }
  cbv zeta. destruct Hvib as (vs & Ev & Tv & Gv). cbv zeta in Ev. rewrite Ev. clear Ev.
  rewrite Ho.
  replace (N.min (dr_get_size r - o) (len data - o)) with (dr_get_size r - o) by lia.
  replace (o + (dr_get_size r - o)) with (dr_get_size r) by lia.
  rewrite N.ltb_irrefl, andb_false_r. cbn [negb].
  destruct (Hf 0 1 KDif) as (l1 & -> & T1 & G1).
  destruct (Hf 1 dc KDife) as (l2 & -> & T2 & G2).
  destruct (Hf o (dr_get_size r - o) KDataPayload) as (l3 & -> & T3 & G3).
  eexists; split; [reflexivity|]. split.
  - rewrite N.add_0_r in T1. eapply tiles_app; [exact T1|]. eapply tiles_app; [exact T2|].
    rewrite <- N.add_assoc. eapply tiles_app; [exact Tv|].
    replace (at_ + dr_get_size r) with (at_ + o + (dr_get_size r - o)) by lia. exact T3.
  - repeat (apply Forall_app; split); assumption.
Qed.

Lemma index_range_from {E} (data : list N) o :
  o <= len data -> @index_range E N data o (len data) = Ok (skipn (N.to_nat o) data).
Proof. intros H. unfold index_range. rewrite get_from_le by exact H. reflexivity. Qed.

(** the loop says how the bytes from [offset] on are cut *)
Lemma records_loop_tiles cf fuel : forall base data offset i segs,
  annotate_records_loop cf fuel base data offset i = Ok segs -> offset <= len data ->
  tiles (base + offset) segs (base + len data).
Proof.
  induction fuel as [|fuel IH]; intros base data offset i segs H Ho; [discriminate|].
  cbn [annotate_records_loop] in H.
  destruct (offset <? len data) eqn:El; cbn [negb] in H.
  2:{ apply N.ltb_ge in El. apply Ok_inj in H. subst segs. replace offset with (len data) by lia. constructor. }
  apply N.ltb_lt in El. destruct (get_lt_some data offset El) as [b Hb]. rewrite Hb in H.
  assert (Hstep : forall k, (rest <- annotate_records_loop cf fuel base data (offset + 1) i ;;
            Ok (seg (base + offset) (base + offset + 1) k None LRecordField :: rest)) = Ok segs ->
          tiles (base + offset) segs (base + len data)).
  { intros k Hk. apply bind_ok in Hk as (rest & Hr & Hk). apply Ok_inj in Hk. subst segs.
    apply tiles_seg; [lia|]. rewrite <- N.add_assoc. eapply IH; [exact Hr|lia]. }
  destruct (N.land b 0x0F =? 0x0F).
  - destruct (b =? 0x2F); [now apply (Hstep KIdleFiller)|].
    destruct ((b =? 0x0F) || (b =? 0x1F)); [|now apply (Hstep KUnknown)].
    apply Ok_inj in H. subst segs. apply tiles_one. lia.
  - rewrite index_range_from in H by lia. cbn [bind] in H.
    destruct (data_record_parse cf (skipn (N.to_nat offset) data) None) as [r|e|p] eqn:Er; [| |discriminate].
    + destruct (record_tiles _ _ _ _ (base + offset) i Er) as (ss & Es & Ts & _).
      rewrite len_skipn, N2Nat.id in Es. rewrite Es in H. apply bind_ok in H as (rest & Hr & H).
      apply Ok_inj in H. subst segs. destruct (record_sizes _ _ _ _ Er) as (o & _ & _ & L & _).
      rewrite len_skipn, N2Nat.id in L.
      eapply tiles_app; [exact Ts|]. rewrite <- N.add_assoc. eapply IH; [exact Hr|lia].
    + apply Ok_inj in H. subst segs. apply tiles_one. lia.
Qed.

Lemma data_records_tiles cf base data segs :
  annotate_data_records cf base data = Ok segs -> tiles base segs (base + len data).
Proof. intros H. apply records_loop_tiles in H; [|lia]. now rewrite N.add_0_r in H. Qed.

Lemma payload_tiles cf enc start data segs :
  payload_segments cf enc start data = Ok segs -> tiles start segs (start + len data).
Proof.
  unfold payload_segments. destruct enc; [|apply data_records_tiles].
  intros H; apply Ok_inj in H; subst segs. destruct data as [|x data].
  - rewrite len_nil, N.add_0_r. constructor.
  - apply tiles_one. rewrite len_cons. lia.
Qed.

Ltac tile := repeat first
  [ apply tiles_seg; [lia|]
  | match goal with |- tiles ?a [] ?b => replace b with a by (rewrite ?len_cons, ?len_nil in *; lia); constructor end ].

Lemma skip_len {A} (l : list A) n : n <= len l -> len (skipn (N.to_nat n) l) = len l - n.
Proof. intros. rewrite len_skipn. lia. Qed.

(** * The application layer *)
Lemma app_tiles cf : forall n data base segs, (length data <= n)%nat ->
  annotate_application_layer cf base data = Ok segs -> tiles base segs (base + len data).
Proof.
  induction n as [|n IH]; intros data base segs Hn H.
  { destruct data; [|cbn in Hn; lia]. apply Ok_inj in H. subst. rewrite len_nil, N.add_0_r. constructor. }
  destruct data as [|ci tail]; [apply Ok_inj in H; subst; rewrite len_nil, N.add_0_r; constructor|].
  cbn [annotate_application_layer] in H.
  set (data := ci :: tail) in *.
  assert (Hinc : Ok [seg base (base + len data) KUnknown None LAppHeader] = Ok (E := annotate_error) segs ->
                 tiles base segs (base + len data)).
  { intros E; apply Ok_inj in E; subst segs. apply tiles_one. unfold data. rewrite len_cons. lia. }
  destruct ((ci =? 0x72) || (ci =? 0x76)).
  { destruct (len data <? 13) eqn:L; [now apply Hinc|]. apply N.ltb_ge in L.
    rewrite index_range_from in H by exact L. cbn [bind] in H.
    apply bind_ok in H as (enc & _ & H). apply bind_ok in H as (rest & Hr & H). apply Ok_inj in H. subst segs.
    apply payload_tiles in Hr. rewrite skip_len in Hr by exact L. unfold long_tpl_segments.
    rewrite <- (N.add_0_r base) at 1. cbn [app]. tile.
    replace (base + len data) with (base + 13 + (len data - 13)) by lia. exact Hr. }
  destruct ((ci =? 0x7A) || ((0xA0 <=? ci) && (ci <=? 0xAF))).
  { destruct (ci =? 0xA0).
    - destruct (len data <? 6) eqn:L; [now apply Hinc|]. apply N.ltb_ge in L.
      rewrite index_range_from in H by exact L. cbn [bind] in H.
      apply bind_ok in H as (enc & _ & H). apply bind_ok in H as (rest & Hr & H). apply Ok_inj in H. subst segs.
      apply payload_tiles in Hr. rewrite skip_len in Hr by exact L.
      rewrite <- (N.add_0_r base) at 1. cbn [app]. tile.
      replace (base + len data) with (base + 6 + (len data - 6)) by lia. exact Hr.
    - destruct (len data <? 5) eqn:L; [now apply Hinc|]. apply N.ltb_ge in L.
      rewrite index_range_from in H by exact L. cbn [bind] in H.
      apply bind_ok in H as (enc & _ & H). apply bind_ok in H as (rest & Hr & H). apply Ok_inj in H. subst segs.
      apply payload_tiles in Hr. rewrite skip_len in Hr by exact L.
      rewrite <- (N.add_0_r base) at 1. cbn [app]. tile.
      replace (base + len data) with (base + 5 + (len data - 5)) by lia. exact Hr. }
  assert (Hrec : forall o d rest, o <= len data -> len d = len data - o ->
      match d with [] => Ok [] | _ :: _ => annotate_data_records cf (base + o) d end = Ok rest ->
      tiles (base + o) rest (base + len data)).
  { intros o d rest Lo Ld Hd. replace (base + len data) with (base + o + len d) by lia.
    destruct d; [apply Ok_inj in Hd; subst; rewrite len_nil, N.add_0_r; constructor|].
    now apply data_records_tiles in Hd. }
  destruct (ci =? 0x78).
  { apply bind_ok in H as (rest & Hr & H). apply Ok_inj in H. subst segs.
    rewrite <- (N.add_0_r base) at 1. tile. apply (Hrec 1 tail); [| |exact Hr]; unfold data; rewrite len_cons; lia. }
  destruct (ci =? 0x8C).
  { destruct tail as [|cc [|acc inner]]; [now apply Hinc|now apply Hinc|].
    apply bind_ok in H as (rest & Hr & H). apply Ok_inj in H. subst segs.
    rewrite <- (N.add_0_r base) at 1. cbn [app]. tile.
    replace (base + len data) with (base + 3 + len inner) by (unfold data; rewrite !len_cons; lia).
    destruct inner; [apply Ok_inj in Hr; subst; rewrite len_nil, N.add_0_r; constructor|].
    apply IH; [cbn in Hn |- *; lia|exact Hr]. }
  destruct (ci =? 0x8D).
  { destruct (len data <? 9) eqn:L; [now apply Hinc|]. apply N.ltb_ge in L.
    rewrite index_range_from in H by exact L. cbn [bind] in H.
    apply bind_ok in H as (rest & Hr & H). apply Ok_inj in H. subst segs.
    rewrite <- (N.add_0_r base) at 1. cbn [app]. tile. eapply Hrec; [exact L| |exact Hr]. apply skip_len; exact L. }
  destruct (ci =? 0x8E).
  { destruct (len data <? 17) eqn:L; [now apply Hinc|]. apply N.ltb_ge in L.
    rewrite index_range_from in H by exact L. cbn [bind] in H.
    apply bind_ok in H as (rest & Hr & H). apply Ok_inj in H. subst segs.
    rewrite <- (N.add_0_r base) at 1. cbn [app]. tile. eapply Hrec; [exact L| |exact Hr]. apply skip_len; exact L. }
  now apply Hinc.
Qed.
Lemma application_tiles cf data base segs :
  annotate_application_layer cf base data = Ok segs -> tiles base segs (base + len data).
Proof. now apply (app_tiles cf (length data)). Qed.
