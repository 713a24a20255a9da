(** The texts of Format A input are those of the frame it encodes. *)
From Coq Require Import List NArith ZArith Lia Bool String.
Import ListNotations.
From Verif Require Import Model.Base Model.Text Model.Core Model.F64 Model.Wired Model.Wireless Model.DataInfo Model.ValueInfo
  Model.Record Model.MbusData Model.Hex Model.Show Model.Legacy Model.Annotate Model.AnnotateText
  Spec.CoreSpec Spec.WiredSpec Spec.CrcSpec Spec.WirelessSpec Spec.RecordSpec Spec.AnnotateSpec Spec.DetailSpec Spec.LegacySpec Spec.TooltipSpec
  Proof.BaseFacts Proof.CoreFacts Proof.AppFacts Proof.WiredFacts Proof.WirelessFacts Proof.WiredProps Proof.FormatAFacts Proof.FormatAProps
  Proof.IterFacts Proof.RecordFacts Proof.AnnotateFacts Proof.AnnotateFormatA
  Proof.AnnotateRecords Proof.AnnotateApp Proof.TooltipFacts Proof.TooltipTexts Proof.TooltipFrames.
Open Scope N_scope.
Open Scope list_scope.

Ltac cases := repeat match goal with
  | |- context [?a <=? ?b] => destruct (N.leb_spec a b); cbn [andb]; try lia
  | |- context [?a <? ?b] => destruct (N.ltb_spec a b); cbn [andb]; try lia
  end; try reflexivity.

Lemma text_cons s t l i :
  text_at ((s, t) :: l) i = if (s_start s <=? i) && (i <? s_end s) then Some t else text_at l i.
Proof. unfold text_at. cbn [find]. now destruct (_ && _). Qed.
Lemma text_before_tiles a (l : list (segment * text)) b i : tiles a (map fst l) b -> i < a -> text_at l i = None.
Proof.
  revert a. induction l as [|[s t] l IH]; intros a T Hi; [reflexivity|]. cbn [map fst] in T. inversion T; subst.
  rewrite text_cons. replace (s_start s <=? i) with false by (symmetry; apply N.leb_gt; lia). cbn [andb]. eapply IH; [eassumption|lia].
Qed.
Lemma text_after_tiles a (l : list (segment * text)) b i : tiles a (map fst l) b -> b <= i -> text_at l i = None.
Proof.
  revert a. induction l as [|[s t] l IH]; intros a T Hi; [reflexivity|]. cbn [map fst] in T. inversion T as [|? ? ? L T']; subst.
  rewrite text_cons. pose proof (tiles_le _ _ _ T'). replace (i <? s_end s) with false by (symmetry; apply N.ltb_ge; lia). rewrite andb_false_r.
  eapply IH; eassumption.
Qed.

Lemma map_text bs t a (l : list (segment * text)) b j : Forall (fun b => 1 <= b) bs -> tiles a (map fst l) b -> b <= data_len bs + t ->
  j < data_len bs + t ->
  text_at (map (fun '(s, x) => (map_segment (blocks_map 0 bs t) s, x)) l) (place 0 bs j) = text_at l j.
Proof.
  intros F H Hb Hj. revert a H. induction l as [|[s x] l IH]; intros a H; [reflexivity|]. cbn [map fst] in H. inversion H as [|? ? ? L H']; subst.
  pose proof (tiles_le _ _ _ H'). cbn [map]. rewrite !text_cons. rewrite map_segment_spot; [|exact F|exact L|lia].
  cbn [seg s_start s_end].
  assert (Ej : place 0 bs j = spot bs t j).
  { unfold spot. replace (j <? data_len bs + t) with true; [reflexivity|]. symmetry; apply N.ltb_lt; lia. }
  assert (Ec : (spot bs t (s_start s) <=? place 0 bs j) && (place 0 bs j <? spot bs t (s_end s)) =
               (s_start s <=? j) && (j <? s_end s)).
  { rewrite Ej. f_equal.
    - destruct (s_start s <=? j) eqn:E; [apply N.leb_le in E; apply N.leb_le|apply N.leb_gt in E; apply N.leb_gt].
      + destruct (N.eq_dec (s_start s) j) as [->|Hne]; [lia|].
        apply N.lt_le_incl, spot_mono; [exact F|lia|lia].
      + apply spot_mono; [exact F|lia|lia].
    - destruct (j <? s_end s) eqn:E; [apply N.ltb_lt in E; apply N.ltb_lt|apply N.ltb_ge in E; apply N.ltb_ge].
      + apply spot_mono; [exact F|lia|lia].
      + destruct (N.eq_dec (s_end s) j) as [->|Hne]; [lia|].
        apply N.lt_le_incl, spot_mono; [exact F|lia|lia]. }
  rewrite Ec. destruct ((s_start s <=? j) && (j <? s_end s)); [reflexivity|]. eapply IH; exact H'.
Qed.

(** ** Inserting the CRCs *)
Definition crc_told (D : list N) (c : N) : segment * text := (seg c (c + 2) KCrc None LFrame, crc_text D c).

Lemma insert_told_later D s t h u (rest : list (segment * text)) c : s_start s < c -> s_start h < c ->
  insert_crc_told D ((s, t) :: (h, u) :: rest) (c, c + 2) = (s, t) :: insert_crc_told D ((h, u) :: rest) (c, c + 2).
Proof.
  intros Hs Hh. unfold insert_crc_told. set (l := (h, u) :: rest). unfold told in *.
  assert (Hp : insert_position (map fst l) c <> O).
  { unfold l. cbn. destruct (c <=? s_start h) eqn:E; [apply N.leb_le in E; lia|discriminate]. }
  cbn [map fst insert_position]. destruct (c <=? s_start s) eqn:E; [apply N.leb_le in E; lia|].
  destruct (insert_position (map fst l) c) as [|n] eqn:En; [congruence|].
  change (firstn (S (S n)) ((s, t) :: l)) with ((s, t) :: firstn (S n) l).
  change (skipn (S (S n)) ((s, t) :: l)) with (skipn (S n) l).
  rewrite last_opt_cons2 by (unfold l; cbn; discriminate).
  replace (S (S n) - 1)%nat with (S n) by lia. replace (S n - 1)%nat with n by lia.
  change (firstn (S n) ((s, t) :: l)) with ((s, t) :: firstn n l).
  destruct (last_opt (firstn (S n) l)) as [[prev px]|]; [|reflexivity].
  destruct (c <? s_end prev); reflexivity.
Qed.
Lemma insert_told_split D s t (rest : list (segment * text)) c : s_start s < c -> c < s_end s -> Forall (fun x => c <= s_start x) (map fst rest) ->
  insert_crc_told D ((s, t) :: rest) (c, c + 2) =
    [(seg (s_start s) c (s_kind s) (s_group s) (s_layer s), t); crc_told D c]
    ++ (if c + 2 <? s_end s then [(seg (c + 2) (s_end s) (s_kind s) (s_group s) (s_layer s), t)] else []) ++ rest.
Proof.
  intros H1 H2 F. unfold insert_crc_told. cbn [map fst insert_position].
  destruct (c <=? s_start s) eqn:E; [apply N.leb_le in E; lia|]. unfold told in *. rewrite (position_none _ _ F).
  cbn [firstn skipn Nat.sub app]. cbn [last_opt length Nat.sub nth_error].
  apply N.ltb_lt in H2. rewrite H2. reflexivity.
Qed.
Lemma insert_told_last D s t c : s_start s < c -> s_end s <= c -> insert_crc_told D [(s, t)] (c, c + 2) = [(s, t); crc_told D c].
Proof.
  intros H1 H2. unfold insert_crc_told. cbn [map fst insert_position].
  destruct (c <=? s_start s) eqn:E; [apply N.leb_le in E; lia|].
  cbn [firstn skipn Nat.sub app last_opt length nth_error].
  destruct (c <? s_end s) eqn:E2; [apply N.ltb_lt in E2; lia|reflexivity].
Qed.
Definition crc_or (D : list N) (c i : N) (old : option text) : option text :=
  if (c <=? i) && (i <? c + 2) then Some (crc_text D c) else old.

Lemma insert_told_inside D a (l : list (segment * text)) b c : tiles a (map fst l) b -> a < c -> c + 2 <= b -> avoids c (map fst l) ->
  forall i, text_at (insert_crc_told D l (c, c + 2)) i = crc_or D c i (text_at l i).
Proof.
  revert a. induction l as [|[s t] l IH]; intros a H Ha Hb Hav i; [inversion H; subst; lia|]. cbn [map fst] in *.
  inversion H as [|? ? ? L H']; subst. inversion Hav as [|? ? Hs Hr]; subst.
  pose proof (tiles_start_ge _ _ _ H') as Hge. pose proof (tiles_le _ _ _ H') as Hle.
  destruct (N.lt_ge_cases c (s_end s)) as [Hc|Hc].
  - assert (He : c + 2 <= s_end s).
    { inversion H' as [|? ? ? L2 T2]; subst; [lia|]. match goal with E : _ = map fst l |- _ => rewrite <- E in Hr end. inversion Hr; subst. lia. }
    rewrite insert_told_split; [|lia|exact Hc|eapply Forall_impl; [|exact Hge]; cbn; intros; lia].
    unfold crc_told, crc_or. cbn [app]. rewrite !text_cons. cbn [seg s_start s_end].
    destruct (c + 2 <? s_end s) eqn:E.
    + apply N.ltb_lt in E. cbn [app]. rewrite text_cons. cbn [seg s_start s_end]. cases.
    + apply N.ltb_ge in E. cbn [app]. cases.
  - destruct l as [|[h u] l]; [cbn in H'; inversion H'; subst; lia|].
    pose proof (tiles_head _ _ _ _ H') as (Hh1 & Hh2 & Hh3).
    inversion Hr as [|? ? Hh Hr']; subst.
    assert (Hsc : s_start h < c). { destruct (N.eq_dec c (s_end s)) as [->|]; cbn [fst] in *; lia. }
    rewrite insert_told_later; [|lia|exact Hsc]. rewrite !text_cons.
    rewrite (IH (s_end s) H' ltac:(cbn [fst] in *; lia) Hb Hr i), text_cons. unfold crc_or. cases.
Qed.
Lemma insert_told_at_end D a (l : list (segment * text)) c : tiles a (map fst l) c -> a < c ->
  insert_crc_told D l (c, c + 2) = l ++ [crc_told D c].
Proof.
  revert a. induction l as [|[s t] l IH]; intros a H Ha; cbn [map fst] in H; [inversion H; subst; lia|]. inversion H as [|? ? ? L H']; subst.
  destruct l as [|[h u] l].
  - cbn in H'. inversion H'; subst. rewrite insert_told_last; [reflexivity|lia|lia].
  - pose proof (tiles_head _ _ _ _ H') as (Hh1 & Hh2 & Hh3). pose proof (tiles_le _ _ _ Hh3). cbn [fst] in *.
    rewrite insert_told_later; [|lia|lia]. cbn [app]. f_equal. eapply IH; [exact H'|lia].
Qed.
Lemma text_app a (l : list (segment * text)) b m i : tiles a (map fst l) b ->
  text_at (l ++ m) i = if (a <=? i) && (i <? b) then text_at l i else text_at m i.
Proof.
  revert a. induction l as [|[s t] l IH]; intros a H; cbn [map fst] in H.
  - inversion H; subst. cbn [app]. destruct (N.leb_spec b i); destruct (N.ltb_spec i b); cbn [andb]; try reflexivity; lia.
  - inversion H as [|? ? ? L H']; subst. cbn [app]. rewrite !text_cons, (IH _ H'). pose proof (tiles_le _ _ _ H'). cases.
Qed.

Definition crc_there (crcs : list (N * N)) (i : N) : option (N * N) := find (fun p => (fst p <=? i) && (i <? fst p + 2)) crcs.
Lemma fold_insert_told D bs : forall pos t a (l : list (segment * text)), Forall (fun b => 1 <= b) bs -> bs <> [] ->
  tiles a (map fst l) (data_end pos bs t) -> a <= pos ->
  (forall c e, In (c, e) (blocks_crc pos bs) -> avoids c (map fst l)) ->
  forall i, text_at (fold_left (insert_crc_told D) (blocks_crc pos bs) l) i =
    match crc_there (blocks_crc pos bs) i with Some (c, _) => Some (crc_text D c) | None => text_at l i end.
Proof.
  induction bs as [|b bs IH]; intros pos t a l F Hne T Ha Hav i; [congruence|].
  cbn [blocks_crc fold_left]. inversion F as [|? ? Hb F']; subst.
  set (c := pos + b) in *.
  assert (Hc : forall c' e', In (c', e') (blocks_crc (c + 2) bs) -> c + 2 < c').
  { intros c' e' Hin. destruct bs as [|b' bs']; [destruct Hin|]. cbn [blocks_crc] in Hin. inversion F' as [|? ? Hb' ?]; subst.
    destruct Hin as [Hin|Hin]; [injection Hin as <- <-; lia|]. apply blocks_crc_ge in Hin. lia. }
  unfold crc_there. cbn [find fst]. fold (crc_there (blocks_crc (c + 2) bs) i).
  destruct bs as [|b' bs'].
  - cbn [blocks_crc fold_left crc_there find]. unfold data_end in T. cbn [blocks_len] in T.
    destruct (t =? 0) eqn:E.
    + apply N.eqb_eq in E. subst t. replace (pos + (b + 2 + 0) - 2) with c in T by (unfold c; lia).
      rewrite (insert_told_at_end D a) by (exact T || (unfold c; lia)). rewrite (text_app a l c _ i T). unfold crc_told. rewrite text_cons.
      cbn [seg s_start s_end].
      destruct (N.leb_spec c i); destruct (N.ltb_spec i (c + 2)); cbn [andb].
      * replace (i <? c) with false by (symmetry; apply N.ltb_ge; lia). now rewrite andb_false_r.
      * replace (i <? c) with false by (symmetry; apply N.ltb_ge; lia). rewrite andb_false_r.
        symmetry. eapply text_after_tiles; [exact T|lia].
      * replace (i <? c) with true by (symmetry; apply N.ltb_lt; lia). rewrite andb_true_r.
        destruct (a <=? i) eqn:Ea; [reflexivity|]. apply N.leb_gt in Ea. symmetry. eapply text_before_tiles; [exact T|exact Ea].
      * lia.
    + apply N.eqb_neq in E. replace (pos + (b + 2 + 0) + t) with (c + 2 + t) in * by (unfold c; lia).
      rewrite (insert_told_inside D a l (c + 2 + t) c T); [|unfold c; lia|lia|eapply Hav; left; reflexivity].
      unfold crc_or. now destruct ((c <=? i) && (i <? c + 2)).
  - set (bs := b' :: bs') in *. pose proof (blocks_len_pos bs ltac:(discriminate) F') as Hl.
    assert (Hend : data_end pos (b :: bs) t = data_end (c + 2) bs t).
    { unfold data_end. cbn [blocks_len]. unfold c. destruct (t =? 0); lia. }
    assert (Hin : c + 2 <= data_end pos (b :: bs) t) by (rewrite Hend; unfold data_end; destruct (t =? 0); lia).
    assert (Hav0 : avoids c (map fst l)) by (eapply Hav; left; reflexivity).
    destruct (insert_inside a (map fst l) (data_end pos (b :: bs) t) c T ltac:(unfold c; lia) Hin Hav0) as (T' & _ & Av).
    rewrite (IH (c + 2) t a (insert_crc_told D l (c, c + 2))).
    + rewrite (insert_told_inside D a l _ c T ltac:(unfold c; lia) Hin Hav0).
      unfold crc_or. destruct (crc_there (blocks_crc (c + 2) bs) i) as [[c' e']|] eqn:Ef.
      * unfold crc_there in Ef. apply find_some in Ef as [Hi Ef]. cbn [fst] in Ef. apply Hc in Hi. apply andb_true_iff in Ef as [Ef _]. apply N.leb_le in Ef.
        replace ((c <=? i) && (i <? c + 2)) with false; [reflexivity|]. symmetry. apply andb_false_iff. right. apply N.ltb_ge. lia.
      * now destruct ((c <=? i) && (i <? c + 2)).
    + exact F'.
    + discriminate.
    + rewrite insert_ranges, <- Hend. exact T'.
    + unfold c; lia.
    + intros c' e' Hi. rewrite insert_ranges. apply Av; [eapply Hc; exact Hi|]. eapply Hav. right. exact Hi.
Qed.

Lemma filter_told a (l : list (segment * text)) b : tiles a (map fst l) b -> filter (fun '(s, _) => s_start s <? s_end s) l = l.
Proof.
  revert a. induction l as [|[s t] l IH]; intros a H; [reflexivity|]. cbn [map fst] in H. inversion H as [|? ? ? L H']; subst.
  cbn [filter]. apply N.ltb_lt in L. rewrite L. f_equal. eapply IH; exact H'.
Qed.
Lemma two_bytes D c : bytes_ok D -> c + 2 <= len D ->
  exists a b, slice D c (c + 2) = [a; b] /\ crc_text D c = txt "CRC: 0x" ++ hex_of [a; b].
Proof.
  intros Hb L. exists (byte_or_0 D c), (byte_or_0 D (c + 1)). unfold crc_text. rewrite hex_pair by now apply byte_small. split; [|reflexivity].
  pose proof (slice_byte D c ltac:(lia)) as E1. pose proof (slice_byte D (c + 1) ltac:(lia)) as E2.
  unfold slice in *. replace (c + 2 - c) with 2 by lia. replace (c + 1 - c) with 1 in E1 by lia. replace (c + 1 + 1 - (c + 1)) with 1 in E2 by lia.
  replace (N.to_nat (c + 1)) with (S (N.to_nat c)) in E2 by lia.
  destruct (skipn (N.to_nat c) D) as [|u r] eqn:Es; [discriminate|].
  replace (skipn (S (N.to_nat c)) D) with r in E2.
  2:{ clear - Es. revert D Es. induction (N.to_nat c) as [|m IH]; intros [|w D] Es; cbn in *; try discriminate; [now injection Es|now apply IH]. }
  injection E1 as E1. destruct r as [|w r]; [discriminate|]. injection E2 as E2.
  change (firstn (N.to_nat 2) (u :: w :: r)) with [u; w]. now rewrite E1, E2.
Qed.

Lemma tooltips_format_a cf display frame fr encoded plain : bytes_ok encoded -> bytes_ok frame ->
  format_a frame encoded -> wireless_meaning frame fr ->
  not_wired frame -> no_first_crc frame -> not_wired encoded ->
  frame_told cf display frame = Ok plain ->
  exists l, frame_told cf display encoded = Ok l /\
    (forall j, j < len frame -> text_at l (format_a_position j) = text_at plain j) /\
    (forall i, i < len encoded -> (forall j, j < len frame -> i <> format_a_position j) ->
       exists c a b, (i = c \/ i = c + 1) /\ slice encoded c (c + 2) = [a; b] /\
         (forall j, j < len frame -> c <> format_a_position j /\ c + 1 <> format_a_position j) /\
         text_at l i = Some (txt "CRC: 0x" ++ hex_of [a; b])).
Proof.
  intros Hb Hbf Hfa Hm Hnw Hnc Hnw' Hp.
  destruct (wireless_meaning_length _ _ Hbf Hm) as [H0 H256].
  destruct (format_a_length _ _ Hfa H256) as [L1 L2].
  destruct (strip_identity frame encoded (repeat 0 512) Hfa Hb) as [out' Hs]; [rewrite len_repeat; lia|exact H0|exact H256|].
  pose proof (frame_told_wireless cf display frame plain Hbf Hnw Hnc Hp) as Hinner.
  pose proof (wireless_ranges cf display frame) as Ri. rewrite Hinner in Ri. symmetry in Ri. cbn [ranges] in Ri.
  destruct (offsets_and_crcs encoded L2) as (bs & t & Em & Ec & F & Ld & Lst). specialize (Lst _ _ _ Hs).
  set (B := 10 :: bs) in *.
  pose proof (inner_tiles _ _ _ Ri) as Ti. rewrite Lst in Ti.
  pose proof (map_tiles B t 0 _ _ F Ti ltac:(lia)) as Tm.
  assert (E0 : spot B t 0 = 0).
  { unfold spot, B. cbn [data_len place]. destruct (0 <? 10 + data_len bs + t) eqn:E; [reflexivity|apply N.ltb_ge in E; lia]. }
  assert (E1 : spot B t (data_len B + t) = data_end 0 B t).
  { unfold spot. now rewrite N.ltb_irrefl. }
  rewrite E0, E1 in Tm.
  set (moved := map (fun '(s, x) => (map_segment (blocks_map 0 B t) s, x)) plain).
  assert (Em2 : map fst moved = map (map_segment (blocks_map 0 B t)) (map fst plain)).
  { unfold moved. rewrite !map_map. apply map_ext. now intros [s x]. }
  assert (Av : forall c e, In (c, e) (blocks_crc 0 B) -> avoids c (map fst moved)).
  { intros c e Hin. rewrite Em2. eapply map_avoids; [exact F|exact Ti|lia|exact Hin]. }
  rewrite <- Em2 in Tm.
  pose proof (fold_insert_told encoded B 0 t 0 moved F ltac:(discriminate) Tm ltac:(lia) Av) as X.
  set (l := fold_left (insert_crc_told encoded) (blocks_crc 0 B) moved) in *.
  assert (El : map fst l = fold_left insert_crc (blocks_crc 0 B) (map fst moved)).
  { unfold l. generalize moved as m. generalize (blocks_crc 0 B) as crcs. clear. intros crcs. induction crcs as [|c crcs IH]; intros m; [reflexivity|].
    cbn [fold_left]. rewrite IH, insert_ranges. reflexivity. }
  destruct (fold_insert B 0 t 0 _ F ltac:(discriminate) Tm ltac:(lia) Av) as (Tf & _). rewrite <- El in Tf.
  assert (Hf : format_a_told cf display encoded frame = Ok l).
  { unfold format_a_told. rewrite Em. cbn [bind]. rewrite Hinner. cbn [bind]. rewrite Ec. cbn [bind]. cbv zeta.
    fold moved. fold l. now rewrite (filter_told _ _ _ Tf). }
  exists l. split.
  { pose proof (wired_ranges cf display encoded) as Rw.
    assert (Ew : exists e, wired_told cf display encoded = Err (AError e)).
    { unfold wired_told. destruct (wired_try_from cf encoded) as [w|e|pp] eqn:E.
      - exfalso. apply wired_ok_iff in E. exact (Hnw' _ E).
      - cbn. eauto.
      - exfalso. assert (P : is_panic (wired_try_from cf encoded)) by (rewrite E; eexists; reflexivity).
        apply wired_panic_iff in P. lia. }
    destruct Ew as [e Ew]. unfold frame_told. rewrite Ew, Hs. cbn [no_fuel map_err bind]. now rewrite Hf. }
  (* the blocks are those of the encoding *)
  assert (Hb' := Hb). inversion Hfa as [head hi lo content enc Hhl Hcrc0 Hr Ef Ee]. subst frame. symmetry in Ee. rewrite <- ?Ee.
  assert (Lh : len (head ++ [hi; lo]) = 12) by (rewrite len_app; unfold len; cbn; lia).
  assert (Lh10 : len head = 10) by (unfold len; lia).
  rewrite Ee in Hb'. apply bytes_ok_app in Hb' as [_ Hb']. apply (bytes_ok_app [hi; lo]) in Hb' as [_ Hb'].
  destruct (loops_format_a content enc Hr Hb' (S (length (head ++ [hi; lo] ++ enc))) (head ++ [hi; lo])) as (bs' & M1 & M2 & F' & D' & B').
  { rewrite !app_length. lia. }
  rewrite Lh in M1, M2. rewrite <- app_assoc in M1, M2. rewrite <- Ee in M1, M2.
  assert (Le : len encoded = 12 + len enc) by (rewrite Ee, !len_app; change (len [hi; lo]) with 2; lia).
  unfold build_format_a_offset_map in Em. unfold crc_positions in Ec.
  rewrite M1 in Em. rewrite M2 in Ec. cbn [bind] in Em, Ec.
  replace (len encoded <? 12) with false in Em by (symmetry; apply N.ltb_ge; lia).
  replace (12 <=? len encoded) with true in Ec by (symmetry; apply N.leb_le; lia).
  replace (N.min 10 (len encoded)) with 10 in Em by lia.
  apply Ok_inj in Em, Ec.
  assert (Eb2 : blocks_map 0 (10 :: bs') 0 = blocks_map 0 B t) by exact Em.
  assert (Ec2 : blocks_crc 0 (10 :: bs') = blocks_crc 0 B) by exact Ec.
  assert (Lf : len (head ++ content) = 10 + data_len bs') by (rewrite len_app; lia).
  assert (Hpos : forall j, j < len (head ++ content) -> place 0 B j = format_a_position j).
  { intros j Hj. rewrite <- (position_place bs' j F') by lia.
    assert (G : get (blocks_map 0 B t) j = get (blocks_map 0 (10 :: bs') 0) j) by now rewrite Eb2.
    unfold B in *. rewrite !blocks_map_get in G by (cbn [data_len]; cbn [data_len] in Lst; lia). now injection G. }
  split.
  - intros j Hj. rewrite <- (Hpos j Hj), X.
    destruct (crc_there (blocks_crc 0 B) (place 0 B j)) as [[c e]|] eqn:E.
    + exfalso. unfold crc_there in E. apply find_some in E as [Hin E]. cbn [fst] in E.
      apply andb_true_iff in E as [E2 E3]. apply N.leb_le in E2. apply N.ltb_lt in E3.
      destruct (place_avoids _ _ _ _ j Hin) as [_ Hpl]. lia.
    + eapply map_text; [exact F|exact Ti|lia|lia].
  - intros i Hi Hn. rewrite X. destruct (place_or_crc (10 :: bs') 0 i) as [(j & Hj & Ep)|Hc].
    + cbn [blocks_len]. lia.
    + exfalso. cbn [data_len] in Hj. apply (Hn j); [lia|]. rewrite <- (position_place bs' j F') by lia. lia.
    + rewrite Ec2, N.add_0_l in Hc. unfold in_crc in Hc. apply existsb_exists in Hc as (q & Hin & Hq).
      destruct (crc_there (blocks_crc 0 B) i) as [[c e]|] eqn:E.
      2:{ exfalso. unfold crc_there in E. pose proof (find_none _ _ E _ Hin) as K. cbv beta in K. congruence. }
      unfold crc_there in E. apply find_some in E as [Hin' E]. cbn [fst] in E. apply andb_true_iff in E as [Q1 Q2]. apply N.leb_le in Q1. apply N.ltb_lt in Q2.
      destruct (blocks_crc_ge _ _ _ _ Hin') as (_ & -> & Hend). rewrite N.add_0_l in Hend.
      destruct (two_bytes encoded c Hb ltac:(lia)) as (a & b & S1 & S2).
      exists c, a, b. split; [lia|]. split; [exact S1|]. split; [|now rewrite S2].
      intros j Hj. rewrite <- (Hpos j Hj). destruct (place_avoids _ _ _ _ j Hin') as [_ Hpl]. lia.
Qed.
