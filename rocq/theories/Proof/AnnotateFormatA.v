(** Facts about the annotation of whole frames, with and without Format A CRCs. *)
From Coq Require Import List NArith Lia Bool.
Import ListNotations.
From Verif Require Import Model.Base Model.Core Model.Wired Model.Wireless Model.DataInfo Model.ValueInfo Model.Record
  Model.UserData Model.MbusData Model.Annotate
  Spec.CoreSpec Spec.WiredSpec Spec.CrcSpec Spec.WirelessSpec Spec.AnnotateSpec
  Proof.BaseFacts Proof.WiredFacts Proof.WirelessFacts Proof.FormatAFacts Proof.AppFacts Proof.AnnotateFacts.
Open Scope N_scope.

(** * Wired frames *)
Lemma long_control_tiles cf data d ctl segs :
  annotate_long_or_control cf data d ctl = Ok segs -> len data = len d + 8 -> tiles 0 segs (len data).
Proof.
  intros H L. unfold annotate_long_or_control in H. apply bind_ok in H as (body & Hb & H). apply Ok_inj in H.
  subst segs. cbn [app]. do 5 (apply tiles_seg; [lia|]).
  assert (T : tiles 6 body (6 + len d)).
  { destruct d as [|x d]; [apply Ok_inj in Hb; subst; constructor|]. destruct ctl.
    - apply Ok_inj in Hb; subst. apply tiles_one. rewrite len_cons. lia.
    - now apply application_tiles in Hb. }
  eapply tiles_app; [exact T|].
  replace (6 + len d <? len data) with true by (symmetry; apply N.ltb_lt; lia).
  replace (6 + len d + 1 <? len data) with true by (symmetry; apply N.ltb_lt; lia).
  cbn [app]. apply tiles_seg; [lia|]. replace (len data) with (6 + len d + 1 + 1) by lia. apply tiles_one. lia.
Qed.

Lemma wired_shape cf data fr : wired_try_from cf data = Ok fr ->
  match fr with
  | SingleCharacter _ => exists rest, data = 0xE5 :: rest
  | ShortFrame _ _ => len data = 5
  | LongFrame _ _ d | ControlFrame _ _ d => len data = len d + 8
  end.
Proof.
  intros H. pose proof H as H0. apply wired_ok_iff in H0. destruct H0.
  - now exists rest.
  - reflexivity.
  - unfold long_layout. rewrite !len_cons, len_app, !len_cons, len_nil; lia.
  - unfold long_layout. rewrite !len_cons, len_app, !len_cons, len_nil; lia.
Qed.

Lemma wired_tiles cf data segs : annotate_wired cf data = Ok segs ->
  (exists rest, data = 0xE5 :: rest) /\ tiles 0 segs 1 \/ tiles 0 segs (len data).
Proof.
  unfold annotate_wired. intros H. apply bind_ok in H as (fr & Hf & H). apply map_err_ok in Hf.
  pose proof (wired_shape _ _ _ Hf) as Hs. destruct fr.
  - left. split; [exact Hs|]. apply Ok_inj in H. subst segs. apply tiles_one. lia.
  - right. apply Ok_inj in H. subst segs. rewrite Hs. do 4 (apply tiles_seg; [lia|]). apply tiles_one. lia.
  - right. eapply long_control_tiles; [exact H|exact Hs].
  - right. eapply long_control_tiles; [exact H|exact Hs].
Qed.

(** * Wireless frames *)
Lemma wireless_len data fr : wireless_try_from data = Ok fr -> 11 <= len data.
Proof.
  intros H. destruct (N.lt_ge_cases (len data) 11) as [L|L]; [|exact L].
  rewrite wireless_short in H by exact L. discriminate.
Qed.

Lemma trailing_value data s : @trailing_frame_crc_start annotate_error data = Ok (Some s) -> s + 2 = len data /\ 10 <= s.
Proof.
  unfold trailing_frame_crc_start. destruct (len data <? 2) eqn:E1; [discriminate|].
  destruct (len data - 2 <? 10) eqn:E2; [discriminate|]. apply N.ltb_ge in E1, E2. intros H.
  apply bind_ok in H as (hi & _ & H). apply bind_ok in H as (lo & _ & H). apply bind_ok in H as (pre & _ & H).
  destruct (_ =? _); [|discriminate]. injection H as <-. lia.
Qed.

Lemma inner_tiles cf data segs : annotate_wireless_inner cf data = Ok segs -> tiles 0 segs (len data).
Proof.
  unfold annotate_wireless_inner. intros H. apply bind_ok in H as (fr & Hf & H). apply map_err_ok in Hf.
  apply wireless_len in Hf. apply bind_ok in H as (cs & Hc & H). apply bind_ok in H as (body & Hb & H).
  apply Ok_inj in H. subst segs. cbn [app]. do 6 (apply tiles_seg; [lia|]).
  set (app_end := match cs with Some s => s | None => len data end) in *.
  assert (He : 10 <= app_end <= len data).
  { unfold app_end. destruct cs as [s|]; [apply trailing_value in Hc; lia|lia]. }
  assert (T : tiles 10 body app_end).
  { destruct (10 <? app_end) eqn:E.
    - apply bind_ok in Hb as (d & Hd & Hb). apply application_tiles in Hb.
      unfold index_range in Hd. destruct (get_range data 10 app_end) as [d'|] eqn:G; [|discriminate].
      apply Ok_inj in Hd. subst d'. destruct (get_range_split _ _ _ _ G) as (p & r & _ & _ & L).
      replace app_end with (10 + len d) by lia. exact Hb.
    - apply N.ltb_ge in E. apply Ok_inj in Hb. subst body. replace app_end with 10 by lia. constructor. }
  eapply tiles_app; [exact T|]. unfold app_end. destruct cs as [s|]; [|constructor].
  apply trailing_value in Hc. apply tiles_one. lia.
Qed.

(** * Format A: blocks *)

(** the blocks of the original: data of these lengths from [pos] on, each followed by a
    CRC, then [t] more bytes *)
Fixpoint blocks_len (bs : list N) : N := match bs with [] => 0 | b :: bs => b + 2 + blocks_len bs end.
Fixpoint data_len (bs : list N) : N := match bs with [] => 0 | b :: bs => b + data_len bs end.
Fixpoint blocks_map (pos : N) (bs : list N) (t : N) : list N :=
  match bs with [] => range pos t | b :: bs => range pos b ++ blocks_map (pos + b + 2) bs t end.
Fixpoint blocks_crc (pos : N) (bs : list N) : list (N * N) :=
  match bs with [] => [] | b :: bs => (pos + b, pos + b + 2) :: blocks_crc (pos + b + 2) bs end.
Fixpoint place (pos : N) (bs : list N) (j : N) : N :=
  match bs with [] => pos + j | b :: bs => if j <? b then pos + j else place (pos + b + 2) bs (j - b) end.

Lemma range_len a n : len (range a n) = n.
Proof. unfold range, len. rewrite map_length, seq_length. apply N2Nat.id. Qed.
Lemma range_get a n i : i < n -> get (range a n) i = Some (a + i).
Proof.
  intros H. unfold get, range. rewrite nth_error_map.
  assert (Hs : nth_error (seq 0 (N.to_nat n)) (N.to_nat i) = Some (N.to_nat i)).
  { rewrite (nth_error_nth' _ O) by (rewrite seq_length; lia). f_equal. rewrite seq_nth by lia. reflexivity. }
  rewrite Hs. cbn. now rewrite N2Nat.id.
Qed.
Lemma blocks_map_len pos bs t : len (blocks_map pos bs t) = data_len bs + t.
Proof.
  revert pos. induction bs as [|b bs IH]; intros pos; cbn; [now rewrite range_len|].
  rewrite len_app, range_len, IH. lia.
Qed.
Lemma blocks_map_get bs t : forall pos j, j < data_len bs + t -> get (blocks_map pos bs t) j = Some (place pos bs j).
Proof.
  induction bs as [|b bs IH]; intros pos j H; cbn in *; [apply range_get; lia|].
  destruct (j <? b) eqn:E.
  - apply N.ltb_lt in E. rewrite get_app_l by (rewrite range_len; lia). now apply range_get.
  - apply N.ltb_ge in E. rewrite get_app_r by (rewrite range_len; lia). rewrite range_len. apply IH. lia.
Qed.
Lemma place_ge bs : forall pos j, pos + j <= place pos bs j.
Proof.
  induction bs as [|b bs IH]; intros pos j; cbn; [lia|]. destruct (j <? b) eqn:E; [lia|].
  apply N.ltb_ge in E. specialize (IH (pos + b + 2) (j - b)). lia.
Qed.
Lemma place_mono bs : forall pos i j, i < j -> place pos bs i < place pos bs j.
Proof.
  induction bs as [|b bs IH]; intros pos i j H; cbn; [lia|].
  destruct (i <? b) eqn:E1; destruct (j <? b) eqn:E2;
    try apply N.ltb_lt in E1; try apply N.ltb_lt in E2; try apply N.ltb_ge in E1; try apply N.ltb_ge in E2; try lia.
  - pose proof (place_ge bs (pos + b + 2) (j - b)). lia.
  - apply IH. lia.
Qed.
(** nothing of the data is where a CRC is *)
Lemma place_avoids bs : forall pos c e j, In (c, e) (blocks_crc pos bs) ->
  e = c + 2 /\ (place pos bs j < c \/ c + 2 <= place pos bs j).
Proof.
  induction bs as [|b bs IH]; intros pos c e j H; [destruct H|]. cbn in *. destruct H as [H|H].
  - injection H as <- <-. split; [lia|]. destruct (j <? b) eqn:E; [apply N.ltb_lt in E; lia|].
    pose proof (place_ge bs (pos + b + 2) (j - b)). lia.
  - assert (Hc : forall p c e, In (c, e) (blocks_crc p bs) -> p <= c /\ e = c + 2).
    { clear. intros p c e. revert p. induction bs as [|b bs IH]; intros p H; [destruct H|].
      cbn in H. destruct H as [H|H]; [injection H as <- <-; lia|]. specialize (IH _ H). lia. }
    destruct (Hc _ _ _ H) as [L Ee]. split; [exact Ee|].
    destruct (j <? b) eqn:E; [apply N.ltb_lt in E; lia|]. now apply (IH (pos + b + 2) c e).
Qed.
(** the end of the data *)
Definition data_end (pos : N) (bs : list N) (t : N) : N :=
  if t =? 0 then pos + blocks_len bs - 2 else pos + blocks_len bs + t.
Lemma place_last bs : forall pos j, j = data_len bs -> place pos bs j = pos + blocks_len bs.
Proof.
  induction bs as [|b bs IH]; intros pos j ->; cbn; [lia|].
  destruct (b + data_len bs <? b) eqn:E; [apply N.ltb_lt in E; lia|]. rewrite IH by lia. lia.
Qed.
Lemma place_beyond bs : forall pos j, data_len bs <= j -> place pos bs j = pos + blocks_len bs + (j - data_len bs).
Proof.
  induction bs as [|b bs IH]; intros pos j H; cbn in *; [lia|].
  destruct (j <? b) eqn:E; [apply N.ltb_lt in E; lia|]. rewrite IH by lia. lia.
Qed.
Lemma last_opt_get {A} (l : list A) : last_opt l = match l with [] => None | _ => get l (len l - 1) end.
Proof.
  destruct l as [|x l]; [reflexivity|]. unfold last_opt, get. f_equal. rewrite len_cons. unfold len. cbn [length]. lia.
Qed.
Lemma place_last_byte bs t : forall pos, Forall (fun b => 1 <= b) bs -> 0 < data_len bs + t -> bs <> [] \/ 0 < t ->
  place pos bs (data_len bs + t - 1) + 1 = data_end pos bs t.
Proof.
  intros pos F H _. unfold data_end. destruct (t =? 0) eqn:E.
  - apply N.eqb_eq in E. subst t. rewrite N.add_0_r in *. revert pos. induction F as [|b bs Hb F IH]; intros pos; [cbn in H; lia|].
    cbn. destruct bs as [|b' bs].
    + cbn. destruct (b + 0 - 1 <? b) eqn:E; [lia|apply N.ltb_ge in E; lia].
    + assert (Hd : 1 <= data_len (b' :: bs)) by (inversion F; cbn; lia).
      destruct (b + data_len (b' :: bs) - 1 <? b) eqn:E; [apply N.ltb_lt in E; lia|].
      replace (b + data_len (b' :: bs) - 1 - b) with (data_len (b' :: bs) - 1) by lia.
      rewrite IH by lia. cbn. lia.
  - apply N.eqb_neq in E. rewrite place_beyond by lia. lia.
Qed.

(** the loops of the annotator and of the stripper find the same blocks *)
Lemma find_block_bounds data pos n : pos + N.of_nat n + 2 <= len data ->
  find_block data pos n = Ok None \/ exists dl, find_block data pos n = Ok (Some dl) /\ 1 <= dl <= N.of_nat n.
Proof.
  induction n as [|n IH]; intros H; [now left|].
  cbn [find_block]. destruct (len data <? pos + N.of_nat (S n) + 2) eqn:E; [apply N.ltb_lt in E; lia|].
  destruct (get_range data pos (pos + N.of_nat (S n))) as [blk|] eqn:G.
  2:{ exfalso. unfold get_range in G. replace ((pos <=? pos + N.of_nat (S n)) && (pos + N.of_nat (S n) <=? len data)) with true in G;
      [discriminate|]. symmetry. rewrite andb_true_iff, !N.leb_le. lia. }
  destruct (get_lt_some data (pos + N.of_nat (S n))) as [hi Hhi]; [lia|].
  destruct (get_lt_some data (pos + N.of_nat (S n) + 1)) as [lo Hlo]; [lia|].
  unfold index_range, index. rewrite G, Hhi, Hlo. cbn [bind].
  destruct (_ =? _); [right; eexists; split; [reflexivity|lia]|].
  destruct IH as [IH|(dl & IH & L)]; [lia|left; exact IH|right; exists dl; split; [exact IH|lia]].
Qed.

Lemma loops_agree fuel : forall data pos, (length data < fuel + N.to_nat pos)%nat -> pos <= len data ->
  exists bs t, offset_map_loop fuel data pos = Ok (blocks_map pos bs t) /\
    crc_positions_loop fuel data pos = Ok (blocks_crc pos bs) /\
    Forall (fun b => 1 <= b) bs /\ len data = pos + blocks_len bs + t /\
    forall out out_pos out' p, strip_loop fuel data out out_pos pos = Ok (out', p) -> p = out_pos + data_len bs + t.
Proof.
  induction fuel as [|fuel IH]; intros data pos Hf Hp; [unfold len in Hp; lia|].
  cbn [offset_map_loop crc_positions_loop strip_loop].
  destruct (pos <? len data) eqn:El; cbn [negb].
  2:{ apply N.ltb_ge in El. exists [], 0. cbn [blocks_map blocks_crc blocks_len data_len].
      replace (len data <=? pos) with true by (symmetry; apply N.leb_le; lia).
      repeat split; [constructor|lia|]. intros out op out' p H. injection H as _ <-. lia. }
  apply N.ltb_lt in El. replace (len data <=? pos) with false by (symmetry; apply N.leb_gt; lia).
  assert (Htail : exists bs t, Ok (E := annotate_error) (range pos (len data - pos)) = Ok (blocks_map pos bs t) /\
    Ok (E := annotate_error) [] = Ok (blocks_crc pos bs) /\
    Forall (fun b => 1 <= b) bs /\ len data = pos + blocks_len bs + t /\ bs = [] /\ t = len data - pos).
  { exists [], (len data - pos). cbn. repeat split; [constructor|lia]. }
  destruct (len data - pos <? 3) eqn:E3.
  { destruct Htail as (bs & t & H1 & H2 & H3 & H4 & -> & ->). exists [], (len data - pos).
    repeat split; auto. intros out op out' p H. apply bind_ok in H as (tl & _ & H). apply bind_ok in H as (o2 & _ & H).
    injection H as _ <-. cbn. lia. }
  apply N.ltb_ge in E3.
  destruct (find_block_bounds data pos (N.to_nat (N.min 16 (len data - pos - 2)))) as [Hn|(dl & Hs & L)]; [lia| |].
  - rewrite Hn. cbn [no_fuel map_err bind]. destruct Htail as (bs & t & H1 & H2 & H3 & H4 & -> & ->).
    exists [], (len data - pos). repeat split; auto. intros out op out' p H. apply bind_ok in H as (tl & _ & H).
    apply bind_ok in H as (o2 & _ & H). injection H as _ <-. cbn. lia.
  - rewrite Hs. cbn [no_fuel map_err bind]. rewrite N2Nat.id in L.
    destruct (IH data (pos + dl + 2)) as (bs & t & H1 & H2 & H3 & H4 & H5); [lia|lia|].
    exists (dl :: bs), t. cbn [blocks_map blocks_crc blocks_len data_len]. rewrite H1, H2. cbn [bind].
    repeat split; [constructor; [lia|exact H3]|lia|].
    intros out op out' p H. apply bind_ok in H as (blk & Hb & H). apply bind_ok in H as (o2 & _ & H).
    apply H5 in H. lia.
Qed.

Lemma offsets_and_crcs data : 12 <= len data ->
  exists bs t, build_format_a_offset_map data = Ok (blocks_map 0 (10 :: bs) t) /\
    crc_positions data = Ok (blocks_crc 0 (10 :: bs)) /\ Forall (fun b => 1 <= b) (10 :: bs) /\
    len data = blocks_len (10 :: bs) + t /\
    (forall out stripped out', strip_format_a_crcs data out = Ok (Some stripped, out') ->
       len stripped = data_len (10 :: bs) + t).
Proof.
  intros H. destruct (loops_agree (S (length data)) data 12) as (bs & t & H1 & H2 & H3 & H4 & H5); [lia|exact H|].
  exists bs, t. unfold build_format_a_offset_map, crc_positions.
  replace (len data <? 12) with false by (symmetry; apply N.ltb_ge; lia).
  replace (12 <=? len data) with true by (symmetry; apply N.leb_le; lia).
  rewrite H1, H2. cbn [bind]. replace (N.min 10 (len data)) with 10 by lia.
  split; [reflexivity|]. split; [reflexivity|]. split; [constructor; [lia|exact H3]|].
  split; [cbn [blocks_len]; lia|].
  intros out st out' Hs. unfold strip_format_a_crcs in Hs. destruct (_ || _); [discriminate|].
  apply bind_ok in Hs as (h & _ & Hs). apply bind_ok in Hs as (hi & _ & Hs). apply bind_ok in Hs as (lo & _ & Hs).
  destruct (negb _); [discriminate|]. apply bind_ok in Hs as (o1 & _ & Hs). apply bind_ok in Hs as ([o2 p] & Hl & Hs).
  apply H5 in Hl. apply bind_ok in Hs as (o3 & _ & Hs). apply bind_ok in Hs as (r & Hr & Hs). injection Hs as <- _.
  unfold index_range in Hr. destruct (get_range o3 0 p) eqn:G; [|discriminate]. apply Ok_inj in Hr. subst l.
  destruct (get_range_split _ _ _ _ G) as (_ & _ & _ & _ & L). cbn [data_len]. lia.
Qed.

(** * Format A: from the stripped frame to the original *)
Definition spot (bs : list N) (t j : N) : N :=
  if j <? data_len bs + t then place 0 bs j else data_end 0 bs t.

Lemma spot_mono bs t i j : Forall (fun b => 1 <= b) bs -> i < j -> j <= data_len bs + t -> spot bs t i < spot bs t j.
Proof.
  intros F H L. unfold spot. destruct (i <? data_len bs + t) eqn:E1; [|apply N.ltb_ge in E1; lia].
  destruct (j <? data_len bs + t) eqn:E2; [now apply place_mono|]. apply N.ltb_ge in E2.
  rewrite <- place_last_byte; [|exact F|lia|].
  - destruct (N.eq_dec i (data_len bs + t - 1)) as [->|Hn]; [lia|].
    pose proof (place_mono bs 0 i (data_len bs + t - 1)). lia.
  - destruct bs; [right; cbn in *; lia|left; discriminate].
Qed.

Lemma map_segment_spot bs t s : Forall (fun b => 1 <= b) bs ->
  s_start s < s_end s -> s_end s <= data_len bs + t ->
  map_segment (blocks_map 0 bs t) s =
    seg (spot bs t (s_start s)) (spot bs t (s_end s)) (s_kind s) (s_group s) (s_layer s).
Proof.
  intros F L1 L2. unfold map_segment. rewrite blocks_map_get by lia. rewrite blocks_map_len.
  replace (s_end s <=? data_len bs + t) with true by (symmetry; apply N.leb_le; lia).
  unfold spot. replace (s_start s <? data_len bs + t) with true by (symmetry; apply N.ltb_lt; lia).
  destruct (s_end s <? data_len bs + t) eqn:E.
  - apply N.ltb_lt in E. rewrite blocks_map_get by exact E. reflexivity.
  - apply N.ltb_ge in E. f_equal. rewrite last_opt_get.
    pose proof (blocks_map_len 0 bs t) as Lm. destruct (blocks_map 0 bs t) as [|x l] eqn:Eb; [rewrite len_nil in Lm; lia|].
    rewrite <- Eb in *. rewrite Lm. rewrite blocks_map_get by lia. apply place_last_byte; [exact F|lia|].
    destruct bs; [right; cbn in *; lia|left; discriminate].
Qed.

Lemma map_tiles bs t a segs b : Forall (fun b => 1 <= b) bs -> tiles a segs b -> b <= data_len bs + t ->
  tiles (spot bs t a) (map (map_segment (blocks_map 0 bs t)) segs) (spot bs t b).
Proof.
  intros F H. induction H as [|s r b L H IH]; intros Hb; [constructor|].
  pose proof (tiles_le _ _ _ H). cbn [map]. rewrite map_segment_spot; [|exact F|exact L|lia].
  apply tiles_seg; [apply spot_mono; [exact F|exact L|lia]|]. now apply IH.
Qed.

Definition avoids (c : N) (segs : list segment) : Prop :=
  Forall (fun s => s_start s < c \/ c + 2 <= s_start s) segs.

Lemma map_avoids bs t a segs b c e : Forall (fun b => 1 <= b) bs -> tiles a segs b -> b <= data_len bs + t ->
  In (c, e) (blocks_crc 0 bs) -> avoids c (map (map_segment (blocks_map 0 bs t)) segs).
Proof.
  intros F H Hb Hin. induction H as [|s r b L H IH]; [constructor|].
  pose proof (tiles_le _ _ _ H). cbn [map]. constructor; [|now apply IH].
  rewrite map_segment_spot; [|exact F|exact L|lia]. cbn [seg s_start]. unfold spot.
  replace (s_start s <? data_len bs + t) with true by (symmetry; apply N.ltb_lt; lia).
  eapply place_avoids; exact Hin.
Qed.

Lemma map_label bs t a segs b j : Forall (fun b => 1 <= b) bs -> tiles a segs b -> b <= data_len bs + t ->
  j < data_len bs + t ->
  label_at (map (map_segment (blocks_map 0 bs t)) segs) (place 0 bs j) = label_at segs j.
Proof.
  intros F H Hb Hj. unfold label_at. induction H as [|s r b L H IH]; [reflexivity|].
  pose proof (tiles_le _ _ _ H). cbn [map find]. rewrite map_segment_spot; [|exact F|exact L|lia].
  cbn [seg s_start s_end].
  assert (Ej : place 0 bs j = spot bs t j).
  { unfold spot. replace (j <? data_len bs + t) with true; [reflexivity|]. symmetry; apply N.ltb_lt; lia. }
  assert (Ec : (spot bs t (s_start s) <=? place 0 bs j) && (place 0 bs j <? spot bs t (s_end s)) =
               (s_start s <=? j) && (j <? s_end s)).
  { rewrite Ej. f_equal.
    - destruct (s_start s <=? j) eqn:E; [apply N.leb_le in E; apply N.leb_le|apply N.leb_gt in E; apply N.leb_gt].
      + destruct (N.eq_dec (s_start s) j) as [->|Hne]; [lia|].
        apply N.lt_le_incl, spot_mono; [exact F|lia|lia].
      + apply spot_mono; [exact F|lia|lia].
    - destruct (j <? s_end s) eqn:E; [apply N.ltb_lt in E; apply N.ltb_lt|apply N.ltb_ge in E; apply N.ltb_ge].
      + apply spot_mono; [exact F|lia|lia].
      + destruct (N.eq_dec (s_end s) j) as [->|Hne]; [lia|].
        apply N.lt_le_incl, spot_mono; [exact F|lia|lia]. }
  rewrite Ec. destruct ((s_start s <=? j) && (j <? s_end s)); [reflexivity|]. now apply IH.
Qed.

(** * Inserting the CRCs *)
Definition crc_seg (c : N) : segment := seg c (c + 2) KCrc None LFrame.

Lemma last_opt_cons2 {A} (x : A) l : l <> [] -> last_opt (x :: l) = last_opt l.
Proof.
  intros H. destruct (list_snoc l) as [->|(m & a & ->)]; [congruence|].
  change (x :: m ++ [a]) with ((x :: m) ++ [a]). now rewrite !last_opt_snoc.
Qed.

Lemma insert_later s h rest c : s_start s < c -> s_start h < c ->
  insert_crc (s :: h :: rest) (c, c + 2) = s :: insert_crc (h :: rest) (c, c + 2).
Proof.
  intros Hs Hh. unfold insert_crc. set (l := h :: rest).
  assert (Hp : insert_position l c <> O).
  { unfold l. cbn. destruct (c <=? s_start h) eqn:E; [apply N.leb_le in E; lia|discriminate]. }
  cbn [insert_position]. destruct (c <=? s_start s) eqn:E; [apply N.leb_le in E; lia|].
  destruct (insert_position l c) as [|n] eqn:En; [congruence|].
  change (firstn (S (S n)) (s :: l)) with (s :: firstn (S n) l).
  change (skipn (S (S n)) (s :: l)) with (skipn (S n) l).
  rewrite last_opt_cons2 by (unfold l; cbn; discriminate).
  replace (S (S n) - 1)%nat with (S n) by lia. replace (S n - 1)%nat with n by lia.
  change (firstn (S n) (s :: l)) with (s :: firstn n l).
  destruct (last_opt (firstn (S n) l)) as [prev|]; [|reflexivity].
  destruct (c <? s_end prev); reflexivity.
Qed.

Lemma position_none c segs : Forall (fun s => c <= s_start s) segs -> insert_position segs c = O.
Proof. destruct 1 as [|s r H]; [reflexivity|]. cbn. apply N.leb_le in H. now rewrite H. Qed.

Lemma insert_split s rest c : s_start s < c -> c < s_end s -> Forall (fun x => c <= s_start x) rest ->
  insert_crc (s :: rest) (c, c + 2) =
    [seg (s_start s) c (s_kind s) (s_group s) (s_layer s); crc_seg c]
    ++ (if c + 2 <? s_end s then [seg (c + 2) (s_end s) (s_kind s) (s_group s) (s_layer s)] else []) ++ rest.
Proof.
  intros H1 H2 F. unfold insert_crc. cbn [insert_position].
  destruct (c <=? s_start s) eqn:E; [apply N.leb_le in E; lia|]. rewrite (position_none _ _ F).
  cbn [firstn skipn Nat.sub app]. cbn [last_opt length Nat.sub nth_error].
  apply N.ltb_lt in H2. rewrite H2. reflexivity.
Qed.

Lemma insert_last s c : s_start s < c -> s_end s <= c -> insert_crc [s] (c, c + 2) = [s; crc_seg c].
Proof.
  intros H1 H2. unfold insert_crc. cbn [insert_position].
  destruct (c <=? s_start s) eqn:E; [apply N.leb_le in E; lia|].
  cbn [firstn skipn Nat.sub app last_opt length nth_error].
  destruct (c <? s_end s) eqn:E2; [apply N.ltb_lt in E2; lia|reflexivity].
Qed.

Definition crc_label (c i : N) (old : option (segment_kind * option N * layer)) :=
  if (c <=? i) && (i <? c + 2) then Some (KCrc, None, LFrame) else old.

Lemma label_cons s segs i :
  label_at (s :: segs) i = if (s_start s <=? i) && (i <? s_end s) then Some (label s) else label_at segs i.
Proof. unfold label_at. cbn [find]. now destruct (_ && _). Qed.

Lemma label_before a segs b i : tiles a segs b -> i < a -> label_at segs i = None.
Proof.
  induction 1 as [|s r b L H IH]; intros Hi; [reflexivity|]. rewrite label_cons.
  destruct (s_start s <=? i) eqn:E; [apply N.leb_le in E; lia|]. cbn [andb]. apply IH. lia.
Qed.

Ltac dec := repeat match goal with
  | |- context [?a <=? ?b] => destruct (N.leb_spec a b); cbn [andb]; try lia
  | |- context [?a <? ?b] => destruct (N.ltb_spec a b); cbn [andb]; try lia
  end; try reflexivity.

(** a CRC inside *)
Lemma insert_inside a segs b c : tiles a segs b -> a < c -> c + 2 <= b -> avoids c segs ->
  tiles a (insert_crc segs (c, c + 2)) b /\
  (forall i, label_at (insert_crc segs (c, c + 2)) i = crc_label c i (label_at segs i)) /\
  (forall c', c + 2 < c' -> avoids c' segs -> avoids c' (insert_crc segs (c, c + 2))).
Proof.
  induction 1 as [|s r b L H IH]; intros Ha Hb Hav; [lia|].
  pose proof (tiles_le _ _ _ H) as Hle. pose proof (tiles_start_ge _ _ _ H) as Hge.
  inversion Hav as [|? ? Hs Hr]; subst.
  destruct (N.lt_ge_cases c (s_end s)) as [Hc|Hc].
  - (* split *)
    assert (He : c + 2 <= s_end s).
    { inversion H; subst; [lia|]. inversion Hr; subst. lia. }
    rewrite insert_split; [|lia|exact Hc|eapply Forall_impl; [|exact Hge]; cbn; intros; lia].
    split; [|split].
    + cbn [app]. apply tiles_seg; [lia|]. apply tiles_seg; [lia|].
      destruct (c + 2 <? s_end s) eqn:E.
      * apply N.ltb_lt in E. cbn [app]. apply tiles_seg; [lia|exact H].
      * apply N.ltb_ge in E. cbn [app]. replace (c + 2) with (s_end s) by lia. exact H.
    + intros i. cbn [app]. rewrite !label_cons. unfold crc_label. cbn [seg s_start s_end crc_seg label s_kind s_group s_layer].
      destruct (c + 2 <? s_end s) eqn:E.
      * apply N.ltb_lt in E. cbn [app]. rewrite label_cons. cbn [seg s_start s_end label s_kind s_group s_layer].
        change (label (seg (s_start s) c (s_kind s) (s_group s) (s_layer s))) with (label s).
        change (label (seg (c + 2) (s_end s) (s_kind s) (s_group s) (s_layer s))) with (label s). dec.
      * apply N.ltb_ge in E. cbn [app]. 
        change (label (seg (s_start s) c (s_kind s) (s_group s) (s_layer s))) with (label s). dec.
    + intros c' Hc' Hav'. inversion Hav' as [|? ? Hs' Hr']; subst. cbn [app].
      constructor; [exact Hs'|]. constructor; [left; cbn; lia|].
      destruct (c + 2 <? s_end s); cbn [app]; [constructor; [cbn; lia|exact Hr']|exact Hr'].
  - (* further on *)
    destruct r as [|h r]; [inversion H; subst; lia|].
    pose proof (tiles_head _ _ _ _ H) as (Hh1 & Hh2 & Hh3).
    inversion Hr as [|? ? Hh Hr']; subst.
    rewrite insert_later; [|lia|lia].
    destruct IH as (T & Lb & Av); [lia|exact Hb|exact Hr|].
    split; [|split].
    + apply (tiles_cons s); [exact L|exact T].
    + intros i. rewrite !label_cons, Lb, label_cons. unfold crc_label. dec.
    + intros c' Hc' Hav'. inversion Hav'; subst. constructor; [assumption|]. now apply Av.
Qed.

(** a CRC at the end *)
Lemma insert_at_end a segs c : tiles a segs c -> a < c -> 
  insert_crc segs (c, c + 2) = segs ++ [crc_seg c].
Proof.
  intros H. remember c as b eqn:Eb in H. induction H as [|s r b L H IH]; intros Ha; [lia|]. subst b.
  destruct r as [|h r].
  - inversion H; subst. rewrite insert_last; [reflexivity|lia|lia].
  - pose proof (tiles_head _ _ _ _ H) as (Hh1 & Hh2 & Hh3). pose proof (tiles_le _ _ _ Hh3).
    rewrite insert_later; [|lia|lia]. cbn [app]. f_equal. apply IH; [reflexivity|lia].
Qed.

Lemma label_app a segs b l i : tiles a segs b -> 
  label_at (segs ++ l) i = if (a <=? i) && (i <? b) then label_at segs i else label_at l i.
Proof.
  induction 1 as [a|s r b L H IH].
  - cbn. destruct (N.leb_spec a i); destruct (N.ltb_spec i a); cbn; try reflexivity; lia.
  - cbn [app]. rewrite !label_cons, IH. pose proof (tiles_le _ _ _ H). dec.
Qed.

Definition in_crc (crcs : list (N * N)) (i : N) : bool := existsb (fun p => (fst p <=? i) && (i <? fst p + 2)) crcs.

Lemma blocks_crc_ge bs : forall pos c e, In (c, e) (blocks_crc pos bs) -> pos <= c /\ e = c + 2 /\ c + 2 <= pos + blocks_len bs.
Proof.
  induction bs as [|b bs IH]; intros pos c e H; [destruct H|]. cbn [blocks_crc] in H. cbn [blocks_len].
  destruct H as [H|H]; [injection H as <- <-; lia|].
  specialize (IH _ _ _ H). lia.
Qed.

Lemma blocks_len_pos bs : bs <> [] -> Forall (fun b => 1 <= b) bs -> 3 <= blocks_len bs.
Proof. destruct 2 as [|b bs Hb F]; [congruence|]. cbn. lia. Qed.

Lemma fold_insert bs : forall pos t a segs, Forall (fun b => 1 <= b) bs -> bs <> [] ->
  tiles a segs (data_end pos bs t) -> a <= pos ->
  (forall c e, In (c, e) (blocks_crc pos bs) -> avoids c segs) ->
  let out := fold_left insert_crc (blocks_crc pos bs) segs in
  tiles a out (pos + blocks_len bs + t) /\
  (forall i, label_at out i = if in_crc (blocks_crc pos bs) i then Some (KCrc, None, LFrame) else label_at segs i).
Proof.
  induction bs as [|b bs IH]; intros pos t a segs F Hne T Ha Hav; [congruence|].
  cbn [blocks_crc fold_left blocks_len]. inversion F as [|? ? Hb F']; subst.
  set (c := pos + b) in *.
  assert (Hc : forall c' e', In (c', e') (blocks_crc (c + 2) bs) -> c + 2 < c').
  { intros c' e' Hin. destruct bs as [|b' bs']; [destruct Hin|]. cbn [blocks_crc] in Hin. inversion F' as [|? ? Hb' ?]; subst.
    destruct Hin as [Hin|Hin]; [injection Hin as <- <-; lia|]. apply blocks_crc_ge in Hin. lia. }
  destruct bs as [|b' bs'].
  - cbn [blocks_crc fold_left blocks_len in_crc existsb fst]. unfold data_end in T. cbn [blocks_len] in T. 
    destruct (t =? 0) eqn:E.
    + apply N.eqb_eq in E. subst t. replace (pos + (b + 2 + 0) - 2) with c in T by (unfold c; lia).
      rewrite (insert_at_end a); [|exact T|unfold c; lia]. split.
      * eapply tiles_app; [exact T|]. replace (pos + (b + 2 + 0) + 0) with (c + 2) by (unfold c; lia).
        apply tiles_one. lia.
      * intros i. rewrite (label_app _ _ _ _ _ T), label_cons. cbn [crc_seg seg s_start s_end]. rewrite orb_false_r.
        change (label (crc_seg c)) with (KCrc, @None N, LFrame).
        destruct (N.leb_spec c i); destruct (N.ltb_spec i (c + 2)); cbn [andb].
        -- replace (i <? c) with false by (symmetry; apply N.ltb_ge; lia). now rewrite andb_false_r.
        -- replace (i <? c) with false by (symmetry; apply N.ltb_ge; lia). rewrite andb_false_r.
           destruct (label_at segs i) eqn:El; [|reflexivity]. exfalso. unfold label_at in El.
           destruct (find _ segs) eqn:Ef; [|discriminate]. apply find_some in Ef as [Hin Hcv]. apply covers_eqb in Hcv.
           pose proof (tiles_covers _ _ _ T _ _ Hin Hcv). lia.
        -- replace (i <? c) with true by (symmetry; apply N.ltb_lt; lia). rewrite andb_true_r.
           destruct (a <=? i) eqn:Ea; [reflexivity|]. apply N.leb_gt in Ea. symmetry. eapply label_before; [exact T|exact Ea].
        -- replace (i <? c) with true by (symmetry; apply N.ltb_lt; lia). rewrite andb_true_r.
           destruct (a <=? i) eqn:Ea; [reflexivity|]. apply N.leb_gt in Ea. symmetry. eapply label_before; [exact T|exact Ea].
    + apply N.eqb_neq in E. replace (pos + (b + 2 + 0) + t) with (c + 2 + t) in * by (unfold c; lia).
      destruct (insert_inside a segs (c + 2 + t) c T) as (T' & Lb & _); [unfold c; lia|lia|eapply Hav; left; reflexivity|].
      split; [exact T'|]. intros i. rewrite Lb. unfold crc_label. now rewrite orb_false_r.
  - set (bs := b' :: bs') in *. pose proof (blocks_len_pos bs ltac:(discriminate) F') as Hl.
    assert (Hend : data_end pos (b :: bs) t = data_end (c + 2) bs t).
    { unfold data_end. cbn [blocks_len]. unfold c. destruct (t =? 0); lia. }
    destruct (insert_inside a segs (data_end pos (b :: bs) t) c T) as (T' & Lb & Av).
    + unfold c; lia.
    + rewrite Hend. unfold data_end. destruct (t =? 0); lia.
    + eapply Hav; left; reflexivity.
    + destruct (IH (c + 2) t a (insert_crc segs (c, c + 2))) as (T2 & Lb2).
      * exact F'.
      * discriminate.
      * rewrite <- Hend. exact T'.
      * unfold c; lia.
      * intros c' e' Hin. apply Av; [eapply Hc; exact Hin|]. eapply Hav. right. exact Hin.
      * split; [replace (pos + (b + 2 + blocks_len bs) + t) with (c + 2 + blocks_len bs + t) by (unfold c; lia); exact T2|].
        intros i. rewrite Lb2, Lb. unfold crc_label. cbn [in_crc existsb fst].
        fold (in_crc (blocks_crc (c + 2) bs) i).
        destruct ((c <=? i) && (i <? c + 2)); cbn [orb]; [|reflexivity]. now destruct (in_crc _ i).
Qed.

Lemma filter_nonempty a segs b : tiles a segs b -> filter (fun s => s_start s <? s_end s) segs = segs.
Proof.
  induction 1 as [|s r b L H IH]; [reflexivity|]. cbn. apply N.ltb_lt in L. rewrite L. now f_equal.
Qed.

Lemma format_a_annotation cf data stripped out out' segs :
  strip_format_a_crcs data out = Ok (Some stripped, out') ->
  annotate_wireless_format_a cf data stripped = Ok segs ->
  exists bs t inner, build_format_a_offset_map data = Ok (blocks_map 0 (10 :: bs) t) /\
    crc_positions data = Ok (blocks_crc 0 (10 :: bs)) /\ annotate_wireless_inner cf stripped = Ok inner /\
    len stripped = data_len (10 :: bs) + t /\ len data = blocks_len (10 :: bs) + t /\
    tiles 0 segs (len data) /\
    (forall j, j < len stripped -> label_at segs (place 0 (10 :: bs) j) = label_at inner j) /\
    (forall i, in_crc (blocks_crc 0 (10 :: bs)) i = true -> label_at segs i = Some (KCrc, None, LFrame)).
Proof.
  intros Hs Ha. assert (L : 12 <= len data).
  { unfold strip_format_a_crcs in Hs. destruct (len data <? 12) eqn:E; [discriminate|]. now apply N.ltb_ge in E. }
  destruct (offsets_and_crcs data L) as (bs & t & Em & Ec & F & Ld & Lst). specialize (Lst _ _ _ Hs).
  unfold annotate_wireless_format_a in Ha. rewrite Em, Ec in Ha. cbn [bind] in Ha.
  apply bind_ok in Ha as (inner & Hi & Ha). apply Ok_inj in Ha.
  set (B := 10 :: bs) in *.
  pose proof (inner_tiles _ _ _ Hi) as Ti. rewrite Lst in Ti.
  pose proof (map_tiles B t 0 inner _ F Ti ltac:(lia)) as Tm.
  assert (E0 : spot B t 0 = 0).
  { unfold spot, B. cbn [data_len place]. destruct (0 <? 10 + data_len bs + t) eqn:E; [reflexivity|apply N.ltb_ge in E; lia]. }
  assert (E1 : spot B t (data_len B + t) = data_end 0 B t).
  { unfold spot. now rewrite N.ltb_irrefl. }
  rewrite E0, E1 in Tm.
  destruct (fold_insert B 0 t 0 _ F ltac:(discriminate) Tm ltac:(lia)) as (Tf & Lf).
  { intros c e Hin. eapply map_avoids; [exact F|exact Ti|lia|exact Hin]. }
  rewrite (filter_nonempty _ _ _ Tf) in Ha. subst segs.
  exists bs, t, inner. split; [exact Em|]. split; [exact Ec|]. split; [exact Hi|]. split; [exact Lst|].
  split; [exact Ld|]. split; [rewrite Ld; rewrite N.add_0_l in Tf; exact Tf|]. split.
  - intros j Hj. rewrite Lf. fold B.
    destruct (in_crc (blocks_crc 0 B) (place 0 B j)) eqn:E.
    + exfalso. unfold in_crc in E. apply existsb_exists in E as ([c e] & Hin & E). cbn [fst] in E.
      apply andb_true_iff in E as [E2 E3]. apply N.leb_le in E2. apply N.ltb_lt in E3.
      destruct (place_avoids _ _ _ _ j Hin) as [_ Hp]. lia.
    + eapply map_label; [exact F|exact Ti|lia|lia].
  - intros i Hin. rewrite Lf. fold B in Hin. now rewrite Hin.
Qed.

(** * Frames *)
Lemma frame_tiles cf data segs : annotate_frame cf data = Ok segs ->
  (exists rest, data = 0xE5 :: rest) /\ tiles 0 segs 1 \/ tiles 0 segs (len data).
Proof.
  unfold annotate_frame. intros H. destruct (annotate_wired cf data) as [s|e|p] eqn:Ew.
  - apply Ok_inj in H. subst s. now apply wired_tiles in Ew.
  - destruct e as [e|]; [|discriminate]. right. apply bind_ok in H as ([st o] & Hs & H).
    unfold no_fuel in Hs. apply map_err_ok in Hs.
    assert (Hp : match annotate_wireless_inner cf data with
        | Panic p => Panic p
        | Ok segments => Ok segments
        | Err AFuel => Err AFuel
        | Err (AError _) => Err (AError (MFrameError InvalidStartByte))
        end = Ok segs -> tiles 0 segs (len data)).
    { destruct (annotate_wireless_inner cf data) as [s|[e2|]|p] eqn:Ei; try discriminate.
      intros E; apply Ok_inj in E; subst s. now apply inner_tiles in Ei. }
    destruct st as [st|]; [|now apply Hp].
    destruct (annotate_wireless_format_a cf data st) as [s|[e2|]|p] eqn:Ea; try discriminate; [|now apply Hp].
    apply Ok_inj in H. subst s. now destruct (format_a_annotation _ _ _ _ _ _ Hs Ea) as (bs & t & i & _ & _ & _ & _ & _ & T & _).
  - discriminate.
Qed.
