(** The annotated text shows the bytes and the segments. *)
From Coq Require Import String List NArith Lia Bool.
Import ListNotations.
From Verif Require Import Model.Base Model.Text Model.Hex Model.Format Model.Show Model.Annotate Model.Output Model.Rscada Model.AnnotateText Model.Render
  Spec.TooltipSpec Spec.TableSpec Spec.AnnotateSpec Spec.TextSpec Spec.DumpSpec
  Proof.BaseFacts Proof.HexFacts Proof.ShowFacts Proof.RecordFacts Proof.AnnotateFacts Proof.AnnotateFormatA Proof.AnnotateProps Proof.TableFacts Proof.RenderTable Proof.TooltipFacts.
Open Scope N_scope.

Lemma hex_loop_ok k : forall n, n < 16 ^ N.of_nat k -> (0 < k)%nat ->
  exists vs, Forall2 hex_digit (hex_loop k n) vs /\ n = fold_left (fun a v => 16 * a + v) vs 0 /\ hex_loop k n <> [].
Proof.
  induction k as [|k IH]; intros n H K; [lia|]. cbn [hex_loop].
  assert (D : hex_digit (hex_digit_upper (n mod 16)) (n mod 16)) by (apply hex_upper; apply N.mod_lt; lia).
  destruct (N.ltb_spec n 16) as [L|L].
  - exists [n mod 16]. split; [constructor; [exact D|constructor]|]. split; [|discriminate]. cbn [fold_left].
    rewrite N.mod_small by lia. lia.
  - destruct (IH (n / 16)) as (vs & F & E & _).
    + apply N.div_lt_upper_bound; [lia|]. replace (N.of_nat (S k)) with (N.succ (N.of_nat k)) in H by lia.
      rewrite N.pow_succ_r' in H. lia.
    + destruct k; [|lia]. change (16 ^ N.of_nat 1) with 16 in H. lia.
    + exists (vs ++ [n mod 16]). split; [apply Forall2_app; [exact F|constructor; [exact D|constructor]]|].
      split; [|destruct (hex_loop k (n / 16)); discriminate]. rewrite fold_left_app. cbn [fold_left]. rewrite <- E.
      pose proof (N.div_mod n 16). lia.
Qed.
Lemma hex_zeros k ds vs : Forall2 hex_digit ds vs -> Forall2 hex_digit (zeros k ++ ds) (repeat 0 k ++ vs) /\
  fold_left (fun a v => 16 * a + v) (repeat 0 k ++ vs) 0 = fold_left (fun a v => 16 * a + v) vs 0.
Proof.
  intros F. induction k as [|k [I1 I2]]; [split; [exact F|reflexivity]|]. split.
  - cbn. constructor; [left; lia|exact I1].
  - exact I2.
Qed.
Lemma hex_pad_ok w n : hex_written w (hex_pad w n) n.
Proof.
  unfold hex_pad. destruct (hex_loop_ok (S (N.to_nat (N.log2 n))) n) as (vs & F & E & X); [|lia|].
  - destruct n as [|p]; [reflexivity|]. pose proof (N.log2_spec (N.pos p)) as [_ U]; [lia|].
    replace (N.of_nat (S (N.to_nat (N.log2 (N.pos p))))) with (N.succ (N.log2 (N.pos p))) by lia.
    eapply N.lt_le_trans; [exact U|]. apply N.pow_le_mono_l. lia.
  - set (ds := hex_loop _ n) in *. destruct (hex_zeros (w - length ds) ds vs F) as (F2 & E2). split; [|split].
    + intros Q. apply app_eq_nil in Q. destruct Q. contradiction.
    + rewrite app_length. unfold zeros. rewrite repeat_length. lia.
    + exists (repeat 0 (w - length ds) ++ vs). split; [exact F2|]. congruence.
Qed.

Lemma hex2_token b : byte_ok b -> byte_token (hex2 b) b.
Proof.
  intros B. exists [], (hex2 b). split; [reflexivity|]. split; [auto|].
  exists (hex_digit_upper (b / 16)), (b / 16), (hex_digit_upper (b mod 16)), (b mod 16). split; [reflexivity|].
  unfold byte_ok in B. split; [apply hex_upper; apply N.div_lt_upper_bound; lia|].
  split; [apply hex_upper; apply N.mod_lt; lia|]. apply N.div_mod. lia.
Qed.
Lemma blank_sep : separator 32.
Proof. left. reflexivity. Qed.
Lemma sep_byte seps b rest bytes : Forall separator seps -> byte_ok b -> separated rest bytes ->
  separated (seps ++ hex2 b ++ 32 :: rest) (b :: bytes).
Proof. intros S B H. apply sep_more; auto using blank_sep, hex2_token. Qed.
Lemma blanks_sep n : Forall separator (repeat 32 n).
Proof. induction n; constructor; auto using blank_sep. Qed.

Lemma dump_bytes_ok chunk : forall j tail, bytes_ok chunk -> Forall separator tail ->
  separated (dump_bytes j chunk ++ tail) chunk.
Proof.
  induction chunk as [|b chunk IH]; intros j tail B T; cbn [dump_bytes app]; [now apply sep_end|].
  apply Forall_inv_tail in B as B2. apply Forall_inv in B. rewrite <- !app_assoc. cbn [app].
  change (txt " ") with [32]. cbn [app]. apply sep_byte; [destruct (Nat.eqb j 8); [apply (blanks_sep 1)|constructor]|exact B|].
  now apply IH.
Qed.
Lemma dump_bytes_length chunk : forall j, length (dump_bytes j chunk) =
  (3 * length chunk + (if (j <=? 8) && (8 <? j + length chunk) then 1 else 0))%nat.
Proof.
  induction chunk as [|b chunk IH]; intros j; cbn [dump_bytes length].
  - destruct (Nat.leb_spec j 8), (Nat.ltb_spec 8 (j + 0)); cbn [andb]; lia.
  - rewrite !app_length, IH. cbn [length hex2]. change (length (txt " ")) with 1%nat.
    destruct (Nat.eqb_spec j 8), (Nat.leb_spec j 8), (Nat.leb_spec (S j) 8), (Nat.ltb_spec 8 (j + S (length chunk))),
      (Nat.ltb_spec 8 (S j + length chunk)); cbn [andb length]; try change (length (txt " ")) with 1%nat; lia.
Qed.
Lemma flat_blanks k : flat_map (fun _ : unit => txt "   ") (repeat tt k) = repeat 32 (3 * k).
Proof.
  induction k as [|k IH]; [reflexivity|]. replace (3 * S k)%nat with (3 + 3 * k)%nat by lia.
  rewrite repeat_app. cbn [repeat flat_map]. rewrite IH. reflexivity.
Qed.
Lemma dump_line_ok offset chunk : bytes_ok chunk -> (length chunk <= 16)%nat ->
  exists l, dump_line offset chunk = line l /\ dump_row offset chunk l.
Proof.
  intros B L. unfold dump_line. eexists. split; [reflexivity|].
  exists (hex_pad 4 offset), (dump_bytes 0 chunk ++ repeat 32 (3 * (16 - length chunk)) ++
    (if (length chunk <=? 8)%nat then txt " " else []) ++ txt " ").
  split; [rewrite flat_blanks, <- !app_assoc; reflexivity|]. split; [apply hex_pad_ok|]. split.
  - apply dump_bytes_ok; [exact B|]. rewrite !Forall_app. split; [apply blanks_sep|]. split; [|apply (blanks_sep 1)].
    destruct (length chunk <=? 8)%nat; [apply (blanks_sep 1)|constructor].
  - rewrite !app_length, dump_bytes_length, repeat_length.
    destruct (Nat.leb_spec (length chunk) 8), (Nat.ltb_spec 8 (0 + length chunk)); cbn [Nat.leb andb];
      rewrite ?app_length; try change (length (txt " ")) with 1%nat; cbn [length]; lia.
Qed.

Lemma chunks_dump fuel : forall data i k, bytes_ok data -> (length data <= fuel)%nat -> (length data <= k)%nat ->
  exists lines, concat (map (fun '(i, chunk) => dump_line (N.of_nat i * 16) chunk) (combine (seq i k) (chunks16 fuel data))) =
    unlines lines /\ dump (N.of_nat i * 16) data lines.
Proof.
  induction fuel as [|fuel IH]; intros data i k B L K.
  - destruct data; [|cbn in L; lia]. exists []. split; [|constructor]. cbn [chunks16]. destruct (seq i k); reflexivity.
  - destruct data as [|b data].
    { exists []. split; [|constructor]. cbn [chunks16]. destruct (seq i k); reflexivity. }
    destruct k as [|k]; [cbn in K; lia|]. set (all := b :: data) in *.
    replace (chunks16 (S fuel) all) with (firstn 16 all :: chunks16 fuel (skipn 16 all)) by reflexivity.
    cbn [seq combine map concat].
    destruct (IH (skipn 16 all) (S i) k) as (lines & E & D).
    + rewrite <- (firstn_skipn 16 all) in B. unfold bytes_ok in B. rewrite Forall_app in B. apply B.
    + rewrite skipn_length. unfold all in *. cbn [length] in *. lia.
    + rewrite skipn_length. unfold all in *. cbn [length] in *. lia.
    + destruct (dump_line_ok (N.of_nat i * 16) (firstn 16 all)) as (l & El & R).
      * rewrite <- (firstn_skipn 16 all) in B. unfold bytes_ok in B. rewrite Forall_app in B. apply B.
      * rewrite firstn_length. lia.
      * exists (l :: lines). split; [rewrite E, El; reflexivity|]. rewrite <- (firstn_skipn 16 all). apply DumpMore.
        -- unfold all. discriminate.
        -- rewrite firstn_length. destruct (Nat.le_gt_cases 16 (length all)); [left; lia|right; split; [lia|]].
           apply skipn_all2. lia.
        -- exact R.
        -- replace (N.of_nat i * 16 + 16) with (N.of_nat (S i) * 16) by lia. exact D.
Qed.

(** a segment *)
Lemma place_ok s : s_start s < s_end s -> place_shown s (offset_column s).
Proof.
  intros L. unfold offset_column, place_shown. destruct (N.eqb_spec (s_end s - s_start s) 1).
  - left. split; [lia|]. exists (hex_pad 2 (s_start s)). split; [apply hex_pad_ok|reflexivity].
  - right. split; [lia|]. exists (hex_pad 2 (s_start s)), (hex_pad 2 (s_end s)). auto using hex_pad_ok.
Qed.
Definition spaced (data : list N) : text := flat_map (fun b => hex2 b ++ txt " ") data.
Lemma spaced_sep data : bytes_ok data -> separated (spaced data) data.
Proof.
  induction 1 as [|b data B H IH]; [apply sep_end; constructor|]. cbn [spaced flat_map]. rewrite <- app_assoc.
  apply (sep_byte []); [constructor|exact B|exact IH].
Qed.
Lemma spaced_length data : length (spaced data) = (3 * length data)%nat.
Proof. induction data as [|b data IH]; [reflexivity|]. cbn [spaced flat_map]. rewrite app_length. unfold spaced in IH. rewrite IH. cbn [length]. cbn. lia. Qed.
Lemma spaced_pop data : bytes_ok data -> data <> [] ->
  separated (removelast (spaced data)) data /\ length (removelast (spaced data)) = (3 * length data - 1)%nat.
Proof.
  intros B X. split.
  - clear X. induction B as [|b data B H IH]; [apply sep_end; constructor|]. destruct data as [|b' data].
    + apply (sep_last []); [constructor|now apply hex2_token].
    + change (spaced (b :: b' :: data)) with ((hex2 b ++ [32]) ++ spaced (b' :: data)).
      rewrite removelast_app by (cbn; discriminate). rewrite <- app_assoc. cbn [app].
      apply (sep_byte []); [constructor|exact B|exact IH].
  - destruct (exists_last (l := spaced data)) as (m & c & E).
    + destruct data; [congruence|]. cbn. discriminate.
    + assert (Q := spaced_length data). rewrite E in Q |- *. rewrite app_length in Q. cbn [length] in Q.
      rewrite removelast_last. destruct data; [congruence|]. cbn [length] in *. lia.
Qed.
Lemma bytes_column_ok data s : bytes_ok data -> s_start s < s_end s -> s_end s <= len data ->
  segment_bytes_shown data s (hex_column s data).
Proof.
  intros B L E. unfold hex_column, segment_bytes_shown. unfold len in *.
  destruct (N.ltb_spec (s_start s) (N.of_nat (length data))); [|lia].
  replace (N.min (s_end s) (N.of_nat (length data))) with (s_end s) by lia.
  assert (Bs : forall k, bytes_ok (firstn k (skipn (N.to_nat (s_start s)) data))).
  { intros k. rewrite <- (firstn_skipn (N.to_nat (s_start s)) data) in B. unfold bytes_ok in *. rewrite Forall_app in B.
    destruct B as (_ & B). rewrite <- (firstn_skipn k (skipn (N.to_nat (s_start s)) data)), Forall_app in B. apply B. }
  destruct (N.ltb_spec 8 (s_end s - s_start s)).
  - right. split; [lia|]. exists (spaced (firstn 8 (bytes_of data s))). unfold bytes_of. rewrite firstn_firstn.
    replace (Nat.min 8 (N.to_nat (s_end s - s_start s))) with 8%nat by lia.
    replace (N.min (s_end s - s_start s) 8) with 8 by lia. change (N.to_nat 8) with 8%nat.
    split; [reflexivity|]. split; [apply spaced_sep, Bs|]. rewrite spaced_length, firstn_length, skipn_length. lia.
  - left. split; [lia|]. replace (N.min (s_end s - s_start s) 8) with (s_end s - s_start s) by lia. fold (bytes_of data s).
    unfold pop. fold (spaced (bytes_of data s)). apply spaced_pop; [apply Bs|].
    intros Q. apply (f_equal (@length N)) in Q. unfold bytes_of in Q. rewrite firstn_length, skipn_length in Q. cbn [length] in Q. lia.
Qed.
Lemma kind_named k : exists name, In (k, name) kind_names /\ show_kind k = txt name.
Proof. destruct k; (eexists; split; [|reflexivity]; unfold kind_names; auto 40 using in_eq, in_cons). Qed.

Lemma layer_eqb_ok a b : layer_eqb a b = true <-> a = b.
Proof. destruct a, b; cbn; split; congruence. Qed.

(** the state of the loop: the layer of the segment before, and its group if it is a record's *)
Definition seen_before (previous : option segment) (l : option layer) (g : option N) : Prop :=
  match previous with
  | None => l = None /\ g = None
  | Some p => l = Some (s_layer p) /\ g = (match s_layer p with LRecordField => s_group p | _ => None end)
  end.
Lemma listing_ok data segments : bytes_ok data -> forall previous l g, seen_before previous l g ->
  Forall (fun s => s_start s < s_end s /\ s_end s <= len data) (map fst segments) ->
  exists lines, segment_lines data segments l g = unlines lines /\ listing data previous segments lines.
Proof.
  intros B. induction segments as [|[s detail] segments IH]; intros previous l g S F.
  { exists []. split; [reflexivity|constructor]. }
  cbn [map fst] in F. apply Forall_inv_tail in F as F2. apply Forall_inv in F. destruct F as (L & E). cbn [segment_lines].
  set (changed := negb (option_eqb layer_eqb l (Some (s_layer s)))).
  set (group := negb (option_eqb N.eqb (s_group s) g)).
  set (section := layer_eqb (s_layer s) LRecordField && group).
  set (g' := if section then s_group s else if changed then None else g).
  assert (C : changed = false <-> exists p, previous = Some p /\ s_layer p = s_layer s).
  { unfold changed. rewrite negb_false_iff. destruct previous as [p|]; destruct S as (-> & _); cbn [option_eqb].
    - rewrite layer_eqb_ok. split; [eauto|intros (q & Q & R); congruence].
    - split; [discriminate|intros (q & Q & _); discriminate]. }
  assert (G : group = false <-> s_group s = g).
  { unfold group. rewrite negb_false_iff. destruct (s_group s), g; cbn [option_eqb]; rewrite ?N.eqb_eq; split; congruence. }
  assert (S' : seen_before (Some s) (Some (s_layer s)) g').
  { cbn. split; [reflexivity|]. unfold g', section. clearbody changed group.
    destruct (s_layer s) eqn:Ls; cbn [layer_eqb andb].
    1,2: destruct changed; [reflexivity|]; destruct (proj1 C eq_refl) as (p & -> & Q); destruct S as (_ & ->); now rewrite Q.
    destruct group eqn:Gr; [reflexivity|]. assert (Q := proj1 G eq_refl). destruct changed; [|congruence].
    destruct previous as [p|].
    - destruct S as (_ & ->). destruct (s_layer p) eqn:Lp; rewrite Q; auto.
      assert (false_eq : true = false) by (apply C; exists p; split; [reflexivity|congruence]). discriminate.
    - destruct S as (_ & ->). now rewrite Q. }
  destruct (IH (Some s) (Some (s_layer s)) g' S' F2) as (lines & El & Li). rewrite El.
  destruct (kind_named (s_kind s)) as (name & K & Kn). rewrite Kn.
  set (row := [0x2502; 32; 32] ++ _).
  set (part := if changed then [part_heading (s_layer s)] else []).
  set (record := if section then match s_group s with
      | Some g => [[0x2502; 32; 32; 0x2500; 0x2500] ++ txt " Record " ++ dec g ++ txt " " ++ [0x2500; 0x2500]] | None => [] end else []).
  exists ((part ++ record) ++ row :: lines). split.
  - change (row :: lines) with ([row] ++ lines). rewrite !unlines_app. rewrite <- !app_assoc.
    f_equal; [unfold part; destruct changed; [unfold unlines; cbn [map concat]; rewrite app_nil_r; reflexivity|reflexivity]|].
    f_equal; [unfold record; destruct section; [destruct (s_group s); [unfold unlines; cbn [map concat]; rewrite app_nil_r; reflexivity|reflexivity]|reflexivity]|].
    f_equal. unfold unlines. cbn [map concat]. rewrite app_nil_r. reflexivity.
  - apply ListMore; [|exists (offset_column s), (hex_column s data), name; split; [now apply place_ok|split; [now apply bytes_column_ok|split; [exact K|reflexivity]]]|exact Li].
    exists part, record. split; [reflexivity|]. split; [unfold part; destruct changed; auto|]. split.
    + rewrite <- C. unfold part. destruct changed; split; congruence.
    + unfold record, section. destruct (s_layer s) eqn:Ls; cbn [layer_eqb andb]; try reflexivity.
      destruct (s_group s) as [n|] eqn:Gs; [|destruct group; reflexivity]. split.
      * transitivity (group = false); [destruct group; split; congruence|]. rewrite G. split.
        -- intros Q. destruct previous as [p|]; destruct S as (_ & Sg); [|congruence]. exists p. split; [reflexivity|].
           destruct (s_layer p); [congruence|congruence|]. split; congruence.
        -- intros (p & -> & Lp & Gp). destruct S as (_ & Sg). rewrite Lp in Sg. congruence.
      * destruct group; [right|left; reflexivity]. eexists. split; [|reflexivity].
        destruct (dec_text n) as (D1 & D2 & D3 & D4). exists (dec n). auto 10.
Qed.

Lemma tiles_le a segs b : tiles a segs b -> a <= b.
Proof. induction 1; lia. Qed.
Lemma tiles_inside a segs b : tiles a segs b -> Forall (fun s => s_start s < s_end s /\ s_end s <= b) segs.
Proof.
  induction 1 as [|s rest b L H IH]; constructor; [|exact IH]. split; [exact L|]. eapply tiles_le; eassumption.
Qed.
Lemma segments_inside cf data segs : annotate_frame cf data = Ok segs ->
  Forall (fun s => s_start s < s_end s /\ s_end s <= len data) segs.
Proof.
  intros H. destruct (frame_tiles cf data segs H) as [[(rest & ->) T]|T]; apply tiles_inside in T; [|exact T].
  eapply Forall_impl; [|exact T]. cbn. unfold len. cbn [length]. intros s. lia.
Qed.

Lemma annotated_text env rn data options t : bytes_ok data -> render_bytes env rn data FAnnotatedText options = Ok t ->
  exists segs rows list, frame_told (env_config env) (rn_display rn) data = Ok segs /\
    t = unlines ([txt "Hex Dump:"; repeat 0x2500 68] ++ rows ++
      [[]; txt "Offset       Hex                      Kind                   Detail";
       repeat 0x2500 12 ++ txt " " ++ repeat 0x2500 24 ++ txt " " ++ repeat 0x2500 22 ++ txt " " ++ repeat 0x2500 26] ++ list) /\
    dump 0 data rows /\ listing data None segs list.
Proof.
  intros B H. unfold render_bytes, annotate_and_render in H. apply map_err_ok in H. bind_inv H. rename a into segs.
  apply Ok_inj in H. subst t. unfold render_annotations, hex_dump.
  destruct (chunks_dump (length data) data 0 (length data) B) as (rows & E & D); [lia|lia|].
  destruct (listing_ok data segs B None None None) as (list & El & Li); [split; reflexivity|apply (segments_inside (env_config env)); rewrite <- (frame_ranges _ (rn_display rn)), Ha; reflexivity|].
  exists segs, rows, list. split; [exact Ha|]. split; [|split; [exact D|exact Li]].
  rewrite !unlines_app, E, El. rewrite <- !app_assoc. unfold unlines at 1 4. cbn [map concat]. rewrite <- ?app_assoc. cbn [app].
  reflexivity.
Qed.

(** the dump determines the bytes *)
Lemma separated_unique s a b : separated s a -> separated s b -> a = b.
Proof.
  intros H1 H2. assert (E1 := tokens_complete s a H1 0 [] 0 true). assert (E2 := tokens_complete s b H2 0 [] 0 true).
  cbn [app] in *. congruence.
Qed.
Lemma hex_digit_unique c v w : hex_digit c v -> hex_digit c w -> v = w.
Proof. unfold hex_digit. lia. Qed.
Lemma cut_unique c : forall a a' b b' : list N, ~ In c a -> ~ In c a' -> a ++ c :: b = a' ++ c :: b' -> a = a' /\ b = b'.
Proof.
  induction a as [|x a IH]; intros [|y a'] b b' N1 N2 E; cbn [app] in E; inversion E; subst.
  - split; reflexivity.
  - destruct N2. left. reflexivity.
  - destruct N1. left. reflexivity.
  - cbn [In] in *. destruct (IH a' b b') as (-> & ->); tauto.
Qed.
Lemma hex_no_blank w s n : hex_written w s n -> ~ In 32 s.
Proof.
  intros (_ & _ & vs & F & _). clear w n. induction F as [|c v s vs D F IH]; [tauto|]. intros [I|I]; [|tauto].
  subst c. unfold hex_digit in D. lia.
Qed.
Lemma row_determines offset chunk chunk' l : dump_row offset chunk l -> dump_row offset chunk' l -> chunk = chunk'.
Proof.
  intros (off & area & -> & W & S & L) (off' & area' & E & W' & S' & L'). change (txt "  ") with [32; 32] in E. cbn [app] in E.
  injection E as E. apply cut_unique in E; [|eapply hex_no_blank; eassumption..]. destruct E as (_ & E). injection E as E.
  apply (f_equal (firstn 50)) in E. rewrite !firstn_app, L, L', Nat.sub_diag in E. rewrite !firstn_O, !app_nil_r in E.
  rewrite !firstn_all2 in E by lia. subst area'. eapply separated_unique; eassumption.
Qed.
Lemma dump_determines offset data data' rows : dump offset data rows -> dump offset data' rows -> data = data'.
Proof.
  intros H. revert data'. induction H as [|offset chunk rest l rows X F R H IH]; intros data' H'; inversion H'; subst; [reflexivity|].
  f_equal; [eapply row_determines; eassumption|now apply IH].
Qed.
