(** Format A CRC removal. *)
From Verif Require Import Proof.BaseFacts Model.Core Model.Wireless Proof.CrcFacts Proof.WirelessFacts
  Proof.WiredProps Spec.CrcSpec Spec.WirelessSpec.

Lemma index_range_app {E} (pre l post : list N) :
  index_range (E := E) (pre ++ l ++ post) (len pre) (len pre + len l) = Ok l.
Proof. unfold index_range. rewrite get_range_app. reflexivity. Qed.

Lemma index_app2 {E} (l : list N) a b m : index (E := E) (l ++ a :: b :: m) (len l + 1) = Ok b.
Proof.
  change (a :: b :: m) with ([a] ++ b :: m). rewrite app_assoc.
  replace (len l + 1) with (len (l ++ [a])) by (rewrite len_app; reflexivity). apply index_app.
Qed.

Lemma copy_at_ok out pos src : pos + len src <= len out ->
  copy_at out pos src = Ok (firstn (N.to_nat pos) out ++ src ++ skipn (N.to_nat (pos + len src)) out).
Proof. intros H. unfold copy_at. destruct (N.leb_spec (pos + len src) (len out)); [reflexivity|lia]. Qed.

Definition splice (out : list N) (pos : N) (src : list N) : list N :=
  firstn (N.to_nat pos) out ++ src ++ skipn (N.to_nat (pos + len src)) out.

Lemma splice_len out pos src : pos + len src <= len out -> len (splice out pos src) = len out.
Proof.
  intros H. unfold splice. rewrite !len_app, len_firstn, len_skipn. lia.
Qed.

Lemma splice_nil out pos : splice out pos [] = out.
Proof. unfold splice. cbn [app]. rewrite len_nil, N.add_0_r. apply firstn_skipn. Qed.

Lemma splice_splice out pos a b : pos + len a + len b <= len out ->
  splice (splice out pos a) (pos + len a) b = splice out pos (a ++ b).
Proof.
  intros H. unfold splice at 1 3.
  set (f := firstn (N.to_nat pos) out).
  assert (Hf : length f = N.to_nat pos).
  { unfold f. rewrite firstn_length. unfold len in *. lia. }
  replace (firstn (N.to_nat (pos + len a)) (splice out pos a)) with (f ++ a).
  2:{ unfold splice. fold f. rewrite app_assoc, firstn_app.
      rewrite firstn_all2 by (rewrite app_length; unfold len in *; lia).
      replace (N.to_nat (pos + len a) - length (f ++ a))%nat with 0%nat
        by (rewrite app_length; unfold len in *; lia).
      rewrite firstn_O, app_nil_r. reflexivity. }
  replace (skipn (N.to_nat (pos + len a + len b)) (splice out pos a))
    with (skipn (N.to_nat (pos + len (a ++ b))) out).
  2:{ unfold splice. fold f. rewrite app_assoc, skipn_app.
      rewrite (skipn_all2 (f ++ a)) by (rewrite app_length; unfold len in *; lia). cbn [app].
      rewrite skipn_skipn. f_equal. rewrite len_app, app_length. unfold len in *. lia. }
  rewrite <- !app_assoc. reflexivity.
Qed.

(** the search finds a right block at once *)
Lemma find_block_first pre c hi lo post : c <> [] -> bytes_ok c -> is_crc c (256 * hi + lo) ->
  find_block (pre ++ c ++ [hi; lo] ++ post) (len pre) (length c) = Ok (Some (len c)).
Proof.
  intros Hne Hok Hcrc.
  destruct (length c) as [|n] eqn:En; [destruct c; [contradiction|discriminate]|].
  cbn [find_block]. rewrite <- En. fold (len c).
  rewrite !len_app. change (len [hi; lo]) with 2.
  destruct (N.ltb_spec (len pre + (len c + (2 + len post))) (len pre + len c + 2)); [lia|].
  rewrite index_range_app. cbn [bind].
  replace (index (pre ++ c ++ [hi; lo] ++ post) (len pre + len c)) with (Ok (E := unit) hi).
  2:{ symmetry. rewrite app_assoc, <- len_app. exact (index_app (pre ++ c) hi (lo :: post)). }
  cbn [bind].
  replace (index (pre ++ c ++ [hi; lo] ++ post) (len pre + len c + 1)) with (Ok (E := unit) lo).
  2:{ symmetry. rewrite app_assoc, <- len_app. exact (index_app2 (pre ++ c) hi lo post). }
  cbn [bind]. rewrite (proj2 (crc_eqb c hi lo Hok) Hcrc). reflexivity.
Qed.

Lemma format_a_rest_len content enc : format_a_rest content enc -> enc <> [] -> 3 <= len enc.
Proof.
  destruct 1 as [|c hi lo Hc _|c hi lo content enc Hc _ _]; intros Hne; [contradiction| |];
    rewrite ?len_app, ?len_cons, ?len_nil; unfold len; lia.
Qed.

Lemma strip_loop_format_a content enc : format_a_rest content enc ->
  forall fuel pre out out_pos, bytes_ok enc ->
  (length enc < fuel)%nat -> out_pos + len content <= len out ->
  strip_loop fuel (pre ++ enc) out out_pos (len pre) =
    Ok (splice out out_pos content, out_pos + len content).
Proof.
  induction 1 as [|c hi lo Hc Hcrc|c hi lo content enc Hc Hcrc Hrest IH];
    intros fuel pre out out_pos Hok Hfuel Hout; (destruct fuel as [|fuel]; [lia|]); cbn [strip_loop].
  - rewrite app_nil_r. rewrite N.leb_refl. rewrite splice_nil, len_nil, N.add_0_r. reflexivity.
  - assert (Hl : len c <= 16) by (unfold len; lia). assert (Hl1 : 1 <= len c) by (unfold len; lia).
    rewrite !len_app. change (len [hi; lo]) with 2.
    destruct (N.leb_spec (len pre + (len c + 2)) (len pre)); [lia|].
    replace (len pre + (len c + 2) - len pre) with (len c + 2) by lia.
    destruct (N.ltb_spec (len c + 2) 3); [lia|].
    replace (len c + 2 - 2) with (len c) by lia. rewrite N.min_r by assumption.
    rewrite len_nat. apply bytes_ok_app in Hok as [Hokc _].
    assert (Hfb := find_block_first pre c hi lo [] ltac:(intros ->; cbn in Hl1; lia) Hokc Hcrc).
    cbn [app] in Hfb. rewrite Hfb. cbn [bind]. rewrite (index_range_app pre c [hi; lo]). cbn [bind].
    rewrite copy_at_ok by assumption. cbn [bind].
    destruct fuel as [|fuel]; [rewrite app_length in Hfuel; cbn [length] in Hfuel; lia|].
    cbn [strip_loop]. rewrite !len_app. change (len [hi; lo]) with 2.
    destruct (N.leb_spec (len pre + (len c + 2)) (len pre + len c + 2)); [|lia].
    reflexivity.
  - assert (Hl : len c = 16) by (unfold len; lia).
    rewrite !len_app. change (len [hi; lo]) with 2.
    destruct (N.leb_spec (len pre + (len c + (2 + len enc))) (len pre)); [lia|].
    replace (len pre + (len c + (2 + len enc)) - len pre) with (len c + 2 + len enc) by lia.
    destruct (N.ltb_spec (len c + 2 + len enc) 3); [lia|].
    rewrite N.min_l by lia. replace (N.to_nat 16) with (length c) by lia.
    rewrite app_assoc in Hok. apply bytes_ok_app in Hok as [Hokc Hok].
    apply bytes_ok_app in Hokc as [Hokc _].
    rewrite find_block_first by (try assumption; intros ->; cbn in Hl; lia).
    cbn [bind]. rewrite index_range_app. cbn [bind].
    rewrite len_app in Hout.
    rewrite copy_at_ok by lia. cbn [bind]. fold (splice out out_pos c).
    replace (pre ++ c ++ [hi; lo] ++ enc) with ((pre ++ c ++ [hi; lo]) ++ enc)
      by (rewrite <- !app_assoc; reflexivity).
    replace (len pre + len c + 2) with (len (pre ++ c ++ [hi; lo]))
      by (rewrite !len_app; change (len [hi; lo]) with 2; lia).
    rewrite IH; [|assumption| |].
    + rewrite splice_splice by lia. rewrite ?len_app. f_equal. f_equal. lia.
    + rewrite !app_length in Hfuel. cbn [length] in Hfuel. lia.
    + rewrite splice_len by lia. lia.
Qed.

Lemma format_a_rest_le content enc : format_a_rest content enc -> len content <= len enc.
Proof.
  induction 1 as [|c hi lo Hc _|c hi lo content enc Hc _ _ IH]; rewrite ?len_app; lia.
Qed.

Lemma splice_zero out src : len src <= len out -> splice out 0 src = src ++ skipn (length src) out.
Proof.
  intros H. unfold splice. cbn [N.to_nat firstn app]. rewrite N.add_0_l, len_nat. reflexivity.
Qed.

Theorem strip_format_a frame encoded output :
  format_a frame encoded -> bytes_ok encoded -> len encoded <= len output ->
  strip_format_a_crcs encoded output =
    Ok (Some (with_length frame), with_length frame ++ skipn (length frame) output).
Proof.
  intros Hf Hok Hout. destruct Hf as [head hi lo content enc Hh Hcrc Hrest].
  pose proof (format_a_rest_le _ _ Hrest) as Hle.
  assert (Hh' : len head = 10) by (unfold len; lia).
  rewrite !len_app in Hout. change (len [hi; lo]) with 2 in Hout.
  unfold strip_format_a_crcs. rewrite !len_app. change (len [hi; lo]) with 2.
  destruct (N.ltb_spec (len head + (2 + len enc)) 12); [lia|].
  destruct (N.ltb_spec (len output) (len head + (2 + len enc))); [lia|]. cbn [orb].
  replace (index_range (head ++ [hi; lo] ++ enc) 0 10) with (Ok (E := unit) head).
  2:{ symmetry. rewrite <- Hh'. exact (index_range_app [] head ([hi; lo] ++ enc)). }
  cbn [bind].
  replace (index (head ++ [hi; lo] ++ enc) 10) with (Ok (E := unit) hi).
  2:{ symmetry. rewrite <- Hh'. exact (index_app head hi (lo :: enc)). }
  cbn [bind].
  replace (index (head ++ [hi; lo] ++ enc) 11) with (Ok (E := unit) lo).
  2:{ symmetry. change 11 with (10 + 1). rewrite <- Hh'. exact (index_app2 head hi lo enc). }
  cbn [bind].
  apply bytes_ok_app in Hok as [Hokh Hok]. apply bytes_ok_app in Hok as [_ Hok].
  rewrite (proj2 (crc_eqb head hi lo Hokh) Hcrc). cbn [negb].
  rewrite copy_at_ok by lia. fold (splice output 0 head). cbn [bind].
  replace (head ++ [hi; lo] ++ enc) with ((head ++ [hi; lo]) ++ enc) by (rewrite <- app_assoc; reflexivity).
  replace 12 with (len (head ++ [hi; lo])) by (rewrite len_app, Hh'; reflexivity).
  rewrite (strip_loop_format_a _ _ Hrest).
  2: assumption.
  2: rewrite !app_length; cbn [length]; lia.
  2: rewrite splice_len by lia; lia.
  cbn [bind].
  replace 10 with (0 + len head) by lia. rewrite splice_splice by lia.
  destruct head as [|l0 head]; [discriminate|].
  set (n := (0 + len (l0 :: head) + len content - 1) mod 256).
  assert (Hn : with_length ((l0 :: head) ++ content) = n :: head ++ content).
  { cbn [app with_length]. f_equal. unfold n. fold (len (head ++ content)).
    rewrite len_app, len_cons. f_equal. lia. }
  rewrite Hn.
  rewrite copy_at_ok by (rewrite splice_len by (rewrite len_app; lia); change (len [n]) with 1; lia).
  fold (splice (splice output 0 ((l0 :: head) ++ content)) 0 [n]).
  rewrite (splice_zero output) by (rewrite len_app; lia).
  cbn [bind].
  assert (E3 : splice (((l0 :: head) ++ content) ++ skipn (length ((l0 :: head) ++ content)) output) 0 [n] =
               (n :: head ++ content) ++ skipn (length ((l0 :: head) ++ content)) output) by reflexivity.
  rewrite E3.
  replace (0 + len (l0 :: head) + len content) with (len (n :: head ++ content))
    by (rewrite !len_cons, !len_app; lia).
  assert (G := get_range_app [] (n :: head ++ content)
    (skipn (length ((l0 :: head) ++ content)) output)).
  rewrite app_nil_l, len_nil, N.add_0_l in G.
  unfold index_range. rewrite G. reflexivity.
Qed.

(** every frame has an encoding *)
Lemma crc_split c : bytes_ok c -> exists hi lo, hi < 256 /\ lo < 256 /\ is_crc c (256 * hi + lo).
Proof.
  intros Hc. pose proof (crc_is_crc c Hc) as H. exists (crc16_en13757 c / 256), (crc16_en13757 c mod 256).
  destruct H as [Hlt H]. change (2 ^ 16) with 65536 in Hlt.
  split; [lia|]. split; [lia|]. replace (256 * _ + _) with (crc16_en13757 c) by lia.
  apply crc_is_crc; assumption.
Qed.

Lemma format_a_rest_exists n content : (length content <= n)%nat -> bytes_ok content ->
  exists enc, format_a_rest content enc /\ bytes_ok enc.
Proof.
  revert content; induction n as [|n IH]; intros content Hn Hok.
  - destruct content; [|cbn [length] in Hn; lia]. exists []. split; [constructor|apply Forall_nil].
  - destruct (Nat.eq_dec (length content) 0) as [E|E].
    { destruct content; [|discriminate]. exists []. split; [constructor|apply Forall_nil]. }
    destruct (Nat.le_gt_cases (length content) 16) as [Hle|Hgt].
    + destruct (crc_split content Hok) as (hi & lo & Hhi & Hlo & Hc). exists (content ++ [hi; lo]).
      split; [apply FLast; [lia|assumption]|].
      apply bytes_ok_app; split; [assumption|]. repeat (apply Forall_cons; [assumption|]). apply Forall_nil.
    + pose proof (bytes_ok_firstn 16 _ Hok) as Hok1. pose proof (bytes_ok_skipn 16 _ Hok) as Hok2.
      destruct (crc_split _ Hok1) as (hi & lo & Hhi & Hlo & Hc).
      destruct (IH (skipn 16 content)) as (enc & He & Hoke); [rewrite skipn_length; lia|assumption|].
      exists (firstn 16 content ++ [hi; lo] ++ enc). split.
      * rewrite <- (firstn_skipn 16 content) at 1. apply FFull; [rewrite firstn_length; lia|assumption|assumption].
      * apply bytes_ok_app; split; [assumption|]. apply bytes_ok_app; split; [|assumption].
        repeat (apply Forall_cons; [assumption|]). apply Forall_nil.
Qed.

Lemma format_a_exists frame : bytes_ok frame -> 10 <= len frame ->
  exists enc, format_a frame enc /\ bytes_ok enc.
Proof.
  intros Hok Hl.
  pose proof (bytes_ok_firstn 10 _ Hok) as Hok1. pose proof (bytes_ok_skipn 10 _ Hok) as Hok2.
  destruct (crc_split _ Hok1) as (hi & lo & Hhi & Hlo & Hc).
  destruct (format_a_rest_exists (length frame) (skipn 10 frame)) as (enc & He & Hoke);
    [rewrite skipn_length; lia|assumption|].
  exists (firstn 10 frame ++ [hi; lo] ++ enc). split.
  - rewrite <- (firstn_skipn 10 frame) at 1. apply FFrame; [rewrite firstn_length; unfold len in Hl; lia|assumption|assumption].
  - apply bytes_ok_app; split; [assumption|]. apply bytes_ok_app; split; [|assumption].
    repeat (apply Forall_cons; [assumption|]). apply Forall_nil.
Qed.

(** ** arbitrary input *)
Lemma find_block_spec data pos n : bytes_ok data ->
  find_block data pos n = Ok None \/
  exists dl, find_block data pos n = Ok (Some dl) /\ 1 <= dl <= N.of_nat n /\
    exists pre c hi lo post, data = pre ++ c ++ [hi; lo] ++ post /\ len pre = pos /\ len c = dl /\
      is_crc c (256 * hi + lo).
Proof.
  intros Hok. induction n as [|n IH]; [left; reflexivity|].
  cbn [find_block].
  destruct (N.ltb_spec (len data) (pos + N.of_nat (S n) + 2)) as [Hs|Hl].
  { destruct IH as [IH|(dl & IH & Hd & Hrest)]; [left; assumption|right].
    exists dl. split; [assumption|]. split; [lia|assumption]. }
  assert (Hsplit : exists pre c hi lo post, data = pre ++ c ++ [hi; lo] ++ post /\ len pre = pos /\
                     len c = N.of_nat (S n)).
  { exists (firstn (N.to_nat pos) data).
    set (r := skipn (N.to_nat pos) data). set (c := firstn (S n) r). set (r2 := skipn (S n) r).
    assert (Hr : len r = len data - pos) by (unfold r; rewrite len_skipn; lia).
    assert (Hr2 : len r2 = len data - pos - N.of_nat (S n)) by (unfold r2; rewrite len_skipn; lia).
    destruct r2 as [|hi [|lo post]] eqn:E2; [rewrite len_nil in Hr2; lia|rewrite len_cons, len_nil in Hr2; lia|].
    exists c, hi, lo, post. split.
    - change ([hi; lo] ++ post) with (hi :: lo :: post). rewrite <- E2. unfold c, r2.
      rewrite firstn_skipn. unfold r. rewrite firstn_skipn. reflexivity.
    - split; [rewrite len_firstn; lia|]. unfold c. rewrite len_firstn. lia. }
  destruct Hsplit as (pre & c & hi & lo & post & Ed & Hp & Hc).
  replace (index_range data pos (pos + N.of_nat (S n))) with (Ok (E := unit) c).
  2:{ symmetry. rewrite Ed, <- Hp, <- Hc. apply index_range_app. }
  cbn [bind].
  replace (index data (pos + N.of_nat (S n))) with (Ok (E := unit) hi).
  2:{ symmetry. rewrite Ed, <- Hp, <- Hc. rewrite app_assoc, <- len_app. exact (index_app (pre ++ c) hi (lo :: post)). }
  cbn [bind].
  replace (index data (pos + N.of_nat (S n) + 1)) with (Ok (E := unit) lo).
  2:{ symmetry. rewrite Ed, <- Hp, <- Hc. rewrite app_assoc, <- len_app. exact (index_app2 (pre ++ c) hi lo post). }
  cbn [bind].
  assert (Hokc : bytes_ok c).
  { rewrite Ed in Hok. apply bytes_ok_app in Hok as [_ Hok]. apply bytes_ok_app in Hok as [Hok _]. assumption. }
  destruct (crc16_en13757 c =? u16_be hi lo) eqn:Ec.
  - right. exists (N.of_nat (S n)). split; [reflexivity|]. split; [lia|].
    exists pre, c, hi, lo, post. apply crc_eqb in Ec; auto.
  - destruct IH as [IH|(dl & IH & Hd & Hrest)]; [left; assumption|right].
    exists dl. split; [assumption|]. split; [lia|assumption].
Qed.

Lemma strips_len e c : strips e c -> len c <= len e.
Proof. induction 1 as [|c hi lo e content Hc _ _ IH]; rewrite ?len_app; lia. Qed.

Lemma strip_loop_spec fuel : forall data pre enc out out_pos,
  data = pre ++ enc -> bytes_ok data -> (length enc < fuel)%nat ->
  out_pos + len enc <= len out ->
  exists content, strips enc content /\
    strip_loop fuel data out out_pos (len pre) = Ok (splice out out_pos content, out_pos + len content).
Proof.
  induction fuel as [|fuel IH]; intros data pre enc out out_pos Ed Hok Hfuel Hout; [lia|].
  cbn [strip_loop]. assert (Hdl : len data = len pre + len enc) by (rewrite Ed; apply len_app).
  destruct (N.leb_spec (len data) (len pre)) as [Hend|Hmore].
  { exists []. assert (enc = []) by (apply len_0; lia). subst enc.
    split; [apply StripsKeep|]. rewrite splice_nil, len_nil, N.add_0_r. reflexivity. }
  assert (Htail : forall n, n = len data -> index_range data (len pre) n = Ok (E := unit) enc).
  { intros n ->. rewrite Ed. apply index_range_tail. }
  replace (len data - len pre) with (len enc) by lia.
  destruct (N.ltb_spec (len enc) 3) as [H3|H3].
  { exists enc. split; [apply StripsKeep|].
    rewrite Htail by lia. cbn [bind]. rewrite copy_at_ok by assumption. reflexivity. }
  destruct (find_block_spec data (len pre) (N.to_nat (N.min 16 (len enc - 2))) Hok)
    as [E|(dl & E & Hd & pre' & c & hi & lo & post & Ed' & Hp' & Hc & Hcrc)]; rewrite E; cbn [bind].
  { exists enc. split; [apply StripsKeep|].
    rewrite Htail by reflexivity. cbn [bind]. rewrite copy_at_ok by assumption. reflexivity. }
  assert (Heq : pre = pre' /\ enc = c ++ [hi; lo] ++ post).
  { rewrite Ed in Ed'. apply app_inj_len in Ed'; [auto|unfold len in Hp'; lia]. }
  destruct Heq as [<- ->].
  replace (index_range data (len pre) (len pre + dl)) with (Ok (E := unit) c).
  2:{ symmetry. rewrite Ed, <- Hc. apply index_range_app. }
  cbn [bind].
  rewrite !len_app in Hout. change (len [hi; lo]) with 2 in Hout.
  rewrite copy_at_ok by lia. cbn [bind]. fold (splice out out_pos c).
  destruct (IH data (pre ++ c ++ [hi; lo]) post (splice out out_pos c) (out_pos + dl)) as (content & Hs & Hl).
  - rewrite Ed, <- !app_assoc. reflexivity.
  - assumption.
  - rewrite !app_length in Hfuel. cbn [length] in Hfuel. lia.
  - rewrite splice_len by lia. lia.
  - replace (len (pre ++ c ++ [hi; lo])) with (len pre + dl + 2) in Hl
      by (rewrite !len_app; change (len [hi; lo]) with 2; lia).
    pose proof (strips_len _ _ Hs) as Hsl.
    rewrite Hl. exists (c ++ content). split.
    + apply StripsBlock; [|assumption|assumption]. unfold len in *. lia.
    + rewrite <- Hc, splice_splice by lia. rewrite len_app. f_equal. f_equal. lia.
Qed.

Lemma strip_cases data output : bytes_ok data ->
  (strip_format_a_crcs data output = Ok (None, output) /\
   (len data < 12 \/ len output < len data \/
    exists head hi lo enc, data = head ++ [hi; lo] ++ enc /\ len head = 10 /\ ~ is_crc head (256 * hi + lo))) \/
  (exists head hi lo enc content,
     data = head ++ [hi; lo] ++ enc /\ len head = 10 /\ is_crc head (256 * hi + lo) /\
     len data <= len output /\ strips enc content /\
     strip_format_a_crcs data output =
       Ok (Some (with_length (head ++ content)),
           with_length (head ++ content) ++ skipn (length (head ++ content)) output)).
Proof.
  intros Hok. unfold strip_format_a_crcs.
  destruct (N.ltb_spec (len data) 12) as [H12|H12]; cbn [orb]; [left; auto|].
  destruct (N.ltb_spec (len output) (len data)) as [Ho|Ho]; cbn [orb]; [left; auto|].
  assert (Hsplit : exists head hi lo enc, data = head ++ [hi; lo] ++ enc /\ len head = 10).
  { exists (firstn 10 data). set (r := skipn 10 data).
    assert (Hr : len r = len data - 10) by (unfold r; rewrite len_skipn; reflexivity).
    destruct r as [|hi [|lo enc]] eqn:E; [rewrite len_nil in Hr; lia|rewrite len_cons, len_nil in Hr; lia|].
    exists hi, lo, enc. split; [|rewrite len_firstn; lia].
    change ([hi; lo] ++ enc) with (hi :: lo :: enc). rewrite <- E. unfold r. symmetry; apply firstn_skipn. }
  destruct Hsplit as (head & hi & lo & enc & Ed & Hh). subst data.
  replace (index_range (head ++ [hi; lo] ++ enc) 0 10) with (Ok (E := unit) head).
  2:{ symmetry. rewrite <- Hh. exact (index_range_app [] head ([hi; lo] ++ enc)). }
  cbn [bind].
  replace (index (head ++ [hi; lo] ++ enc) 10) with (Ok (E := unit) hi).
  2:{ symmetry. rewrite <- Hh. exact (index_app head hi (lo :: enc)). }
  cbn [bind].
  replace (index (head ++ [hi; lo] ++ enc) 11) with (Ok (E := unit) lo).
  2:{ symmetry. change 11 with (10 + 1). rewrite <- Hh. exact (index_app2 head hi lo enc). }
  cbn [bind].
  assert (Hokh : bytes_ok head) by (apply bytes_ok_app in Hok as [Hok _]; assumption).
  destruct (crc16_en13757 head =? u16_be hi lo) eqn:Ec; cbn [negb].
  2:{ left. split; [reflexivity|]. right; right. exists head, hi, lo, enc. split; [reflexivity|].
      split; [assumption|]. intros Hc. apply crc_eqb in Hc; [congruence|assumption]. }
  right. apply crc_eqb in Ec; [|assumption].
  rewrite !len_app in Ho. change (len [hi; lo]) with 2 in Ho.
  rewrite copy_at_ok by lia. fold (splice output 0 head). cbn [bind].
  destruct (strip_loop_spec (S (length (head ++ [hi; lo] ++ enc))) (head ++ [hi; lo] ++ enc)
    (head ++ [hi; lo]) enc (splice output 0 head) 10) as (content & Hs & Hl).
  { rewrite <- app_assoc. reflexivity. }
  { assumption. }
  { rewrite !app_length. cbn [length]. lia. }
  { rewrite splice_len by lia. lia. }
  replace (len (head ++ [hi; lo])) with 12 in Hl by (rewrite len_app, Hh; reflexivity).
  rewrite Hl. cbn [bind].
  pose proof (strips_len _ _ Hs) as Hsl.
  exists head, hi, lo, enc, content. split; [reflexivity|]. split; [assumption|]. split; [assumption|].
  split; [rewrite !len_app; exact Ho|]. split; [assumption|].
  replace 10 with (0 + len head) by lia. rewrite splice_splice by lia.
  destruct head as [|l0 head]; [discriminate|].
  set (n := (0 + len (l0 :: head) + len content - 1) mod 256).
  assert (Hn : with_length ((l0 :: head) ++ content) = n :: head ++ content).
  { cbn [app with_length]. f_equal. unfold n. fold (len (head ++ content)).
    rewrite len_app, len_cons. f_equal. lia. }
  rewrite Hn.
  rewrite copy_at_ok by (rewrite splice_len by (rewrite len_app; lia); change (len [n]) with 1; lia).
  fold (splice (splice output 0 ((l0 :: head) ++ content)) 0 [n]).
  rewrite (splice_zero output) by (rewrite len_app; lia).
  cbn [bind].
  assert (E3 : splice (((l0 :: head) ++ content) ++ skipn (length ((l0 :: head) ++ content)) output) 0 [n] =
               (n :: head ++ content) ++ skipn (length ((l0 :: head) ++ content)) output) by reflexivity.
  rewrite E3.
  replace (0 + len (l0 :: head) + len content) with (len (n :: head ++ content))
    by (rewrite !len_cons, !len_app; lia).
  assert (G := get_range_app [] (n :: head ++ content)
    (skipn (length ((l0 :: head) ++ content)) output)).
  rewrite app_nil_l, len_nil, N.add_0_l in G.
  unfold index_range. rewrite G. reflexivity.
Qed.
