(** Lemmas about boxes: what they show. *)
From Coq Require Import Lia.
From Verif Require Import Model.Base Model.Text Model.Table Spec.TableSpec Proof.BaseFacts Proof.TableFacts.

(** the characters of a text, line feeds aside *)
Definition within (P : N -> Prop) (t : list N) : Prop := Forall (fun c => c = 10 \/ P c) t.

Lemma within_app P a b : within P (a ++ b) <-> within P a /\ within P b.
Proof. apply Forall_app. Qed.

Lemma wrapped_chars cw cell w c : 0 < w -> In c cell -> c <> 10 -> exists l, In l (wrap_display cw cell w) /\ In c l.
Proof.
  intros Hw Hc Hn. destruct (wrap_display_ok cw cell w Hw) as (ps & gs & _ & Ev & _ & F2 & ->). subst cell.
  assert (Hp : exists p, In p ps /\ In c p).
  { clear F2. induction ps as [|p ps IH]; [destruct Hc|]. destruct ps as [|q ps]; [exists p; split; [left; reflexivity|exact Hc]|].
    cbn [joined] in Hc. apply in_app_or in Hc. destruct Hc as [Hc|[Hc|Hc]].
    - exists p. split; [left; reflexivity|exact Hc].
    - congruence.
    - destruct (IH Hc) as (x & X1 & X2). exists x. split; [right; exact X1|exact X2]. }
  destruct Hp as (p & Hp & Hcp). clear Hc.
  induction F2 as [|q g ps gs B F2 IH]; [destruct Hp|]. destruct Hp as [->|Hp].
  - destruct B as (_ & Ec & _). rewrite <- Ec in Hcp. apply in_concat in Hcp. destruct Hcp as (l & L1 & L2).
    exists l. split; [|exact L2]. cbn [concat]. apply in_or_app. left. exact L1.
  - destruct (IH Hp) as (l & L1 & L2). exists l. split; [|exact L2]. cbn [concat]. apply in_or_app. right. exact L1.
Qed.

Lemma nth_combine_seq {A} (l : list A) i : nth_error (combine (seq 0 (length l)) l) i = option_map (fun a => (i, a)) (nth_error l i).
Proof.
  assert (H : forall k, nth_error (combine (seq k (length l)) l) i = option_map (fun a => ((k + i)%nat, a)) (nth_error l i)).
  { revert i. induction l as [|a l IH]; intros i k; [destruct i; reflexivity|]. destruct i; cbn; [rewrite Nat.add_0_r; reflexivity|].
    rewrite IH. destruct (nth_error l i); [|reflexivity]. cbn. f_equal. f_equal. lia. }
  apply (H 0%nat).
Qed.

Lemma max_in (l : list nat) x : In x l -> (x <= fold_right Nat.max 0 l)%nat.
Proof. induction l as [|y l IH]; [intros []|]. cbn [In fold_right]. intros [->|H]; [lia|]. specialize (IH H). lia. Qed.

(** every character of a cell stands in the row *)
Lemma row_chars cw sw P cells widths : Forall (fun w => 0 < w) widths -> length cells = length widths ->
  within P (push_row cw sw cells widths) -> Forall (within P) cells.
Proof.
  intros Hw Hl HP. apply Forall_forall. intros cell Hcell. apply In_nth_error in Hcell. destruct Hcell as (i & Hi).
  assert (Hi' : (i < length widths)%nat) by (rewrite <- Hl; apply nth_error_Some; congruence).
  destruct (nth_error widths i) as [w|] eqn:Ew; [|apply nth_error_None in Ew; lia].
  assert (H0 : 0 < w) by (rewrite Forall_forall in Hw; apply Hw; eapply nth_error_In; exact Ew).
  apply Forall_forall. intros c Hc. destruct (N.eq_dec c 10) as [->|Hn]; [left; reflexivity|].
  destruct (wrapped_chars cw cell w c H0 Hc Hn) as (l & L1 & L2).
  unfold within in HP. rewrite Forall_forall in HP. apply HP. clear HP.
  unfold push_row. cbv zeta. set (wrapped := map _ _).
  assert (Ewr : nth_error wrapped i = Some (wrap_display cw cell w)).
  { unfold wrapped. rewrite nth_error_map, nth_combine_seq, Ew. cbn. rewrite Hi. reflexivity. }
  apply In_nth_error in L1. destruct L1 as (j & Hj).
  assert (Hj' : (j < length (wrap_display cw cell w))%nat) by (apply nth_error_Some; congruence).
  apply in_flat_map. exists j. split.
  - apply in_seq. split; [lia|]. cbn. destruct wrapped as [|x wr] eqn:E; [destruct i; discriminate Ewr|].
    rewrite <- E in *. apply Nat.lt_le_trans with (1 := Hj'). apply max_in. apply in_map_iff. eexists. split; [reflexivity|].
    eapply nth_error_In. exact Ewr.
  - unfold row_line. right. apply in_or_app. left. apply in_flat_map. exists (i, w). split.
    + eapply nth_error_In. rewrite nth_combine_seq, Ew. reflexivity.
    + rewrite Ewr, Hj. right. apply in_or_app. left. exact L2.
Qed.

Lemma box_chars_within cw sw P headers rows widths : Forall (fun w => 0 < w) widths ->
  length headers = length widths -> Forall (fun r => length r = length widths) rows ->
  within P (box_table cw sw headers rows widths) -> Forall (within P) headers /\ Forall (Forall (within P)) rows.
Proof.
  intros Hw Hh Hr H. unfold box_table in H. repeat (rewrite within_app in H). destruct H as (_ & H1 & _ & H2 & _).
  split; [eapply row_chars; eassumption|].
  induction Hr as [|row rows Hrow Hr IH]; [constructor|]. cbn [body_rows] in H2. repeat (rewrite within_app in H2).
  destruct H2 as (H2 & _ & H3). constructor; [eapply row_chars; eassumption|apply IH; exact H3].
Qed.

(** *** What boxes show *)
Lemma border_text l m r widths : widths <> [] -> push_border l m r widths = border l m r widths ++ [10].
Proof.
  intros H. unfold push_border, border. cbn [app]. f_equal. f_equal. induction widths as [|w [|v ws] IH]; [congruence|reflexivity|].
  cbn [border_cells] in *. rewrite IH by discriminate. reflexivity.
Qed.

Lemma row_line_text cw sw widths wrapped j :
  length wrapped = length widths ->
  (forall i lines v, nth_error wrapped i = Some lines -> In v lines -> sw v = display cw v) -> sw [] = 0 ->
  row_line sw wrapped widths j = row_text cw widths wrapped j ++ [10].
Proof.
  intros Hl Hs H0. unfold row_line, row_text. cbn [app]. f_equal. f_equal.
  rewrite <- flat_map_concat_map.
  assert (G : forall k ws wr, length wr = length ws -> (forall i, nth_error wrapped (k + i) = nth_error wr i) ->
    flat_map (fun '(index, width) => 32 :: (match nth_error wrapped index with
       | Some lines => match nth_error lines j with Some v => v | None => [] end | None => [] end)
       ++ repeat 32 (N.to_nat (width - sw (match nth_error wrapped index with
       | Some lines => match nth_error lines j with Some v => v | None => [] end | None => [] end))) ++ [32; 0x2502])
      (combine (seq k (length ws)) ws) =
    flat_map (fun wc => 32 :: padded cw (fst wc) (nth j (snd wc) []) ++ [32; 0x2502]) (combine ws wr)).
  { intros k ws. revert k. induction ws as [|w ws IH]; intros k wr Hlen Hn; [reflexivity|].
    destruct wr as [|c wr]; [discriminate|]. cbn [length seq combine flat_map fst snd].
    rewrite (IH (S k) wr); [|cbn in Hlen; lia|intros i; replace (S k + i)%nat with (k + S i)%nat by lia; exact (Hn (S i))].
    assert (Ek : nth_error wrapped k = Some c) by (rewrite <- (Nat.add_0_r k); exact (Hn 0%nat)).
    rewrite Ek. unfold padded.
    assert (Ev : match nth_error c j with Some v => v | None => [] end = nth j c []).
    { symmetry. destruct (nth_error c j) eqn:E; [apply nth_error_nth; exact E|apply nth_overflow, nth_error_None; exact E]. }
    rewrite Ev. f_equal. f_equal. rewrite <- !app_assoc. f_equal. f_equal. f_equal. f_equal. f_equal.
    rewrite <- Ev. destruct (nth_error c j) eqn:E; [|rewrite H0; reflexivity].
    apply (Hs k c); [exact Ek|eapply nth_error_In; exact E]. }
  apply (G 0%nat); [exact Hl|reflexivity].
Qed.

Lemma row_shows cw sw P widths cells : showable cw sw P widths -> widths <> [] -> length cells = length widths ->
  Forall (within P) cells ->
  exists lines, row_shown cw widths cells lines /\ push_row cw sw cells widths = unlines lines.
Proof.
  intros Hs Hne Hl Hc. unfold push_row. cbv zeta. set (wrapped := map _ _).
  assert (Ew : forall i, nth_error wrapped i =
    match nth_error widths i, nth_error cells i with Some w, Some c => Some (wrap_display cw c w) | _, _ => None end).
  { intros i. unfold wrapped. rewrite nth_error_map, nth_combine_seq.
    destruct (nth_error widths i) as [w|] eqn:E1; [|reflexivity]. cbn.
    destruct (nth_error cells i) eqn:E2; [reflexivity|]. exfalso. apply nth_error_None in E2.
    assert (i < length widths)%nat by (apply nth_error_Some; congruence). lia. }
  assert (Lw : length wrapped = length widths).
  { unfold wrapped. rewrite map_length, combine_length, seq_length. lia. }
  assert (HP : forall i lines v, nth_error wrapped i = Some lines -> In v lines -> sw v = display cw v).
  { intros i lines v E Hv. rewrite Ew in E. destruct (nth_error widths i) as [w|] eqn:E1; [|discriminate].
    destruct (nth_error cells i) as [c|] eqn:E2; [|discriminate]. inversion E; subst lines.
    assert (F := wrap_lines_show cw sw P widths w c Hs (nth_error_In _ _ E1)).
    rewrite Forall_forall in Hc. specialize (F (Hc c (nth_error_In _ _ E2))). rewrite Forall_forall in F. apply (F v Hv). }
  assert (S0 : sw [] = 0) by (apply (proj1 Hs []); constructor).
  assert (Hnw : wrapped <> []) by (intros E; rewrite E in Lw; destruct widths; [congruence|discriminate]).
  set (height := match wrapped with [] => _ | _ => _ end).
  assert (Eh : height = fold_right Nat.max 0%nat (map (@length _) wrapped)).
  { unfold height. destruct wrapped; [congruence|reflexivity]. }
  exists (map (row_text cw widths wrapped) (seq 0 height)). split.
  - split; [exact Hl|]. exists wrapped. split; [|rewrite Eh; reflexivity].
    clear HP Eh height Hnw.
    assert (G : forall ws cs wr, length cs = length ws -> length wr = length ws -> Forall (fun w => 0 < w) ws ->
      (forall i, nth_error wr i = match nth_error ws i, nth_error cs i with Some w, Some c => Some (wrap_display cw c w) | _, _ => None end) ->
      Forall2 (fun wc column => laid_out cw (fst wc) (snd wc) column) (combine ws cs) wr).
    { induction ws as [|w ws IH]; intros cs wr L1 L2 Fw H; [destruct wr; [constructor|discriminate]|].
      destruct cs as [|c cs]; [discriminate|]. destruct wr as [|x wr]; [discriminate|]. inversion Fw; subst.
      cbn [combine]. constructor.
      - assert (E := H 0%nat). cbn in E. inversion E. cbn. apply wrap_display_ok. assumption.
      - apply IH; [cbn in *; lia|cbn in *; lia|assumption|]. intros i. exact (H (S i)). }
    apply G; [exact Hl|exact Lw|exact (proj1 (proj2 Hs))|exact Ew].
  - unfold unlines. rewrite map_map, flat_map_concat_map. f_equal. apply map_ext. intros j.
    apply row_line_text; assumption.
Qed.

Lemma box_shows cw sw P headers rows widths : showable cw sw P widths -> widths <> [] ->
  length headers = length widths -> Forall (fun r => length r = length widths) rows ->
  within P (box_table cw sw headers rows widths) ->
  exists lines, boxed cw widths headers rows lines /\ box_table cw sw headers rows widths = unlines lines.
Proof.
  intros Hs Hne Hh Hr HP. destruct (box_chars_within cw sw P headers rows widths (proj1 (proj2 Hs)) Hh Hr HP) as [Ph Pr].
  destruct (row_shows cw sw P widths headers Hs Hne Hh Ph) as (head & H1 & H2).
  assert (B : exists body, Forall2 (row_shown cw widths) rows body /\
    body_rows cw sw rows widths = unlines (with_borders (border 0x251C 0x253C 0x2524 widths) body)).
  { clear HP. induction Hr as [|row rows Hrow Hr IH]; [exists []; split; [constructor|reflexivity]|].
    inversion Pr; subst. destruct (row_shows cw sw P widths row Hs Hne Hrow ltac:(assumption)) as (r & R1 & R2).
    destruct (IH ltac:(assumption)) as (body & B1 & B2). exists (r :: body). split; [constructor; assumption|].
    cbn [body_rows]. rewrite R2, B2. destruct rows as [|row2 rows].
    - inversion B1; subst. cbn. rewrite app_nil_r. reflexivity.
    - inversion B1; subst. cbn [with_borders]. rewrite border_text by exact Hne.
      rewrite unlines_app. f_equal. }
  destruct B as (body & B1 & B2).
  eexists. split; [exists head, body; split; [exact H1|split; [exact B1|reflexivity]]|].
  unfold box_table. rewrite H2, B2, !border_text by exact Hne.
  unfold unlines. cbn [map concat]. rewrite map_app, concat_app. cbn [map concat]. rewrite map_app, concat_app. cbn [map concat].
  rewrite app_nil_r. reflexivity.
Qed.

(** *** Their width *)
Lemma in_joined p ps c : In p ps -> In c p -> In c (joined ps).
Proof.
  intros Hp Hc. induction ps as [|q ps IH]; [destruct Hp|]. destruct ps as [|r ps].
  - destruct Hp as [->|[]]. exact Hc.
  - change (joined (q :: r :: ps)) with (q ++ 10 :: joined (r :: ps)). apply in_or_app. destruct Hp as [->|Hp].
    + left. exact Hc.
    + right. right. apply IH. exact Hp.
Qed.

Lemma laid_out_lines cw P w value lines : laid_out cw w value lines -> within P value -> (forall c, P c -> cw c <= w) ->
  Forall (fun l => ~ In 10 l /\ display cw l <= w) lines.
Proof.
  intros (ps & gs & _ & -> & Hn & F2 & ->) HP Hc.
  assert (HPp : forall p, In p ps -> forall c, In c p -> c <> 10 -> P c).
  { intros p Hp c Hcp Hne. unfold within in HP. rewrite Forall_forall in HP. destruct (HP c (in_joined p ps c Hp Hcp)); [congruence|assumption]. }
  clear HP. induction F2 as [|p g ps gs B F2 IH]; [constructor|]. inversion Hn; subst. cbn [concat]. apply Forall_app. split.
  - destruct B as (_ & Ec & Ff & _). apply Forall_forall. intros l Hl.
    assert (Hin : forall c, In c l -> In c p) by (intros c H; rewrite <- Ec; apply in_concat; exists l; auto).
    split; [intros H; apply Hin in H; contradiction|].
    rewrite Forall_forall in Ff. destruct (Ff l Hl) as [F|(b & c & -> & _ & Hw)]; [exact F|].
    exfalso. assert (Hcp : In c p) by (apply Hin, in_or_app; right; left; reflexivity).
    assert (P c). { apply (HPp p (or_introl eq_refl) c Hcp). intros ->. contradiction. }
    specialize (Hc c H). lia.
  - apply IH; [assumption|]. intros q Hq. apply HPp. right. exact Hq.
Qed.

Lemma padded_width cw w s : cw 32 = 1 -> display cw s <= w -> display cw (padded cw w s) = w.
Proof. intros H1 H. unfold padded. rewrite display_app, (display_repeat cw 32) by exact H1. lia. Qed.

Lemma row_text_width cw widths columns j : drawn cw ->
  Forall2 (fun w col => Forall (fun l => ~ In 10 l /\ display cw l <= w) col) widths columns ->
  ~ In 10 (row_text cw widths columns j) /\ display cw (row_text cw widths columns j) = table_width widths.
Proof.
  intros Hd F2. unfold row_text, table_width. rewrite display_cons, (Hd 0x2502) by (cbn; tauto).
  assert (G : ~ In 10 (concat (map (fun wc => 32 :: padded cw (fst wc) (nth j (snd wc) []) ++ [32; 0x2502]) (combine widths columns))) /\
    display cw (concat (map (fun wc => 32 :: padded cw (fst wc) (nth j (snd wc) []) ++ [32; 0x2502]) (combine widths columns))) =
    fold_right (fun w n => w + 3 + n) 0 widths).
  { induction F2 as [|w col ws cs F _ IH]; [split; [intros []|reflexivity]|].
    cbn [combine map concat fst snd fold_right]. destruct IH as [I1 I2].
    assert (Hcell : ~ In 10 (nth j col []) /\ display cw (nth j col []) <= w).
    { destruct (Nat.lt_ge_cases j (length col)) as [L|L].
      - rewrite Forall_forall in F. apply F. apply nth_In. exact L.
      - rewrite nth_overflow by exact L. split; [intros []|rewrite display_nil; lia]. }
    destruct Hcell as [C1 C2]. split.
    - cbn [app]. intros [H|H]; [discriminate|]. rewrite <- !app_assoc in H. apply in_app_or in H. destruct H as [H|H].
      + unfold padded in H. apply in_app_or in H. destruct H as [H|H]; [contradiction|]. apply repeat_spec in H. discriminate.
      + cbn in H. destruct H as [H|[H|H]]; [discriminate|discriminate|]. contradiction.
    - cbn [app]. rewrite display_cons, !display_app, I2, padded_width by (try exact C2; apply Hd; cbn; tauto).
      rewrite !display_cons, display_nil, (Hd 32), (Hd 0x2502) by (cbn; tauto). lia. }
  destruct G as [G1 G2]. split; [|rewrite G2; lia]. intros [H|H]; [discriminate|contradiction].
Qed.

Lemma row_shown_width cw P widths cells lines : drawn cw -> row_shown cw widths cells lines ->
  Forall (within P) cells -> (forall c w, P c -> In w widths -> cw c <= w) ->
  Forall (fun l => ~ In 10 l /\ display cw l = table_width widths) lines.
Proof.
  intros Hd (L & columns & F2 & ->) HP Hc. apply Forall_forall. intros l Hl. apply in_map_iff in Hl. destruct Hl as (j & <- & _).
  apply row_text_width; [exact Hd|].
  revert cells columns L F2 HP. induction widths as [|w ws IH]; intros cells columns L F2 HP.
  - inversion F2; subst. constructor.
  - destruct cells as [|c cells]; [discriminate|]. inversion F2; subst. inversion HP; subst. constructor.
    + apply (laid_out_lines cw P w c); [assumption|assumption|]. intros x Px. apply Hc; [exact Px|left; reflexivity].
    + apply (IH (fun c w Px Hw => Hc c w Px (or_intror Hw)) cells); [cbn in L; lia|assumption|assumption].
Qed.

Lemma border_width cw l m r widths : drawn cw -> widths <> [] -> In l box_chars -> In m box_chars -> In r box_chars ->
  ~ In 10 (border l m r widths) /\ display cw (border l m r widths) = table_width widths.
Proof.
  intros Hd Hne Hl Hm Hr. unfold border, table_width. rewrite display_cons, (Hd l Hl).
  set (cells := fix cells ws := match ws with [] => [] | [w] => _ | w :: ws' => _ end).
  assert (N10 : forall c, In c box_chars -> c <> 10) by (intros c H ->; cbn in H; intuition discriminate).
  assert (R : forall n, ~ In 10 (repeat 0x2500 n)) by (intros n H; apply repeat_spec in H; discriminate).
  assert (G : ~ In 10 (cells widths) /\ display cw (cells widths) = fold_right (fun w n => w + 3 + n) 0 widths).
  { induction widths as [|w [|v ws] IH]; [congruence| |].
    - cbn. rewrite display_app, display_repeat, display_cons, display_nil, (Hd r Hr) by (apply Hd; cbn; tauto).
      split; [|lia]. intros H. apply in_app_or in H. destruct H as [H|[H|[]]]; [exact (R _ H)|exact (N10 _ Hr H)].
    - destruct (IH ltac:(discriminate)) as [I1 I2].
      change (cells (w :: v :: ws)) with (repeat 0x2500 (N.to_nat (w + 2)) ++ m :: cells (v :: ws)).
      change (fold_right (fun w n => w + 3 + n) 0 (w :: v :: ws)) with (w + 3 + fold_right (fun w n => w + 3 + n) 0 (v :: ws)).
      rewrite display_app, display_repeat, display_cons, I2, (Hd m Hm) by (apply Hd; cbn; tauto). split; [|lia].
      intros H. apply in_app_or in H. destruct H as [H|[H|H]]; [exact (R _ H)|exact (N10 _ Hm H)|contradiction]. }
  destruct G as [G1 G2]. split; [|rewrite G2; lia]. intros [H|H]; [exact (N10 _ Hl H)|contradiction].
Qed.

Lemma boxed_width cw P widths headers rows lines : drawn cw -> widths <> [] -> boxed cw widths headers rows lines ->
  Forall (within P) headers -> Forall (Forall (within P)) rows -> (forall c w, P c -> In w widths -> cw c <= w) ->
  Forall (fun l => ~ In 10 l /\ display cw l = table_width widths) lines.
Proof.
  intros Hd Hne (head & body & H1 & H2 & ->) Ph Pr Hc.
  assert (B : forall l m r, In l box_chars -> In m box_chars -> In r box_chars ->
    ~ In 10 (border l m r widths) /\ display cw (border l m r widths) = table_width widths)
    by (intros; apply border_width; assumption).
  constructor; [apply B; cbn; tauto|]. apply Forall_app. split; [eapply row_shown_width; eassumption|].
  constructor; [apply B; cbn; tauto|]. apply Forall_app. split; [|constructor; [apply B; cbn; tauto|constructor]].
  clear Ph H1. induction H2 as [|row ls rows body H _ IH]; [constructor|]. inversion Pr; subst.
  assert (R := row_shown_width cw P widths row ls Hd H ltac:(assumption) Hc).
  destruct body as [|x body]; [exact R|]. cbn [with_borders]. apply Forall_app. split; [exact R|].
  constructor; [apply B; cbn; tauto|]. apply IH. assumption.
Qed.

(** both *)
Lemma box_complete cw sw P headers rows widths : drawn cw -> showable cw sw P widths -> widths <> [] ->
  length headers = length widths -> Forall (fun r => length r = length widths) rows ->
  within P (box_table cw sw headers rows widths) ->
  exists lines, boxed cw widths headers rows lines /\ box_table cw sw headers rows widths = unlines lines /\
    Forall (fun l => ~ In 10 l /\ display cw l = table_width widths) lines.
Proof.
  intros Hd Hs Hne Hh Hr HP. destruct (box_shows cw sw P headers rows widths Hs Hne Hh Hr HP) as (lines & B & E).
  exists lines. split; [exact B|]. split; [exact E|].
  destruct (box_chars_within cw sw P headers rows widths (proj1 (proj2 Hs)) Hh Hr HP) as [Ph Pr].
  eapply boxed_width; try eassumption. exact (proj2 (proj2 Hs)).
Qed.
