(** Lemmas about the table of a frame. *)
From Coq Require Import String List NArith Lia Bool ZArith.
Import ListNotations.
From Verif Require Import Model.Base Model.Text Model.Show Model.Table Model.Format Model.Output Model.Rscada Model.Render
  Spec.TableSpec Spec.RenderSpec Proof.BaseFacts Proof.TableFacts Proof.RenderTable Proof.RecordFacts Proof.OutputRecords Proof.RenderFacts.
Open Scope N_scope.

(** what is assumed of the widths of characters *)
Definition ascii_widths (cw : N -> N) : Prop := forall c, 32 <= c <= 126 -> cw c = 1.
Definition plain_widths (cw : N -> N) (sw : list N -> N) (P : N -> Prop) : Prop :=
  drawn cw /\ (forall s, Forall P s -> sw s = display cw s) /\ (forall c, P c -> cw c <= 3).

Lemma wide_enough cw sw P widths : plain_widths cw sw P -> Forall (fun w => 3 <= w) widths -> showable cw sw P widths.
Proof.
  intros (Hd & Hs & Hc) H. split; [exact Hs|]. split.
  - eapply Forall_impl; [|exact H]. cbn. intros; lia.
  - intros c w Pc Hw. rewrite Forall_forall in H. specialize (H w Hw). specialize (Hc c Pc). lia.
Qed.

Lemma key_value_wide width : 32 <= width -> Forall (fun w => 3 <= w) (key_value_widths width).
Proof.
  intros H. unfold key_value_widths. assert (D := N.div_mod (width - 7) 3 ltac:(lia)).
  assert (M := N.mod_lt (width - 7) 3 ltac:(lia)). repeat constructor; lia.
Qed.
Lemma wide_wide width : 100 <= width -> Forall (fun w => 3 <= w) (wide_widths width) /\ table_width (wide_widths width) = width.
Proof.
  intros H. unfold wide_widths, table_width. cbn [fold_right]. cbv zeta.
  assert (D := N.div_mod ((width - 19) * 34) 100 ltac:(lia)). assert (M := N.mod_lt ((width - 19) * 34) 100 ltac:(lia)).
  split; [repeat constructor|]; lia.
Qed.
Lemma medium_wide width : 72 <= width -> Forall (fun w => 3 <= w) (medium_widths width) /\ table_width (medium_widths width) = width.
Proof.
  intros H. unfold medium_widths, table_width. cbn [fold_right]. cbv zeta.
  assert (D := N.div_mod ((width - 13) * 52) 100 ltac:(lia)). assert (M := N.mod_lt ((width - 13) * 52) 100 ltac:(lia)).
  split; [repeat constructor|]; lia.
Qed.

(** a line that fits *)
Definition exact (cw : N -> N) (width : N) (l : text) : Prop := ~ In 10 l /\ display cw l <= width.

Lemma exact_of cw width lines : Forall (fun l => ~ In 10 l /\ display cw l = width) lines -> Forall (exact cw width) lines.
Proof. apply Forall_impl. intros l [H E]. split; [exact H|]. rewrite E. lia. Qed.

Lemma key_value_shown rn P rows width : plain_widths (rn_cw rn) (rn_sw rn) P -> 32 <= width ->
  within P (key_value_box rn rows width) ->
  exists lines, field_box (rn_cw rn) width rows lines /\ key_value_box rn rows width = unlines lines /\
    Forall (exact (rn_cw rn) width) lines.
Proof.
  intros Hp Hw HP. unfold key_value_box in *. set (cells := map _ rows) in *.
  assert (Er : cells = map (fun r => [fst r; snd r]) rows) by (apply map_ext; intros []; reflexivity).
  assert (Hk := key_value_wide width Hw).
  destruct (box_complete (rn_cw rn) (rn_sw rn) P [txt "Field"; txt "Value"] cells (key_value_widths width)) as (lines & B & E & F);
    try assumption; try reflexivity.
  - exact (proj1 Hp).
  - apply wide_enough; assumption.
  - discriminate.
  - rewrite Er. apply Forall_forall. intros r Hr. apply in_map_iff in Hr. destruct Hr as (x & <- & _). reflexivity.
  - exists lines. rewrite key_value_width in F by exact Hw. split; [|split; [exact E|apply exact_of; exact F]].
    exists (key_value_widths width). split; [apply key_value_width; exact Hw|]. rewrite <- Er. exact B.
Qed.

Lemma some_exact cw width lines : Forall (exact cw width) lines ->
  Forall (fun l => exact cw width l \/ exists n, l = txt "Record " ++ dec n) lines.
Proof. apply Forall_impl. tauto. Qed.

Lemma line_unlines t : line t = unlines [t].
Proof. symmetry. apply unlines_one. Qed.

Lemma records_table_shown rn P records width : plain_widths (rn_cw rn) (rn_sw rn) P -> 32 <= width ->
  Forall (fun r => regular (ro_value r)) records ->
  within P (records_table rn records width) ->
  exists lines, records_shown (rn_number rn) (rn_cw rn) width records lines /\
    records_table rn records width = unlines lines /\
    Forall (fun l => exact (rn_cw rn) width l \/ exists n, l = txt "Record " ++ dec n) lines.
Proof.
  intros Hp Hw Hreg HP. destruct records as [|r0 rest]; [exists []; split; [apply RsNone; reflexivity|split; [reflexivity|constructor]]|].
  remember (r0 :: rest) as records eqn:Er. assert (Hne : records <> []) by (rewrite Er; discriminate).
  assert (Et : records_table rn records width =
    if 100 <=? width then
        box_table (rn_cw rn) (rn_sw rn) (map txt ["#"; "Reading"; "Function"; "S/T/U"; "Coding"; "Raw"]%string)
          (map (wide_row rn) records) (wide_widths width)
      else if 72 <=? width then
        box_table (rn_cw rn) (rn_sw rn) (map txt ["#"; "Reading / detail"; "Function"; "S/T/U"]%string)
          (map (medium_row rn) records) (medium_widths width)
      else
        flat_map (fun r => line (txt "Record " ++ dec (ro_index r)) ++ key_value_box rn (narrow_rows rn r) width) records).
  { rewrite Er. reflexivity. }
  rewrite Et in *. clear Et Er r0 rest. destruct (N.leb_spec 100 width) as [L|L]; [|destruct (N.leb_spec 72 width) as [L2|L2]].
  - destruct (wide_wide width L) as [W1 W2].
    destruct (box_complete (rn_cw rn) (rn_sw rn) P (map txt ["#"; "Reading"; "Function"; "S/T/U"; "Coding"; "Raw"]%string)
       (map (wide_row rn) records) (wide_widths width)) as (lines & B & E & F); try assumption; try reflexivity.
    + exact (proj1 Hp).
    + apply wide_enough; assumption.
    + discriminate.
    + apply Forall_forall. intros r Hr. apply in_map_iff in Hr. destruct Hr as (x & <- & _). reflexivity.
    + exists lines. split; [|split; [exact E|rewrite W2 in F; apply some_exact, exact_of; exact F]].
      eapply RsWide with (rows := map (wide_row rn) records); [exact Hne|exact L|exact W2| |exact B].
      clear -Hreg. induction Hreg as [|r rs Hr _ IH]; [constructor|]. cbn [map]. constructor; [|exact IH].
      exists (reading rn r), (record_hex r). split; [apply reading_shown; exact Hr|]. split; [apply bytes_shown|reflexivity].
  - destruct (medium_wide width L2) as [W1 W2].
    destruct (box_complete (rn_cw rn) (rn_sw rn) P (map txt ["#"; "Reading / detail"; "Function"; "S/T/U"]%string)
       (map (medium_row rn) records) (medium_widths width)) as (lines & B & E & F); try assumption; try reflexivity.
    + exact (proj1 Hp).
    + apply wide_enough; assumption.
    + discriminate.
    + apply Forall_forall. intros r Hr. apply in_map_iff in Hr. destruct Hr as (x & <- & _). reflexivity.
    + exists lines. split; [|split; [exact E|rewrite W2 in F; apply some_exact, exact_of; exact F]].
      eapply RsMedium with (rows := map (medium_row rn) records); [exact Hne|lia|exact W2| |exact B].
      clear -Hreg. induction Hreg as [|r rs Hr _ IH]; [constructor|]. cbn [map]. constructor; [|exact IH].
      exists (reading rn r), (record_hex r). split; [apply reading_shown; exact Hr|]. split; [apply bytes_shown|reflexivity].
  - assert (G : exists boxes,
      Forall2 (fun r box => exists reading bytes lines, shown_reading (rn_number rn) r reading /\ shown_bytes r bytes /\
        field_box (rn_cw rn) width [(txt "Reading", reading); (txt "Function", ro_function r);
                          (txt "Storage/Tariff/Subunit", shown_numbers r); (txt "Coding", ro_data_coding r);
                          (txt "Raw", bytes)] lines /\
        box = (txt "Record " ++ dec (ro_index r)) :: lines) records boxes /\
      flat_map (fun r => line (txt "Record " ++ dec (ro_index r)) ++ key_value_box rn (narrow_rows rn r) width) records =
      unlines (concat boxes) /\
      Forall (fun l => exact (rn_cw rn) width l \/ exists n, l = txt "Record " ++ dec n) (concat boxes)).
    { clear Hne. induction Hreg as [|r rs Hr _ IH]; [exists []; split; [constructor|split; [reflexivity|constructor]]|].
      cbn [flat_map] in HP. rewrite !within_app in HP. destruct HP as ((_ & HP1) & HP2).
      destruct (IH HP2) as (boxes & I1 & I2 & I3).
      destruct (key_value_shown rn P (narrow_rows rn r) width Hp Hw HP1) as (lines & B & E & F).
      exists (((txt "Record " ++ dec (ro_index r)) :: lines) :: boxes). split.
      - constructor; [|exact I1]. exists (reading rn r), (record_hex r), lines.
        split; [apply reading_shown; exact Hr|]. split; [apply bytes_shown|]. split; [exact B|reflexivity].
      - cbn [flat_map concat]. split; [rewrite I2, E, line_unlines, <- !unlines_app; reflexivity|].
        apply Forall_app. split; [|exact I3]. constructor; [right; eexists; reflexivity|apply some_exact; exact F]. }
    destruct G as (boxes & G1 & G2 & G3). exists (concat boxes). split; [apply RsNarrow; [exact Hne|lia|exact G1]|].
    split; [exact G2|exact G3].
Qed.

Lemma diagnostics_table_shown rn P diagnostics width : plain_widths (rn_cw rn) (rn_sw rn) P -> ascii_widths (rn_cw rn) -> 32 <= width ->
  within P (diagnostics_table rn diagnostics width) ->
  exists lines, diagnostics_shown (rn_cw rn) width diagnostics lines /\
    diagnostics_table rn diagnostics width = unlines lines /\ Forall (exact (rn_cw rn) width) lines.
Proof.
  intros Hp Ha Hw HP. destruct diagnostics as [|g0 rest]; [exists []; split; [apply DsNone; reflexivity|split; [reflexivity|constructor]]|].
  cbn [diagnostics_table] in *. apply within_app in HP. destruct HP as [_ HP].
  destruct (key_value_shown rn P _ width Hp Hw HP) as (lines & B & E & F).
  exists (txt "Diagnostics" :: lines). split; [apply DsSome; [discriminate|exact B]|]. split.
  - rewrite E, line_unlines, <- unlines_app. reflexivity.
  - constructor; [|exact F]. split; [vm_compute; intuition discriminate|].
    unfold display, txt. cbn. rewrite !Ha by (cbn; lia). lia.
Qed.

Lemma unlines_joined l ls : join [10] (l :: ls) ++ [10] = unlines (l :: ls).
Proof.
  revert l. induction ls as [|m ls IH]; intros l; [cbn; rewrite app_nil_r; reflexivity|].
  change (join [10] (l :: m :: ls)) with (l ++ [10] ++ join [10] (m :: ls)). rewrite <- !app_assoc, IH.
  unfold unlines. cbn [map concat]. rewrite <- !app_assoc. reflexivity.
Qed.

Lemma wrapped_some cw value width : 0 < width -> exists l ls, wrap_display cw value width = l :: ls.
Proof.
  intros H. destruct (wrap_display_ok cw value width H) as (ps & gs & N & _ & _ & F2 & ->).
  destruct ps as [|p ps]; [congruence|]. inversion F2; subst. match goal with H : broken _ _ p ?y |- _ => destruct H as (Ny & _); destruct y; [congruence|] end.
  do 2 eexists. reflexivity.
Qed.

Lemma title_chars cw P value width : 0 < width -> within P (unlines (wrap_display cw value width)) -> within P value.
Proof.
  intros Hw HP. apply Forall_forall. intros c Hc. destruct (N.eq_dec c 10) as [->|Hn]; [left; reflexivity|].
  destruct (wrapped_chars cw value width c Hw Hc Hn) as (l & L1 & L2).
  unfold within in HP. rewrite Forall_forall in HP. apply HP. apply in_concat. exists (l ++ [10]).
  split; [apply in_map_iff; exists l; auto|apply in_or_app; left; exact L2].
Qed.

Lemma table_shown env rn data options P t : plain_widths (rn_cw rn) (rn_sw rn) P -> ascii_widths (rn_cw rn) ->
  render_bytes env rn data FTable options = Ok t -> Forall (fun c => c = 10 \/ P c) t ->
  exists d width title summary records diagnostics,
    decode_bytes env data (op_key options) (op_include_enrichment options) = Ok d /\
    width = (match op_table_width options with Some w => w | None => 100 end) /\ 32 <= width /\
    t = unlines (title ++ summary ++ records ++ diagnostics) /\
    laid_out (rn_cw rn) width (do_protocol d ++ txt " " ++ fo_kind (do_frame d) ++ txt " frame" ++ [32; 0xB7; 32] ++
      do_decode_state d ++ txt " decode") title /\
    field_box (rn_cw rn) width (frame_summary d) summary /\
    records_shown (rn_number rn) (rn_cw rn) width (do_records d) records /\
    diagnostics_shown (rn_cw rn) width (do_diagnostics d) diagnostics /\
    Forall (fun l => (~ In 10 l /\ display (rn_cw rn) l <= width) \/ exists n, l = txt "Record " ++ dec n)
      (title ++ summary ++ records ++ diagnostics).
Proof.
  intros Hp Ha H HP. unfold render_bytes in H. cbv zeta in H. bind_inv H.
  destruct (decode_bytes env data (op_key options) (op_include_enrichment options)) as [d| |] eqn:D; try discriminate.
  inversion Ha0; subst a. clear Ha0. set (width := match op_table_width options with Some w => w | None => 100 end) in *.
  unfold render_table in H. destruct (N.ltb_spec width 32) as [L|L]; [discriminate|]. cbv zeta in H.
  set (title := do_protocol d ++ _) in H. destruct (wrapped_some (rn_cw rn) title width ltac:(lia)) as (l & ls & El).
  rewrite El in H. rewrite (app_assoc (join _ _)), unlines_joined, <- El in H. apply Ok_inj in H. subst t. clear El l ls.
  fold (within P) in HP. change (within P (unlines (wrap_display (rn_cw rn) title width) ++ key_value_box rn (summary_rows d) width ++
    records_table rn (do_records d) width ++ diagnostics_table rn (do_diagnostics d) width)) in HP.
  rewrite !within_app in HP. destruct HP as (P1 & P2 & P3 & P4).
  destruct (key_value_shown rn P (summary_rows d) width Hp L P2) as (summary & S1 & S2 & S3).
  destruct (decoded_outs _ _ _ _ _ D) as (rs & Er).
  assert (Hreg : Forall (fun r => regular (ro_value r)) (do_records d)).
  { rewrite Er. apply Forall_forall. intros r Hr. apply In_nth_error in Hr. destruct Hr as (i & Hi).
    destruct (outs_nth _ _ _ _ Hi) as (x & ->). apply value_regular. }
  destruct (records_table_shown rn P (do_records d) width Hp L Hreg P3) as (records & R1 & R2 & R3).
  destruct (diagnostics_table_shown rn P (do_diagnostics d) width Hp Ha L P4) as (diagnostics & D1 & D2 & D3).
  exists d, width, (wrap_display (rn_cw rn) title width), summary, records, diagnostics.
  assert (Lt := wrap_display_ok (rn_cw rn) title width ltac:(lia)).
  split; [reflexivity|]. split; [reflexivity|]. split; [exact L|]. split; [rewrite S2, R2, D2, <- !unlines_app; reflexivity|].
  split; [exact Lt|]. split; [exact S1|]. split; [exact R1|]. split; [exact D1|].
  rewrite !Forall_app. split; [|split; [apply some_exact; exact S3|split; [exact R3|apply some_exact; exact D3]]].
  apply some_exact. eapply laid_out_lines; [exact Lt|eapply title_chars; [|exact P1]; lia|].
  intros c Pc. specialize (proj2 (proj2 Hp) c Pc). lia.
Qed.
