(** Lemmas about CSV text. *)
From Coq Require Import List NArith Bool Lia String.
Import ListNotations.
From Verif Require Import Model.Base Model.Text Model.Show Model.Escape Model.Csv Spec.EscapeSpec Spec.CsvSpec
  Proof.BaseFacts Proof.EscapeFacts.
Open Scope N_scope.
Open Scope list_scope.

(** *** What the writer writes *)
Lemma needs_quotes c : csv_needs_quotes c = true <-> separates c.
Proof.
  unfold csv_needs_quotes, separates. cbn [In]. rewrite !orb_true_iff, !N.eqb_eq. intuition.
Qed.

Lemma doubled_holds s : quoted_holds (flat_map (fun c => if c =? 34 then [34; 34] else [c]) s) s.
Proof.
  induction s as [|c s IH]; [constructor|]. cbn [flat_map]. destruct (N.eqb_spec c 34) as [->|Hc].
  - apply w_quote. exact IH.
  - apply w_char; assumption.
Qed.

Lemma cell_written s : cell_holds (csv_cell s) s.
Proof.
  unfold csv_cell. destruct (existsb csv_needs_quotes s) eqn:E.
  - apply c_quoted. apply doubled_holds.
  - apply c_bare. apply Forall_forall. intros c Hc Hs. apply needs_quotes in Hs.
    assert (existsb csv_needs_quotes s = true) by (apply existsb_exists; exists c; auto). congruence.
Qed.

Lemma joined_line cells : cells <> [] -> line_holds (join [44] (map csv_cell cells) ++ [10]) cells.
Proof.
  induction cells as [|s cells IH]; [congruence|]. intros _. destruct cells as [|s' cells].
  - cbn [map join]. apply l_last, cell_written.
  - change (join [44] (map csv_cell (s :: s' :: cells)))
      with (csv_cell s ++ [44] ++ join [44] (map csv_cell (s' :: cells))).
    rewrite <- !app_assoc. apply l_next; [apply cell_written|]. apply IH. discriminate.
Qed.

Lemma line_written cells : cells <> [] -> line_holds (csv_line cells) cells.
Proof.
  intros H. unfold csv_line. destruct cells as [|[|c s] [|s' cells]]; try (apply joined_line; exact H).
  change [34; 34; 10] with (([34] ++ [] ++ [34]) ++ [10]). apply l_last. apply c_quoted. constructor.
Qed.

Lemma file_written rows : Forall (fun row => row <> []) rows -> csv_file (concat (map csv_line rows)) rows.
Proof.
  induction 1 as [|row rows Hr H IH]; cbn [map concat]; constructor; [apply line_written; exact Hr|exact IH].
Qed.

(** *** Text is read in one way *)
Lemma quoted_one t s : quoted_holds t s -> forall t' s' r r', quoted_holds t' s' ->
  t ++ 34 :: r = t' ++ 34 :: r' -> hd 0 r <> 34 -> hd 0 r' <> 34 -> t = t' /\ s = s' /\ r = r'.
Proof.
  induction 1 as [|c t s Hc H IH|t s H IH]; intros t' s' r r' H' E Hr Hr'.
  - inversion H'; subst.
    + cbn in E. inversion E. auto.
    + cbn in E. inversion E. congruence.
    + cbn in E. inversion E. subst. cbn in Hr. congruence.
  - inversion H'; subst.
    + cbn in E. inversion E. congruence.
    + cbn [app] in E. inversion E; subst. destruct (IH _ _ _ _ H1 H4 Hr Hr') as (-> & -> & ->). auto.
    + cbn in E. inversion E. congruence.
  - inversion H'; subst.
    + cbn in E. inversion E. subst. cbn in Hr'. congruence.
    + cbn in E. inversion E. congruence.
    + cbn [app] in E. inversion E; subst. destruct (IH _ _ _ _ H0 H2 Hr Hr') as (-> & -> & ->). auto.
Qed.

Lemma bare_one s s' d d' r r' : Forall (fun c => ~ separates c) s -> Forall (fun c => ~ separates c) s' ->
  separates d -> separates d' -> s ++ d :: r = s' ++ d' :: r' -> s = s' /\ d :: r = d' :: r'.
Proof.
  intros H. revert s'. induction H as [|c s Hc H IH]; intros s' H' Hd Hd' E.
  - destruct H' as [|c' s' Hc' H']; [auto|]. cbn in E. inversion E. subst. contradiction.
  - destruct H' as [|c' s' Hc' H']; [cbn in E; inversion E; subst; contradiction|].
    cbn [app] in E. inversion E; subst. destruct (IH s' H' Hd Hd' H2) as (-> & ->). auto.
Qed.

Definition ends (d : N) : Prop := d = 44 \/ d = 10.

Lemma cell_one t s t' s' d d' r r' : cell_holds t s -> cell_holds t' s' -> ends d -> ends d' ->
  t ++ d :: r = t' ++ d' :: r' -> t = t' /\ s = s' /\ d = d' /\ r = r'.
Proof.
  intros H H' Hd Hd' E.
  assert (S1 : separates d) by (destruct Hd as [->| ->]; cbn; tauto).
  assert (S2 : separates d') by (destruct Hd' as [->| ->]; cbn; tauto).
  assert (Q : separates 34) by (cbn; tauto).
  inversion H as [u Hu|u v Hu]; inversion H' as [u' Hu'|u' v' Hu']; subst.
  - destruct (bare_one _ _ _ _ _ _ Hu Hu' S1 S2 E) as (-> & E'). inversion E'. auto.
  - exfalso. cbn [app] in E. destruct Hu as [|c u Hc Hu]; cbn [app] in E; inversion E; subst.
    + destruct Hd; discriminate.
    + contradiction.
  - exfalso. cbn [app] in E. destruct Hu' as [|c u' Hc Hu']; cbn [app] in E; inversion E; subst.
    + destruct Hd'; discriminate.
    + contradiction.
  - rewrite <- !app_assoc in E. cbn [app] in E. inversion E as [E'].
    destruct (quoted_one _ _ Hu _ _ _ _ Hu' E') as (-> & -> & E2).
    + cbn. destruct Hd as [->| ->]; discriminate.
    + cbn. destruct Hd' as [->| ->]; discriminate.
    + inversion E2. auto.
Qed.

Lemma line_one t row : line_holds t row -> forall t' row' r r', line_holds t' row' ->
  t ++ r = t' ++ r' -> t = t' /\ row = row' /\ r = r'.
Proof.
  assert (A : ends 44) by (left; reflexivity). assert (B : ends 10) by (right; reflexivity).
  induction 1 as [t s H|t s rest row H HL IH]; intros t' row' r r' H' E; inversion H' as [u v Hu|u v rest' row2 Hu HL']; subst.
  - rewrite <- !app_assoc in E. cbn [app] in E. destruct (cell_one _ _ _ _ _ _ _ _ H Hu B B E) as (-> & -> & _ & ->). auto.
  - rewrite <- !app_assoc in E. cbn [app] in E. destruct (cell_one _ _ _ _ _ _ _ _ H Hu B A E) as (_ & _ & C & _). discriminate.
  - rewrite <- !app_assoc in E. cbn [app] in E. destruct (cell_one _ _ _ _ _ _ _ _ H Hu A B E) as (_ & _ & C & _). discriminate.
  - rewrite <- !app_assoc in E. cbn [app] in E. destruct (cell_one _ _ _ _ _ _ _ _ H Hu A A E) as (-> & -> & _ & E').
    destruct (IH _ _ _ _ HL' E') as (-> & -> & ->). auto.
Qed.

Lemma line_nonempty t row : line_holds t row -> t <> [].
Proof. destruct 1; destruct t; discriminate. Qed.

Lemma file_one t rows : csv_file t rows -> forall rows', csv_file t rows' -> rows' = rows.
Proof.
  induction 1 as [|t row rest rows HL H IH]; intros rows' H'.
  - inversion H' as [|t row rest rows HL H E]; [reflexivity|]. exfalso. apply app_eq_nil in E as [-> _].
    exact (line_nonempty _ _ HL eq_refl).
  - inversion H' as [E|t' row' rest' rows2 HL' H2 E].
    + exfalso. symmetry in E. apply app_eq_nil in E as [-> _]. exact (line_nonempty _ _ HL eq_refl).
    + destruct (line_one _ _ HL' _ _ _ _ HL E) as (-> & -> & ->). f_equal. apply IH. exact H2.
Qed.

Lemma written_only rows : Forall (fun row => row <> []) rows -> reads_only (concat (map csv_line rows)) rows.
Proof. intros H. split; [exact (file_written _ H)|]. apply file_one. exact (file_written _ H). Qed.

Lemma two_lines a b : a <> [] -> b <> [] -> reads_only (csv_line a ++ csv_line b) [a; b].
Proof.
  intros Ha Hb. replace (csv_line a ++ csv_line b) with (concat (map csv_line [a; b])) by (cbn; rewrite app_nil_r; reflexivity).
  apply written_only. repeat constructor; assumption.
Qed.

(** *** The highlighted view *)
Lemma escape_escaped s : escaped html_entities html_forbidden (escape_html s) s.
Proof.
  induction s as [|c s IH]; [constructor|]. unfold escape_html in *. cbn [flat_map app]. unfold escape_html_char.
  destruct (N.eqb_spec c 38); [subst; apply esc_entity; [cbn; tauto|exact IH]|].
  destruct (N.eqb_spec c 60); [subst; apply esc_entity; [cbn; tauto|exact IH]|].
  destruct (N.eqb_spec c 62); [subst; apply esc_entity; [cbn; tauto|exact IH]|].
  destruct (N.eqb_spec c 34); [subst; apply esc_entity; [cbn; tauto|exact IH]|].
  destruct (N.eqb_spec c 39); [subst; apply esc_entity; [cbn; tauto|exact IH]|].
  cbn [app]. constructor; [|exact IH]. unfold html_forbidden; cbn; lia.
Qed.

Lemma field_span t n : csv_field t n = span_of (column_class n) (escape_html t).
Proof. unfold csv_field, span_of, column_class. rewrite quoted_class_open. reflexivity. Qed.
Lemma delimiter_span : csv_delimiter = comma.
Proof. reflexivity. Qed.

(** the loop goes through a cell and stops at the character behind it *)
Lemma loop_bare s : Forall (fun c => ~ separates c) s -> forall rest field column,
  csv_loop (s ++ rest) field column false = csv_loop rest (field ++ s) column false.
Proof.
  induction 1 as [|c s Hc H IH]; intros rest field column; [rewrite app_nil_r; reflexivity|].
  cbn [app csv_loop]. unfold separates in Hc. cbn [In] in Hc.
  destruct (N.eqb_spec c 34); [exfalso; apply Hc; auto|].
  destruct (N.eqb_spec c 44); [exfalso; apply Hc; auto|].
  destruct (N.eqb_spec c 13); [exfalso; apply Hc; auto|].
  destruct (N.eqb_spec c 10); [exfalso; apply Hc; auto 6|].
  cbn [andb]. rewrite IH, <- app_assoc. reflexivity.
Qed.

Lemma loop_quoted t s : quoted_holds t s -> forall d rest field column, ends d ->
  csv_loop (t ++ 34 :: d :: rest) field column true = csv_loop (d :: rest) (field ++ t ++ [34]) column false.
Proof.
  induction 1 as [|c t s Hc H IH|t s H IH]; intros d rest field column Hd.
  - cbn [app]. cbn [csv_loop]. destruct Hd as [->| ->]; reflexivity.
  - cbn [app csv_loop]. destruct (N.eqb_spec c 34); [contradiction|]. rewrite !andb_false_r.
    rewrite IH by exact Hd. rewrite <- app_assoc. reflexivity.
  - cbn [app]. cbn [csv_loop]. cbn [N.eqb Pos.eqb]. rewrite IH by exact Hd. rewrite <- app_assoc. reflexivity.
Qed.

Lemma loop_cell t s d rest column : cell_holds t s -> ends d ->
  csv_loop (t ++ d :: rest) [] column false = csv_loop (d :: rest) t column false.
Proof.
  intros [u Hu|u v Hu] Hd.
  - apply (loop_bare u Hu (d :: rest) []).
  - rewrite <- !app_assoc. cbn [app]. cbn [csv_loop]. cbn [N.eqb Pos.eqb].
    transitivity (csv_loop (u ++ 34 :: d :: rest) [34] column true).
    + destruct (u ++ 34 :: d :: rest); reflexivity.
    + rewrite (loop_quoted u v Hu) by exact Hd. reflexivity.
Qed.

Lemma loop_line t row : line_holds t row -> forall column rest, exists h,
  shown_line column t row h /\ csv_loop (t ++ rest) [] column false = h ++ csv_loop rest [] 0 false.
Proof.
  induction 1 as [t s H|t s l row H HL IH]; intros column rest.
  - eexists. split; [apply s_last; [exact H|apply escape_escaped]|].
    rewrite <- !app_assoc. cbn [app]. rewrite (loop_cell t s) by (try exact H; right; reflexivity).
    cbn [csv_loop]. cbn [N.eqb Pos.eqb andb negb]. rewrite field_span. reflexivity.
  - destruct (IH (column + 1) rest) as (h & Hh & E). eexists. split; [apply s_next; [exact H|apply escape_escaped|exact Hh]|].
    rewrite <- !app_assoc. cbn [app]. rewrite (loop_cell t s) by (try exact H; left; reflexivity).
    cbn [csv_loop]. cbn [N.eqb Pos.eqb andb negb]. rewrite field_span, delimiter_span, E, <- ?app_assoc. reflexivity.
Qed.

Lemma loop_file t rows : csv_file t rows -> exists h,
  shown_file t rows h /\ csv_loop t [] 0 false = h ++ span_of (column_class 0) [].
Proof.
  induction 1 as [|t row rest rows HL H (h' & IH & E)].
  - exists []. split; [constructor|]. cbn [csv_loop]. apply field_span.
  - destruct (loop_line t row HL 0 rest) as (h & Hh & E'). exists (h ++ h'). split; [constructor; assumption|].
    rewrite E', E, app_assoc. reflexivity.
Qed.

Lemma highlighted t rows : csv_file t rows -> exists h, shown_file t rows h /\
  highlight_csv t = span_of (txt "syn-source syn-csv") (h ++ span_of (column_class 0) []).
Proof.
  intros H. destruct (loop_file t rows H) as (h & Hh & E). exists h. split; [exact Hh|].
  unfold highlight_csv, span_of at 1. rewrite quoted_class_open, E. reflexivity.
Qed.
