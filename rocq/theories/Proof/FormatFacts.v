(** Lemmas about output format names. *)
From Coq Require Import Lia String.
From Verif Require Import Model.Base Model.Text Model.Format Spec.TextSpec Spec.FormatSpec Proof.BaseFacts Proof.TextFacts.

Definition lower_word (w : text) : bool := forallb (fun c => negb ((65 <=? c) && (c <=? 90))) w.

Lemma spells_lower s w : lower_word w = true -> spells_word s w <-> to_ascii_lowercase s = w.
Proof.
  revert w; induction s as [|c s IH]; intros w Hw.
  - destruct w; split; intros H; try reflexivity; try discriminate; [constructor|inversion H].
  - destruct w as [|x w]; [split; intros H; [inversion H|discriminate]|].
    cbn [lower_word forallb] in Hw. apply andb_true_iff in Hw. destruct Hw as [Hx Hw].
    apply negb_true_iff, andb_false_iff in Hx. rewrite !N.leb_gt in Hx.
    specialize (IH w Hw). cbn [to_ascii_lowercase map]. unfold ascii_lower at 1. split; intros H.
    + inversion H as [|? ? ? ? Hc Hs]; subst. apply IH in Hs. unfold to_ascii_lowercase in Hs. rewrite Hs. f_equal.
      destruct ((65 <=? c) && (c <=? 90)) eqn:E.
      * apply andb_true_iff in E. rewrite !N.leb_le in E. lia.
      * apply andb_false_iff in E. rewrite !N.leb_gt in E. lia.
    + inversion H as [[Hc Hs]]. constructor; [|rewrite ?Hs; apply IH; exact Hs].
      destruct ((65 <=? c) && (c <=? 90)) eqn:E; [|left; reflexivity].
      apply andb_true_iff in E. rewrite !N.leb_le in E. right. lia.
Qed.

Lemma names_lower n f : In (n, f) format_names -> lower_word (txt n) = true.
Proof. cbn [In format_names]. intros H. repeat (destruct H as [H|H]; [inversion H; subst; reflexivity|]). contradiction. Qed.

Lemma from_str_names v f : format_from_str v = Ok f <->
  exists n, In (n, f) format_names /\ to_ascii_lowercase (trim v) = txt n.
Proof.
  unfold format_from_str. cbv zeta. remember (to_ascii_lowercase (trim v)) as w eqn:Ew. clear Ew.
  split.
  - intros H.
    repeat match type of H with
    | (if ?b then _ else _) = _ => destruct b eqn:?
    end; inversion H; subst f;
    repeat match goal with K : _ || _ = true |- _ => apply orb_true_iff in K; destruct K as [K|K] end;
    match goal with K : text_eqb w (txt ?n) = true |- _ => apply text_eqb_ok in K; exists n; split; [cbn; tauto|exact K] end.
  - intros (n & Hin & E). subst w. cbn [In format_names] in Hin.
    repeat (destruct Hin as [Hin|Hin]; [inversion Hin; subst; reflexivity|]). contradiction.
Qed.

Lemma format_exact v f core : stripped v core ->
  format_from_str v = Ok f <-> exists n, In (n, f) format_names /\ spells_word core (txt n).
Proof.
  intros S. rewrite from_str_names, (stripped_trim _ _ S). split; intros (n & Hin & H); exists n; split; try assumption.
  - apply spells_lower; [exact (names_lower _ _ Hin)|exact H].
  - apply (spells_lower core (txt n)); [exact (names_lower _ _ Hin)|exact H].
Qed.

Lemma format_error v e : format_from_str v = Err e -> e = v.
Proof.
  unfold format_from_str. cbv zeta. intros H.
  repeat match type of H with (if ?b then _ else _) = _ => destruct b end; inversion H; reflexivity.
Qed.

Lemma format_round_trip f : format_from_str (format_name f) = Ok f.
Proof. destruct f; reflexivity. Qed.

Lemma format_total v : ~ is_panic (format_from_str v).
Proof.
  intros [p H]. unfold format_from_str in H. cbv zeta in H.
  repeat match type of H with (if ?b then _ else _) = _ => destruct b end; discriminate.
Qed.
