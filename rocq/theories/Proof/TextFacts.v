(** Lemmas about text. *)
From Coq Require Import Lia ZArith String.
From Verif Require Import Model.Base Model.Text Spec.TextSpec Proof.BaseFacts.

Lemma text_eqb_ok a b : text_eqb a b = true <-> a = b.
Proof.
  revert b; induction a as [|x a IH]; intros [|y b]; cbn; split; intros H; try discriminate; try reflexivity.
  - apply andb_true_iff in H. destruct H as [H1 H2]. apply N.eqb_eq in H1. apply IH in H2. congruence.
  - inversion H; subst. rewrite N.eqb_refl. apply IH. reflexivity.
Qed.

Lemma text_len_app a b : text_len (a ++ b) = text_len a + text_len b.
Proof. induction a; [reflexivity|]. cbn [app text_len fold_right]. unfold text_len in IHa. rewrite IHa. unfold text_len. lia. Qed.

Lemma text_len_ascii s : Forall (fun c => c < 128) s -> text_len s = len s.
Proof.
  induction 1 as [|c s H _ IH]; [reflexivity|].
  cbn [text_len fold_right]. unfold text_len in IH. rewrite IH, len_cons. unfold utf8_len.
  apply N.ltb_lt in H. rewrite H. lia.
Qed.

Lemma utf8_len_pos c : 1 <= utf8_len c.
Proof. unfold utf8_len. destruct (c <? 0x80), (c <? 0x800), (c <? 0x10000); lia. Qed.

Lemma text_len_ge s : len s <= text_len s.
Proof.
  induction s as [|c s IH]; [cbn; lia|]. rewrite len_cons. cbn [text_len fold_right].
  unfold text_len in IH. pose proof (utf8_len_pos c). lia.
Qed.

(** white space *)
Ltac bool_lia := rewrite ?orb_true_iff, ?andb_true_iff, ?orb_false_iff, ?andb_false_iff, ?N.eqb_eq, ?N.eqb_neq,
  ?N.leb_le, ?N.leb_gt, ?N.ltb_lt, ?N.ltb_ge in *; lia.

Lemma white_ok c : is_whitespace c = true <-> white c.
Proof.
  unfold white. cbn [seq map app In N.of_nat]. unfold is_whitespace.
  rewrite ?orb_true_iff, ?andb_true_iff, ?N.eqb_eq, ?N.leb_le.
  split; [|intuition (subst; cbn; lia)].
  intros H.
  repeat match goal with K : _ \/ _ |- _ => destruct K as [K|K] end; try (subst; cbn; tauto).
  - assert (E : c = 9 \/ c = 10 \/ c = 11 \/ c = 12 \/ c = 13) by lia.
    intuition (subst; cbn; tauto).
  - assert (E : c = 0x2000 \/ c = 0x2001 \/ c = 0x2002 \/ c = 0x2003 \/ c = 0x2004 \/ c = 0x2005 \/ c = 0x2006 \/
      c = 0x2007 \/ c = 0x2008 \/ c = 0x2009 \/ c = 0x200A) by lia.
    repeat (destruct E as [E|E]; [subst; cbn; tauto|]). subst; cbn; tauto.
Qed.

Lemma trim_start_split p s : exists l, s = l ++ trim_start p s /\ Forall (fun c => p c = true) l.
Proof.
  induction s as [|c s [l [E H]]]; [exists []; auto|]. cbn [trim_start].
  destruct (p c) eqn:P; [|exists []; auto].
  exists (c :: l). cbn. rewrite <- E. auto.
Qed.

Lemma trim_start_head p s : forall c s', trim_start p s = c :: s' -> p c = false.
Proof.
  induction s as [|c s IH]; cbn [trim_start]; intros c' s' H; [discriminate|].
  destruct (p c) eqn:P; [eauto|]. inversion H; subst. assumption.
Qed.

Lemma trim_start_app p l s : Forall (fun c => p c = true) l -> trim_start p (l ++ s) = trim_start p s.
Proof. induction 1; [reflexivity|]. cbn. rewrite H. assumption. Qed.

Lemma trim_start_id p s : (forall c s', s = c :: s' -> p c = false) -> trim_start p s = s.
Proof. destruct s as [|c s]; [reflexivity|]. intros H. cbn. rewrite (H c s eq_refl). reflexivity. Qed.

Lemma trim_end_split p s : exists r, s = trim_end p s ++ r /\ Forall (fun c => p c = true) r.
Proof.
  unfold trim_end. destruct (trim_start_split p (rev s)) as [l [E H]].
  exists (rev l). split.
  - rewrite <- rev_app_distr, <- E, rev_involutive. reflexivity.
  - apply Forall_rev. assumption.
Qed.

Lemma trim_end_last p s : forall c m, trim_end p s = m ++ [c] -> p c = false.
Proof.
  unfold trim_end. intros c m H. apply (f_equal (@rev N)) in H. rewrite rev_involutive, rev_app_distr in H.
  cbn in H. exact (trim_start_head _ _ _ _ H).
Qed.

Lemma trim_end_app p s r : Forall (fun c => p c = true) r -> trim_end p (s ++ r) = trim_end p s.
Proof. intros H. unfold trim_end. rewrite rev_app_distr, trim_start_app; [reflexivity|]. apply Forall_rev; assumption. Qed.

Lemma trim_end_id p s : (forall c m, s = m ++ [c] -> p c = false) -> trim_end p s = s.
Proof.
  intros H. unfold trim_end. rewrite trim_start_id; [apply rev_involutive|].
  intros c s' E. apply (H c (rev s')). rewrite <- (rev_involutive s), E. reflexivity.
Qed.

Lemma Forall_white l : Forall white l <-> Forall (fun c => is_whitespace c = true) l.
Proof. split; apply Forall_impl; intros c; apply white_ok. Qed.

Lemma not_white c : ~ white c <-> is_whitespace c = false.
Proof. rewrite <- white_ok. destruct (is_whitespace c); split; congruence. Qed.

Lemma trim_stripped input : stripped input (trim input).
Proof.
  unfold trim. destruct (trim_start_split is_whitespace input) as [l [El Hl]].
  remember (trim_start is_whitespace input) as s eqn:Es.
  destruct (trim_end_split is_whitespace s) as [r [Er Hr]].
  exists l, r. rewrite <- Er, <- El. split; [reflexivity|]. split; [apply Forall_white; assumption|].
  split; [apply Forall_white; assumption|]. split.
  - intros c Hc. apply not_white. destruct (trim_end is_whitespace s) as [|c' t] eqn:Et; [discriminate|].
    cbn in Hc. inversion Hc; subst c'. cbn in Er.
    apply (trim_start_head is_whitespace input c (t ++ r)). rewrite <- Es. exact Er.
  - intros c m E. apply not_white. exact (trim_end_last _ _ _ _ E).
Qed.

Lemma trim_around l core r : Forall white l -> Forall white r -> trim (l ++ core ++ r) = trim core.
Proof.
  intros Hl Hr. apply Forall_white in Hl, Hr. unfold trim. rewrite trim_start_app by assumption.
  destruct (trim_start_split is_whitespace core) as [l' [E Hl']].
  destruct (trim_start is_whitespace core) as [|c s] eqn:Es.
  - rewrite app_nil_r in E. subst core. rewrite trim_start_app by assumption.
    rewrite <- (app_nil_r r). rewrite trim_start_app by assumption. reflexivity.
  - assert (Hs : trim_start is_whitespace (core ++ r) = (c :: s) ++ r).
    { rewrite E, <- app_assoc, trim_start_app by assumption. apply trim_start_id.
      intros c' s' Ec. inversion Ec; subst. exact (trim_start_head _ _ _ _ Es). }
    rewrite Hs, trim_end_app by assumption. reflexivity.
Qed.

Lemma trim_id s : (forall c, In c s -> is_whitespace c = false) -> trim s = s.
Proof.
  intros H. unfold trim. rewrite trim_start_id.
  - apply trim_end_id. intros c m ->. apply H. apply in_or_app. right; left; reflexivity.
  - intros c s' ->. apply H. left; reflexivity.
Qed.

(** the trimmed text is the only one between white space that begins and ends otherwise *)
Lemma stripped_trim input core : stripped input core -> trim input = core.
Proof.
  intros (l & r & -> & Hl & Hr & H1 & H2). rewrite trim_around by assumption.
  unfold trim. rewrite trim_start_id.
  - apply trim_end_id. intros c m E. apply not_white. exact (H2 c m E).
  - intros c s' E. apply not_white. apply H1. rewrite E. reflexivity.
Qed.
