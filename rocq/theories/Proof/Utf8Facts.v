(** Facts about reading UTF-8. *)
From Coq Require Import String List NArith ZArith Lia Bool.
Import ListNotations.
From Verif Require Import Model.Base Model.Text Model.Show Model.Rscada Spec.DetailSpec Proof.BaseFacts.
Open Scope N_scope.

(** the parts of a character *)
Lemma divided c k : k <> 0 -> exists q r, c / k = q /\ c mod k = r /\ c = k * q + r /\ r < k.
Proof. intros K. exists (c / k), (c mod k). repeat split; [apply N.div_mod, K|apply N.mod_lt, K]. Qed.
Lemma two_parts c : exists q r, c / 64 = q /\ c mod 64 = r /\ c = 64 * q + r /\ r < 64.
Proof. now apply divided. Qed.
Lemma three_parts c : exists p q r, c / 4096 = p /\ c / 64 mod 64 = q /\ c mod 64 = r /\ c = 4096 * p + 64 * q + r /\ q < 64 /\ r < 64.
Proof.
  destruct (two_parts c) as (x & r & E1 & E2 & E3 & L). destruct (two_parts x) as (p & q & F1 & F2 & F3 & L2).
  exists p, q, r. rewrite E1. repeat split; try assumption; [|lia].
  change 4096 with (64 * 64). rewrite <- N.div_div by discriminate. now rewrite E1.
Qed.
Lemma four_parts c : exists o p q r, c / 262144 = o /\ c / 4096 mod 64 = p /\ c / 64 mod 64 = q /\ c mod 64 = r /\
  c = 262144 * o + 4096 * p + 64 * q + r /\ p < 64 /\ q < 64 /\ r < 64.
Proof.
  destruct (three_parts c) as (x & q & r & E1 & E2 & E3 & E4 & L1 & L2). destruct (two_parts x) as (o & p & F1 & F2 & F3 & L3).
  exists o, p, q, r. rewrite E1. repeat split; try assumption; [|lia].
  change 262144 with (4096 * 64). rewrite <- N.div_div by discriminate. now rewrite E1.
Qed.
Lemma div_is c k q r : r < k -> c = k * q + r -> c / k = q.
Proof. intros L E. symmetry. eapply N.div_unique; eassumption. Qed.
Lemma mod_is c k q r : r < k -> c = k * q + r -> c mod k = r.
Proof. intros L E. symmetry. eapply N.mod_unique; eassumption. Qed.

Ltac decide_one :=
  match goal with
  | |- context [?a <? ?b] => destruct (N.ltb_spec a b); try lia
  | |- context [?a <=? ?b] => destruct (N.leb_spec a b); try lia
  | |- context [?a =? ?b] => destruct (N.eqb_spec a b); try lia
  end.
Ltac decide_all := repeat (decide_one; cbn [andb orb negb]).

Lemma from_utf8_char c s : scalar c -> from_utf8 (utf8_char c ++ s) = option_map (cons c) (from_utf8 s).
Proof.
  intros S. unfold scalar in S. unfold utf8_char.
  destruct (N.ltb_spec c 0x80) as [L1|L1].
  { cbn [app from_utf8]. rewrite (proj2 (N.ltb_lt _ _) L1). now destruct (from_utf8 s). }
  destruct (N.ltb_spec c 0x800) as [L2|L2].
  { destruct (two_parts c) as (q & r & -> & -> & E & L). cbn [app from_utf8]. unfold continuation.
    decide_all. replace ((0xC0 + q - 0xC0) * 64 + (0x80 + r - 0x80)) with c by lia. now destruct (from_utf8 s). }
  destruct (N.ltb_spec c 0x10000) as [L3|L3].
  { destruct (three_parts c) as (p & q & r & -> & -> & -> & E & L & L'). cbn [app from_utf8]. unfold continuation.
    decide_all; replace ((0xE0 + p - 0xE0) * 4096 + (0x80 + q - 0x80) * 64 + (0x80 + r - 0x80)) with c by lia; now destruct (from_utf8 s). }
  destruct (four_parts c) as (o & p & q & r & -> & -> & -> & -> & E & La & Lb & Lc). cbn [app from_utf8]. unfold continuation.
  decide_all;
    replace ((0xF0 + o - 0xF0) * 262144 + (0x80 + p - 0x80) * 4096 + (0x80 + q - 0x80) * 64 + (0x80 + r - 0x80)) with c by lia;
    now destruct (from_utf8 s).
Qed.

Lemma from_utf8_all t : Forall scalar t -> from_utf8 (flat_map utf8_char t) = Some t.
Proof.
  induction 1 as [|c t S _ IH]; [reflexivity|]. cbn [flat_map]. rewrite from_utf8_char by exact S. now rewrite IH.
Qed.

Lemma two_bytes a b : 0xC2 <= a <= 0xDF -> 0x80 <= b <= 0xBF ->
  scalar ((a - 0xC0) * 64 + (b - 0x80)) /\ utf8_char ((a - 0xC0) * 64 + (b - 0x80)) = [a; b].
Proof.
  intros A B. set (c := (a - 0xC0) * 64 + (b - 0x80)). split; [unfold scalar; lia|]. unfold utf8_char.
  decide_all. rewrite (div_is c 64 (a - 0xC0) (b - 0x80)), (mod_is c 64 (a - 0xC0) (b - 0x80)) by lia.
  f_equal; [lia|]. f_equal. lia.
Qed.
Lemma three_bytes a b d : 0xE0 <= a <= 0xEF -> 0x80 <= b <= 0xBF -> 0x80 <= d <= 0xBF -> (a = 0xE0 -> 0xA0 <= b) -> (a = 0xED -> b <= 0x9F) ->
  scalar ((a - 0xE0) * 4096 + (b - 0x80) * 64 + (d - 0x80)) /\
  utf8_char ((a - 0xE0) * 4096 + (b - 0x80) * 64 + (d - 0x80)) = [a; b; d].
Proof.
  intros A B D X Y. set (c := (a - 0xE0) * 4096 + (b - 0x80) * 64 + (d - 0x80)). split; [unfold scalar; lia|]. unfold utf8_char.
  decide_all. rewrite (div_is c 4096 (a - 0xE0) ((b - 0x80) * 64 + (d - 0x80))), (mod_is c 64 ((a - 0xE0) * 64 + (b - 0x80)) (d - 0x80)),
    (div_is c 64 ((a - 0xE0) * 64 + (b - 0x80)) (d - 0x80)), (mod_is _ 64 (a - 0xE0) (b - 0x80)) by lia.
  f_equal; [lia|]. f_equal; [lia|]. f_equal. lia.
Qed.
Lemma four_bytes a b d e : 0xF0 <= a <= 0xF4 -> 0x80 <= b <= 0xBF -> 0x80 <= d <= 0xBF -> 0x80 <= e <= 0xBF ->
  (a = 0xF0 -> 0x90 <= b) -> (a = 0xF4 -> b <= 0x8F) ->
  scalar ((a - 0xF0) * 262144 + (b - 0x80) * 4096 + (d - 0x80) * 64 + (e - 0x80)) /\
  utf8_char ((a - 0xF0) * 262144 + (b - 0x80) * 4096 + (d - 0x80) * 64 + (e - 0x80)) = [a; b; d; e].
Proof.
  intros A B D E X Y. set (c := (a - 0xF0) * 262144 + (b - 0x80) * 4096 + (d - 0x80) * 64 + (e - 0x80)). split; [unfold scalar; lia|]. unfold utf8_char.
  decide_all. rewrite (div_is c 262144 (a - 0xF0) ((b - 0x80) * 4096 + (d - 0x80) * 64 + (e - 0x80))),
    (div_is c 4096 ((a - 0xF0) * 64 + (b - 0x80)) ((d - 0x80) * 64 + (e - 0x80))),
    (div_is c 64 (((a - 0xF0) * 64 + (b - 0x80)) * 64 + (d - 0x80)) (e - 0x80)),
    (mod_is c 64 (((a - 0xF0) * 64 + (b - 0x80)) * 64 + (d - 0x80)) (e - 0x80)),
    (mod_is (((a - 0xF0) * 64 + (b - 0x80)) * 64 + (d - 0x80)) 64 ((a - 0xF0) * 64 + (b - 0x80)) (d - 0x80)),
    (mod_is ((a - 0xF0) * 64 + (b - 0x80)) 64 (a - 0xF0) (b - 0x80)) by lia.
  f_equal; [lia|]. f_equal; [lia|]. f_equal; [lia|]. f_equal. lia.
Qed.

Lemma utf8_cons c t pre s : scalar c /\ utf8_char c = pre -> utf8 t s -> utf8 (c :: t) (pre ++ s).
Proof. intros [S E] [F ->]. split; [now constructor|]. cbn [flat_map]. now rewrite E. Qed.

Lemma from_utf8_sound n : forall s t, (length s <= n)%nat -> from_utf8 s = Some t -> utf8 t s.
Proof.
  induction n as [|n IH]; intros s t L H.
  - destruct s; [|cbn in L; lia]. injection H as <-. split; [constructor|reflexivity].
  - destruct s as [|a s1]; [injection H as <-; split; [constructor|reflexivity]|]. cbn [length] in L. cbn [from_utf8] in H.
    destruct (N.ltb_spec a 0x80) as [La|La].
    { destruct (from_utf8 s1) as [t1|] eqn:E; [|discriminate H]. injection H as <-.
      apply (utf8_cons a t1 [a]); [|apply IH; [lia|exact E]]. split; [left; lia|]. unfold utf8_char. now rewrite (proj2 (N.ltb_lt _ _) La). }
    destruct s1 as [|b s2]; [discriminate H|]. cbn [length] in L. unfold continuation in H.
    destruct ((0xC2 <=? a) && (a <=? 0xDF)) eqn:K.
    { destruct ((0x80 <=? b) && (b <=? 0xBF)) eqn:Kb; [|discriminate H].
      apply andb_true_iff in K, Kb. rewrite !N.leb_le in K, Kb. destruct (from_utf8 s2) as [t1|] eqn:E; [|discriminate H]. injection H as <-.
      apply (utf8_cons _ t1 [a; b]); [now apply two_bytes|apply IH; [lia|exact E]]. }
    destruct s2 as [|d s3]; [discriminate H|]. cbn [length] in L.
    destruct ((0xE0 <=? a) && (a <=? 0xEF)) eqn:K3.
    { match type of H with (if ?g then _ else _) = _ => destruct g eqn:G; [|discriminate H] end.
      destruct (from_utf8 s3) as [t1|] eqn:E; [|discriminate H]. injection H as <-.
      rewrite !andb_true_iff, !orb_true_iff, !negb_true_iff, !N.leb_le, !N.eqb_neq in G. apply andb_true_iff in K3. rewrite !N.leb_le in K3.
      apply (utf8_cons _ t1 [a; b; d]); [apply three_bytes; lia|apply IH; [lia|exact E]]. }
    destruct s3 as [|e s4]; [discriminate H|]. cbn [length] in L.
    match type of H with (if ?g then _ else _) = _ => destruct g eqn:G; [|discriminate H] end.
    destruct (from_utf8 s4) as [t1|] eqn:E; [|discriminate H]. injection H as <-.
    rewrite !andb_true_iff, !orb_true_iff, !negb_true_iff, !N.leb_le, !N.eqb_neq in G.
    apply (utf8_cons _ t1 [a; b; d; e]); [apply four_bytes; lia|apply IH; [lia|exact E]].
Qed.
Lemma from_utf8_iff s t : from_utf8 s = Some t <-> utf8 t s.
Proof.
  split; [apply (from_utf8_sound (length s)); reflexivity|]. intros [F ->]. now apply from_utf8_all.
Qed.
Lemma decode_text_reads body : reads_text body (decode_text_unit body).
Proof.
  unfold reads_text, decode_text_unit. destruct (from_utf8 (rev body)) as [t|] eqn:E.
  - left. now apply from_utf8_iff.
  - right. split; [|reflexivity]. intros t K. apply from_utf8_iff in K. congruence.
Qed.
Lemma reads_text_det body t t' : reads_text body t -> reads_text body t' -> t = t'.
Proof.
  intros [H|[H ->]] [K|[K ->]]; try reflexivity.
  - apply from_utf8_iff in H, K. congruence.
  - now apply K in H.
  - now apply H in K.
Qed.

(** *** leaving out what cannot be read *)
Lemma lossy_char c s : scalar c -> from_utf8_lossy (utf8_char c ++ s) = c :: from_utf8_lossy s.
Proof.
  intros S. unfold scalar in S. unfold utf8_char.
  destruct (N.ltb_spec c 0x80) as [L1|L1].
  { cbn [app from_utf8_lossy]. now rewrite (proj2 (N.ltb_lt _ _) L1). }
  destruct (N.ltb_spec c 0x800) as [L2|L2].
  { destruct (two_parts c) as (q & r & -> & -> & E & L). cbn [app from_utf8_lossy]. unfold continuation.
    decide_all; f_equal; lia. }
  destruct (N.ltb_spec c 0x10000) as [L3|L3].
  { destruct (three_parts c) as (p & q & r & -> & -> & -> & E & L & L'). cbn [app from_utf8_lossy]. unfold continuation.
    decide_all; f_equal; lia. }
  destruct (four_parts c) as (o & p & q & r & -> & -> & -> & -> & E & La & Lb & Lc). cbn [app from_utf8_lossy]. unfold continuation.
  decide_all; f_equal; lia.
Qed.
Lemma lossy_all t s : utf8 t s -> from_utf8_lossy s = t.
Proof.
  intros [F ->]. induction F as [|c t S _ IH]; [reflexivity|]. cbn [flat_map]. rewrite lossy_char by exact S. now rewrite IH.
Qed.
