(** The product names in the XML are those of the table. *)
From Coq Require Import List NArith Lia Bool String.
Import ListNotations.
From Verif Require Import Model.Base Model.Text Model.Rscada Spec.EscapeSpec Spec.ProductSpec Proof.BaseFacts Proof.TextFacts.
Open Scope N_scope.
Open Scope list_scope.

(** the rules of a manufacturer *)
Fixpoint rules_of (maker : text) (l : list (text * list (product_rule * text))) : option (list (product_rule * text)) :=
  match l with [] => None | (k, x) :: rest => if text_eqb k maker then Some x else rules_of maker rest end.
Lemma text_eqb_refl t : text_eqb t t = true.
Proof. apply text_eqb_ok. reflexivity. Qed.
Lemma rules_none maker l : rules_of maker l = None -> forall x, ~ In (maker, x) l.
Proof.
  induction l as [|[k y] l IH]; intros H x Hin; [exact Hin|]. cbn [rules_of] in H. destruct Hin as [E|Hin].
  - injection E as -> ->. rewrite text_eqb_refl in H. discriminate H.
  - destruct (text_eqb k maker); [discriminate H|exact (IH H x Hin)].
Qed.
Lemma rules_some maker l x : NoDup (map fst l) -> rules_of maker l = Some x -> forall y, In (maker, y) l <-> y = x.
Proof.
  induction l as [|[k z] l IH]; intros D H y; [discriminate H|]. inversion D as [|? ? Nk D']; subst. cbn [rules_of] in H.
  destruct (text_eqb k maker) eqn:E.
  - apply text_eqb_ok in E. subst k. injection H as ->. split; [|intros ->; now left]. intros [K|K]; [congruence|].
    exfalso. apply Nk. change maker with (fst (maker, y)). now apply in_map.
  - rewrite <- (IH D' H y). split; [|intros K; now right]. intros [K|K]; [|exact K]. injection K as -> ->. rewrite text_eqb_refl in E. discriminate E.
Qed.
Lemma makers_nodup : NoDup (map fst products).
Proof.
  vm_compute. repeat (constructor; [cbn; intros K; repeat (destruct K as [K|K]; [discriminate K|]); exact K|]). constructor.
Qed.
Lemma product_rules maker v d n name rules : rules_of maker products = Some rules ->
  (product maker v d n name <-> exists r, In (r, name) rules /\ rule_fits r v d n).
Proof.
  intros H. unfold product. split.
  - intros (rs & r & H1 & H2 & H3). apply (rules_some _ _ _ makers_nodup H) in H1. subst rs. eauto.
  - intros (r & H2 & H3). exists rules, r. split; [|now split]. now apply (rules_some _ _ _ makers_nodup H).
Qed.
Lemma product_of_rules maker v d n t rules : rules_of maker products = Some rules ->
  (exists r, In (r, t) rules /\ rule_fits r v d n) \/ (t = [] /\ Forall (fun x => ~ rule_fits (fst x) v d n) rules) ->
  product_text maker v d n t.
Proof.
  intros H [K|[E K]]; [left|right].
  - now apply (product_rules _ _ _ _ _ _ H).
  - split; [exact E|]. intros name P. apply (product_rules _ _ _ _ _ _ H) in P as (r & Hin & Hf).
    rewrite Forall_forall in K. exact (K _ Hin Hf).
Qed.
Lemma msb_digits n : n < 100000000 ->
  exists a b, a < 10 /\ b < 10 /\ n / 1000000 = 10 * a + b /\ N.lor (N.shiftl ((n / 10000000) mod 10) 4) ((n / 1000000) mod 10) = 16 * a + b.
Proof.
  intros H. exists (n / 10000000), ((n / 1000000) mod 10).
  assert (A : n / 10000000 < 10) by (apply N.div_lt_upper_bound; lia).
  assert (Bm : (n / 1000000) mod 10 < 10) by (apply N.mod_lt; discriminate).
  split; [exact A|]. split; [exact Bm|]. split.
  - assert (E : n / 10000000 = n / 1000000 / 10) by (rewrite N.div_div by discriminate; reflexivity). rewrite E. apply N.div_mod. discriminate.
  - rewrite (N.mod_small (n / 10000000)) by exact A. set (a := n / 10000000) in *. set (b := (n / 1000000) mod 10) in *. clearbody a b. clear H n.
    assert (forallb (fun a => forallb (fun b => N.lor (N.shiftl a 4) b =? 16 * a + b) (map N.of_nat (seq 0 10))) (map N.of_nat (seq 0 10)) = true) by (vm_compute; reflexivity).
    assert (I : forall x, x < 10 -> In x (map N.of_nat (seq 0 10))).
    { intros x Hx. apply in_map_iff. exists (N.to_nat x). split; [apply N2Nat.id|]. apply in_seq. lia. }
    rewrite forallb_forall in H. specialize (H _ (I _ A)). rewrite forallb_forall in H. specialize (H _ (I _ Bm)). now apply N.eqb_eq.
Qed.

Ltac member := (left; reflexivity) + (right; member).
Ltac leaf En :=
  first [ right; split; [reflexivity|]; repeat (constructor; [cbn [fst rule_fits medium_fits]; try rewrite En; lia|]); constructor
        | left; eexists; split; [cbn [In]; member|]; cbn [rule_fits medium_fits]; try rewrite En; lia ].
Ltac tests :=
  repeat match goal with
  | |- context [?a =? ?b] => destruct (N.eqb_spec a b); cbn [andb orb]
  | |- context [?a <=? ?b] => destruct (N.leb_spec a b); cbn [andb orb]
  end.
Lemma product_named maker v d n : v < 256 -> n < 100000000 -> product_text maker v d n (product_name maker v d n).
Proof.
  intros Hv Hn. destruct (msb_digits n Hn) as (a & b & Ha & Hb & En & Em). unfold product_name. rewrite Em. cbv zeta.
  repeat match goal with |- product_text _ _ _ _ (if ?c then _ else _) =>
    match c with context [text_eqb maker ?k] =>
      let E := fresh "E" in destruct (text_eqb maker k) eqn:E; cbn [orb];
      [apply text_eqb_ok in E; subst maker; eapply product_of_rules; [vm_compute; reflexivity|]; tests; leaf En|] end end.
  right. split; [reflexivity|]. intros name (rules & r & Hin & _). revert rules Hin. apply rules_none.
  unfold products. cbn [rules_of].
  assert (X : forall k, text_eqb maker k = false -> text_eqb k maker = false).
  { intros k H. destruct (text_eqb k maker) eqn:K; [|reflexivity]. apply text_eqb_ok in K. subst k. rewrite text_eqb_refl in H. discriminate H. }
  repeat match goal with |- context [text_eqb ?k maker] => rewrite (X k) by assumption end. reflexivity.
Qed.
Lemma product_blanked maker v d n t : product_text maker v d n t -> blanked t = t.
Proof.
  intros [(rules & r & H1 & H2 & _)|[-> _]]; [|reflexivity].
  assert (A : forallb (fun x => forallb (fun y => text_eqb (blanked (snd y)) (snd y)) (snd x)) products = true) by (vm_compute; reflexivity).
  rewrite forallb_forall in A. specialize (A _ H1). cbn [snd] in A. rewrite forallb_forall in A. specialize (A _ H2). now apply text_eqb_ok.
Qed.
