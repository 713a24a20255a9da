(** Lemmas about escaping. *)
From Coq Require Import Lia String.
From Verif Require Import Model.Base Model.Text Model.Escape Spec.EscapeSpec Proof.BaseFacts.

(** *** Reading escaped text is unambiguous *)
Definition prefix_free (entities : list (list N * N)) (forbidden : N -> Prop) : Prop :=
  (forall e c, In (e, c) entities -> exists h t, e = h :: t /\ forbidden h) /\
  (forall e1 c1 e2 c2 a b, In (e1, c1) entities -> In (e2, c2) entities -> e1 ++ a = e2 ++ b ->
     e1 = e2 /\ c1 = c2 /\ a = b).

Lemma escaped_fun entities forbidden enc s1 : prefix_free entities forbidden ->
  escaped entities forbidden enc s1 -> forall s2, escaped entities forbidden enc s2 -> s1 = s2.
Proof.
  intros [Hh Hp] H. induction H as [|c enc s Hc H IH|e c enc s He H IH]; intros s2 H2.
  - inversion H2; subst; [reflexivity|]. exfalso.
    match goal with HI : In _ _ |- _ => destruct (Hh _ _ HI) as (h & t & -> & _) end. discriminate.
  - inversion H2; subst.
    + f_equal. apply IH. assumption.
    + exfalso. match goal with HI : In _ _ |- _ => destruct (Hh _ _ HI) as (h & t & -> & Hf) end.
      match goal with HE : _ ++ _ = _ |- _ => cbn in HE; inversion HE; subst end. contradiction.
  - inversion H2; subst.
    + exfalso. destruct (Hh _ _ He) as (h & t & -> & _). discriminate.
    + exfalso. destruct (Hh _ _ He) as (h & t & -> & Hf).
      match goal with HE : _ :: _ = _ |- _ => cbn in HE; inversion HE; subst end. contradiction.
    + match goal with HE : _ ++ _ = _ |- _ => symmetry in HE;
        destruct (Hp _ _ _ _ _ _ He ltac:(eassumption) HE) as (-> & -> & ->) end.
      f_equal. apply IH. assumption.
Qed.

Ltac entity_cases := cbn [In xml_entities html_entities old_label_entities] in *;
  repeat match goal with H : _ \/ _ |- _ => destruct H | H : False |- _ => contradiction end;
  repeat match goal with H : (_, _) = (_, _) |- _ => apply pair_equal_spec in H; destruct H; subst end.

Ltac solve_prefix_free := split;
  [ intros e c He; entity_cases; eexists _, _; (split; [reflexivity|]); cbn; tauto
  | intros e1 c1 e2 c2 a b H1 H2 E; entity_cases; vm_compute in E; try discriminate E;
    injection E as E; subst; auto ].

Lemma xml_prefix_free (forbidden : N -> Prop) : forbidden 38 -> prefix_free xml_entities forbidden.
Proof.
  intros F. split.
  - intros e c He. entity_cases; eexists _, _; (split; [reflexivity|exact F]).
  - intros e1 c1 e2 c2 a b H1 H2 E. entity_cases; vm_compute in E; try discriminate E;
    injection E as E; subst; auto.
Qed.
Lemma html_prefix_free (forbidden : N -> Prop) : forbidden 38 -> prefix_free html_entities forbidden.
Proof.
  intros F. split.
  - intros e c He. entity_cases; eexists _, _; (split; [reflexivity|exact F]).
  - intros e1 c1 e2 c2 a b H1 H2 E. entity_cases; vm_compute in E; try discriminate E;
    injection E as E; subst; auto.
Qed.

(** *** XML *)
Lemma xml_encode_ok s : escaped xml_entities xml_forbidden (xml_encode s) (blanked s).
Proof.
  induction s as [|c s IH]; [constructor|]. unfold xml_encode in *. cbn [flat_map blanked map].
  unfold xml_encode_char, is_ascii_control. destruct ((c <? 32) || (c =? 127)) eqn:Ctl.
  - cbn [app]. constructor; [|exact IH]. unfold xml_forbidden, control. cbn. lia.
  - destruct (N.eqb_spec c 38); [subst; apply esc_entity; [cbn; tauto|exact IH]|].
    destruct (N.eqb_spec c 60); [subst; apply esc_entity; [cbn; tauto|exact IH]|].
    destruct (N.eqb_spec c 62); [subst; apply esc_entity; [cbn; tauto|exact IH]|].
    destruct (N.eqb_spec c 34); [subst; apply esc_entity; [cbn; tauto|exact IH]|].
    cbn [app]. constructor; [|exact IH]. apply orb_false_iff in Ctl. destruct Ctl as [C1 C2].
    apply N.ltb_ge in C1. apply N.eqb_neq in C2. unfold xml_forbidden, control. cbn. lia.
Qed.

Lemma xml_read_once enc s1 s2 :
  escaped xml_entities xml_forbidden enc s1 -> escaped xml_entities xml_forbidden enc s2 -> s1 = s2.
Proof. intros H1 H2. eapply escaped_fun; [apply xml_prefix_free|exact H1|exact H2]. right; cbn; tauto. Qed.

Lemma escaped_chars entities forbidden enc s (P : N -> Prop) : escaped entities forbidden enc s ->
  (forall c, ~ forbidden c -> P c) -> (forall e c, In (e, c) entities -> Forall P e) -> Forall P enc.
Proof.
  intros H Hc He. induction H as [|c enc s Hf H IH|e c enc s Hi H IH]; [constructor| |].
  - constructor; auto.
  - apply Forall_app. split; [eauto|exact IH].
Qed.

Lemma xml_chars s : Forall (fun c => ~ control c /\ c <> 60 /\ c <> 62 /\ c <> 34) (xml_encode s).
Proof.
  eapply escaped_chars; [apply xml_encode_ok| |].
  - intros c Hc. unfold xml_forbidden in Hc. cbn in Hc. intuition.
  - intros e c He. entity_cases;
    apply Forall_forall; intros x Hx; vm_compute in Hx; unfold control; intuition (subst; lia).
Qed.

(** *** Mermaid *)
Lemma replace_flat a b s (f : N -> list N) :
  replace_char a b (flat_map f s) = flat_map (fun c => replace_char a b (f c)) s.
Proof.
  induction s as [|c s IH]; [reflexivity|]. cbn [flat_map]. unfold replace_char at 1.
  rewrite flat_map_app. f_equal. exact IH.
Qed.

Lemma mermaid_flat s : mermaid_escape s =
  flat_map (fun c => if c =? 38 then txt "&amp;" else if c =? 34 then txt "&quot;"
    else if c =? 60 then txt "&lt;" else if c =? 62 then txt "&gt;" else if c =? 10 then [32] else [c]) s.
Proof.
  unfold mermaid_escape, replace_char at 5. rewrite !replace_flat. apply flat_map_ext. intros c.
  destruct (N.eqb_spec c 38); [subst; reflexivity|]. cbn.
  destruct (N.eqb_spec c 34); [subst; reflexivity|]. cbn.
  destruct (N.eqb_spec c 60); [subst; reflexivity|]. cbn.
  destruct (N.eqb_spec c 62); [subst; reflexivity|]. cbn.
  destruct (N.eqb_spec c 10); reflexivity.
Qed.

Lemma mermaid_ok s : escaped xml_entities label_forbidden (mermaid_escape s) (one_line s).
Proof.
  rewrite mermaid_flat. induction s as [|c s IH]; [constructor|]. cbn [flat_map one_line map].
  destruct (N.eqb_spec c 38); [subst; apply esc_entity; [cbn; tauto|exact IH]|].
  destruct (N.eqb_spec c 34); [subst; apply esc_entity; [cbn; tauto|exact IH]|].
  destruct (N.eqb_spec c 60); [subst; apply esc_entity; [cbn; tauto|exact IH]|].
  destruct (N.eqb_spec c 62); [subst; apply esc_entity; [cbn; tauto|exact IH]|].
  destruct (N.eqb_spec c 10); cbn [app]; (constructor; [|exact IH]); unfold label_forbidden; cbn; lia.
Qed.

Lemma mermaid_read_once enc s1 s2 :
  escaped xml_entities label_forbidden enc s1 -> escaped xml_entities label_forbidden enc s2 -> s1 = s2.
Proof. intros H1 H2. eapply escaped_fun; [apply xml_prefix_free|exact H1|exact H2]. cbn; tauto. Qed.

Lemma mermaid_chars s : Forall (fun c => c <> 34 /\ c <> 60 /\ c <> 62 /\ c <> 10) (mermaid_escape s).
Proof.
  eapply escaped_chars; [apply mermaid_ok| |].
  - intros c Hc. unfold label_forbidden in Hc. cbn in Hc. intuition.
  - intros e c He. entity_cases;
    apply Forall_forall; intros x Hx; vm_compute in Hx; intuition (subst; discriminate).
Qed.

Lemma legacy_flat s : legacy_mermaid_escape s =
  flat_map (fun c => if c =? 34 then txt "#quot;" else if c =? 91 then txt "#91;"
    else if c =? 93 then txt "#93;" else [c]) s.
Proof.
  unfold legacy_mermaid_escape, replace_char at 3. rewrite !replace_flat. apply flat_map_ext. intros c.
  destruct (N.eqb_spec c 34); [subst; reflexivity|]. cbn.
  destruct (N.eqb_spec c 91); [subst; reflexivity|]. cbn.
  destruct (N.eqb_spec c 93); reflexivity.
Qed.

Lemma legacy_ok s : escaped old_label_entities old_label_forbidden (legacy_mermaid_escape s) s.
Proof.
  rewrite legacy_flat. induction s as [|c s IH]; [constructor|]. cbn [flat_map].
  destruct (N.eqb_spec c 34); [subst; apply esc_entity; [cbn; tauto|exact IH]|].
  destruct (N.eqb_spec c 91); [subst; apply esc_entity; [cbn; tauto|exact IH]|].
  destruct (N.eqb_spec c 93); [subst; apply esc_entity; [cbn; tauto|exact IH]|].
  cbn [app]. constructor; [|exact IH]. unfold old_label_forbidden; cbn; lia.
Qed.

Lemma legacy_chars s : Forall (fun c => c <> 34 /\ c <> 91 /\ c <> 93) (legacy_mermaid_escape s).
Proof.
  eapply escaped_chars; [apply legacy_ok| |].
  - intros c Hc. unfold old_label_forbidden in Hc. cbn in Hc. intuition.
  - intros e c He. entity_cases;
    apply Forall_forall; intros x Hx; vm_compute in Hx; intuition (subst; discriminate).
Qed.

(** without number signs the older labels can be read back *)
Lemma legacy_injective s t : ~ In 35 s -> ~ In 35 t -> legacy_mermaid_escape s = legacy_mermaid_escape t -> s = t.
Proof.
  intros Hs Ht E.
  assert (A : forall u, ~ In 35 u -> escaped old_label_entities (fun c => In c [34; 91; 93; 35]) (legacy_mermaid_escape u) u).
  { clear. intros u Hu. rewrite legacy_flat. induction u as [|c u IH]; [constructor|]. cbn [flat_map].
    assert (Hu' : ~ In 35 u) by (intros C; apply Hu; right; exact C). specialize (IH Hu').
    assert (Hc : c <> 35) by (intros ->; apply Hu; left; reflexivity).
    destruct (N.eqb_spec c 34); [subst; apply esc_entity; [cbn; tauto|exact IH]|].
    destruct (N.eqb_spec c 91); [subst; apply esc_entity; [cbn; tauto|exact IH]|].
    destruct (N.eqb_spec c 93); [subst; apply esc_entity; [cbn; tauto|exact IH]|].
    cbn [app]. constructor; [|exact IH]. cbn; lia. }
  pose proof (A s Hs) as As. pose proof (A t Ht) as At. rewrite E in As.
  clear E. eapply escaped_fun; [|exact As|exact At]. solve_prefix_free.
Qed.

(** *** HTML *)
Lemma html_escape classes d s h u : html classes d h u -> html classes d (escape_html s ++ h) (s ++ u).
Proof.
  intros H. induction s as [|c s IH]; [exact H|]. unfold escape_html in *. cbn [flat_map app].
  rewrite <- app_assoc. unfold escape_html_char.
  destruct (N.eqb_spec c 38); [subst; apply html_entity; [cbn; tauto|exact IH]|].
  destruct (N.eqb_spec c 60); [subst; apply html_entity; [cbn; tauto|exact IH]|].
  destruct (N.eqb_spec c 62); [subst; apply html_entity; [cbn; tauto|exact IH]|].
  destruct (N.eqb_spec c 34); [subst; apply html_entity; [cbn; tauto|exact IH]|].
  destruct (N.eqb_spec c 39); [subst; apply html_entity; [cbn; tauto|exact IH]|].
  cbn [app]. constructor; [|exact IH]. unfold html_forbidden; cbn; lia.
Qed.

Lemma quoted_class_open name h : quoted_class name ++ h = span_open name ++ h.
Proof. unfold quoted_class, span_open. rewrite <- !app_assoc. cbn [app]. rewrite <- app_assoc. reflexivity. Qed.

Lemma csv_field_html d field column h u : html csv_class d h u ->
  html csv_class d (csv_field field column ++ h) (field ++ u).
Proof.
  intros H. unfold csv_field. rewrite <- !app_assoc, quoted_class_open. apply html_open.
  - right. right. exists (column mod 8). split; [apply N.mod_lt; discriminate|reflexivity].
  - apply html_escape. apply html_close. exact H.
Qed.

Lemma csv_delimiter_html d h u : html csv_class d h u -> html csv_class d (csv_delimiter ++ h) (44 :: u).
Proof.
  intros H. unfold csv_delimiter. rewrite <- app_assoc, quoted_class_open. apply html_open.
  - right. left. reflexivity.
  - change (txt ",</span>" ++ h) with (44 :: txt "</span>" ++ h). constructor; [unfold html_forbidden; cbn; lia|].
    apply html_close. exact H.
Qed.

Lemma plain_html d c h u : c = 10 \/ c = 13 -> html csv_class d h u -> html csv_class d (c :: h) (c :: u).
Proof. intros Hc H. constructor; [unfold html_forbidden; cbn; lia|exact H]. Qed.

Lemma csv_loop_html n : forall chars, (length chars <= n)%nat -> forall field column quoted d h u,
  html csv_class d h u -> html csv_class d (csv_loop chars field column quoted ++ h) (field ++ chars ++ u).
Proof.
  induction n as [|n IH]; intros chars Hn field column quoted d h u H.
  - destruct chars; [|cbn in Hn; lia]. cbn [csv_loop app]. apply csv_field_html. exact H.
  - destruct chars as [|c rest]; [cbn [csv_loop app]; apply csv_field_html; exact H|].
    cbn [length] in Hn. assert (Hr : (length rest <= n)%nat) by lia.
    assert (Push : forall cs rest', c :: rest = cs ++ rest' -> (length rest' <= n)%nat -> forall q,
      html csv_class d (csv_loop rest' (field ++ cs) column q ++ h) (field ++ (c :: rest) ++ u)).
    { intros cs rest' E Hl q. rewrite E, <- app_assoc, (app_assoc field). apply IH; assumption. }
    cbn [csv_loop].
    destruct (N.eqb_spec c 34) as [E34|N34].
    { destruct quoted.
      - destruct rest as [|c2 rest2]; [apply (Push [c] []); [reflexivity|cbn; lia]|].
        destruct (N.eqb_spec c2 34) as [E|E].
        + apply (Push [c; c2] rest2); [reflexivity|cbn in Hr; lia].
        + apply (Push [c] (c2 :: rest2)); [reflexivity|exact Hr].
      - destruct rest as [|c2 rest2]; apply (Push [c]); first [reflexivity|exact Hr]. }
    destruct (N.eqb_spec c 44) as [E44|N44].
    { destruct quoted; cbn [negb andb].
      - subst c. cbn [N.eqb Pos.eqb andb]. apply (Push [44]); [reflexivity|exact Hr].
      - rewrite <- !app_assoc. apply csv_field_html. subst c. cbn [app]. apply csv_delimiter_html.
        apply (IH rest Hr []). exact H. }
    cbn [andb].
    destruct (N.eqb_spec c 13) as [E13|N13].
    { destruct quoted; cbn [negb andb].
      - subst c. cbn [N.eqb Pos.eqb andb]. apply (Push [13]); [reflexivity|exact Hr].
      - subst c. assert (One : forall rest', (length rest' <= n)%nat ->
          html csv_class d ((csv_field field column ++ [13] ++ csv_loop rest' [] 0 false) ++ h) (field ++ (13 :: rest') ++ u)).
        { intros rest' Hl. rewrite <- !app_assoc. apply csv_field_html. cbn [app]. apply plain_html; [auto|]. apply (IH rest' Hl []). exact H. }
        destruct rest as [|c2 rest2]; [apply One; exact Hr|].
        destruct (N.eqb_spec c2 10) as [E|E]; [|apply One; exact Hr].
        subst c2. rewrite <- !app_assoc. apply csv_field_html. cbn [app]. apply plain_html; [auto|]. apply plain_html; [auto|].
        cbn in Hr. apply (IH rest2 ltac:(lia) []). exact H. }
    cbn [andb].
    destruct (N.eqb_spec c 10) as [E10|N10].
    { destruct quoted; cbn [negb andb].
      - apply (Push [c]); [reflexivity|exact Hr].
      - rewrite <- !app_assoc. apply csv_field_html. cbn [app]. subst c. apply plain_html; [auto|]. apply (IH rest Hr []). exact H. }
    cbn [andb]. apply (Push [c]); [reflexivity|exact Hr].
Qed.

Lemma highlight_csv_html source : html csv_class 0 (highlight_csv source) source.
Proof.
  unfold highlight_csv. rewrite quoted_class_open. apply html_open; [left; reflexivity|].
  rewrite <- (app_nil_r source) at 2.
  apply (csv_loop_html (length source) source (le_n _) []).
  rewrite <- (app_nil_r (txt "</span>")). apply html_close. constructor.
Qed.

Lemma no_quote_split a b x y : ~ In 34 a -> ~ In 34 b -> a ++ 34 :: x = b ++ 34 :: y -> a = b /\ x = y.
Proof.
  revert b. induction a as [|c a IH]; intros b Ha Hb E.
  - destruct b as [|d b]; cbn in E; inversion E; [auto|]. exfalso. apply Hb. left. auto.
  - destruct b as [|d b]; cbn in E; inversion E; subst; [exfalso; apply Ha; left; reflexivity|].
    destruct (IH b) as [-> ->]; auto; intros C; [apply Ha|apply Hb]; right; exact C.
Qed.

Lemma csv_class_plain cl : csv_class cl -> ~ In 34 cl.
Proof.
  intros [->|[->|(d & Hd & ->)]]; [vm_compute; intuition discriminate|vm_compute; intuition discriminate|].
  intros C. apply in_app_or in C. destruct C as [C|C]; [vm_compute in C; intuition discriminate|].
  cbn in C. lia.
Qed.

Lemma span_open_eq cl1 cl2 a b : csv_class cl1 -> csv_class cl2 ->
  span_open cl1 ++ a = span_open cl2 ++ b -> cl1 = cl2 /\ a = b.
Proof.
  intros H1 H2 E. unfold span_open in E. rewrite <- !app_assoc in E. apply app_inv_head in E.
  apply app_inv_head in E. destruct (no_quote_split cl1 cl2 _ _ (csv_class_plain _ H1) (csv_class_plain _ H2) E) as [E1 E2].
  cbn in E2. inversion E2. auto.
Qed.

Lemma entity_head e c x y : In (e, c) html_entities -> e ++ x = y -> exists t, y = 38 :: t.
Proof. intros H E. destruct (proj1 (html_prefix_free (fun c => c = 38) eq_refl) _ _ H) as (h & t & -> & ->). subst y. eexists; reflexivity. Qed.

Ltac html_bad := exfalso;
  repeat match goal with
  | HI : In (?e, ?c) html_entities, HE : ?e ++ _ = _ |- _ =>
      let t := fresh in let Et := fresh in destruct (entity_head _ _ _ _ HI HE) as (t & Et); clear HI HE
  | HI : In (?e, ?c) html_entities, HE : _ = ?e ++ _ |- _ =>
      let t := fresh in let Et := fresh in destruct (entity_head _ _ _ _ HI (eq_sym HE)) as (t & Et); clear HI HE
  end;
  try discriminate;
  repeat match goal with
  | HE : _ :: _ = 38 :: _ |- _ => inversion HE; clear HE; subst
  | HE : _ :: _ = span_open _ ++ _ |- _ => cbn in HE; inversion HE; clear HE; subst
  end;
  match goal with HF : ~ html_forbidden _ |- _ => apply HF; cbn; tauto end.

Lemma html_fun d h s1 : html csv_class d h s1 -> forall s2, html csv_class d h s2 -> s1 = s2.
Proof.
  intros H. induction H as [|d c h s Hc H IH|d e c h s He H IH|d cl h s Hcl H IH|d h s H IH]; intros s2 H2.
  - inversion H2; subst; [reflexivity|html_bad].
  - inversion H2; subst; [f_equal; apply IH; assumption|html_bad..].
  - remember (e ++ h) as eh eqn:Eh. inversion H2; subst; try html_bad.
    match goal with HI : In (?e0, ?c0) _, HE : ?e0 ++ _ = e ++ h |- _ => symmetry in HE;
      destruct (proj2 (html_prefix_free (fun c => c = 38) eq_refl) _ _ _ _ _ _ He HI HE) as (-> & -> & ->) end.
    f_equal. apply IH. assumption.
  - remember (span_open cl ++ h) as eh eqn:Eh. inversion H2; subst; try html_bad.
    match goal with HE : span_open _ ++ _ = _ |- _ => symmetry in HE; apply span_open_eq in HE; [destruct HE as [-> ->]|assumption|assumption] end.
    apply IH. assumption.
  - inversion H2; subst; try html_bad. apply IH. assumption.
Qed.
