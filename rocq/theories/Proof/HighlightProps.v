(** Proofs about highlighting. *)
From Coq Require Import List NArith String Lia.
Import ListNotations.
From Verif Require Import Model.Base Model.Text Model.Format Model.Escape Model.Highlight Spec.EscapeSpec Spec.BindingsSpec Spec.HighlightSpec
  Proof.BaseFacts Proof.TextFacts Proof.EscapeFacts Proof.BindingsFacts.
Open Scope N_scope.
Open Scope list_scope.

(** *** Lines *)
Lemma lines_concat s : concat (lines_with_endings s) = s.
Proof.
  induction s as [|c s IH]; [reflexivity|]. cbn. destruct (c =? 10); [cbn; now rewrite IH|].
  destruct (lines_with_endings s) as [|l ls]; cbn in *; now rewrite <- IH.
Qed.
Lemma ends_snoc s c : ends_with_newline (s ++ [c]) = (c =? 10).
Proof. induction s as [|x s IH]; [reflexivity|]. cbn. destruct (s ++ [c]) eqn:E; [destruct s; discriminate E|exact IH]. Qed.
Lemma ends_true s : ends_with_newline s = true -> exists b, s = b ++ [10].
Proof.
  destruct s as [|c s] using rev_ind; [discriminate|]. rewrite ends_snoc. intros E. apply N.eqb_eq in E. subst c. now exists s.
Qed.
Lemma lines_whole s : Forall whole_line (lines_with_endings (s ++ [10])).
Proof.
  induction s as [|c s IH].
  - cbn. constructor; [exists []; split; [reflexivity|intros []]|constructor].
  - cbn. destruct (c =? 10) eqn:E.
    + constructor; [|exact IH]. apply N.eqb_eq in E. subst c. exists []. split; [reflexivity|intros []].
    + apply N.eqb_neq in E. destruct (lines_with_endings (s ++ [10])) as [|l ls] eqn:L.
      * pose proof (lines_concat (s ++ [10])) as C. rewrite L in C. destruct s; discriminate C.
      * inversion IH as [|? ? (b & -> & B) R]; subst. constructor; [|exact R].
        exists (c :: b). split; [reflexivity|]. intros [K|K]; [now apply E|exact (B K)].
Qed.

(** *** The last line feed *)
Lemma remove_none h : ~ In 10 h -> remove_last_newline h = None.
Proof.
  induction h as [|c h IH]; [reflexivity|]. intros N. cbn. rewrite IH; [|intros K; apply N; now right].
  destruct (N.eqb_spec c 10) as [->|_]; [destruct N; now left|reflexivity].
Qed.
Lemma remove_last a b : ~ In 10 b -> remove_last_newline (a ++ 10 :: b) = Some (a ++ b).
Proof.
  intros N. induction a as [|c a IH]; [cbn; now rewrite (remove_none _ N)|]. cbn. now rewrite IH.
Qed.
Lemma entity_no_newline e c : In (e, c) html_entities -> ~ In 10 e /\ c <> 10.
Proof.
  intros H. cbn in H.
  repeat (destruct H as [H|H]; [injection H as <- <-; split; [vm_compute; intuition discriminate|discriminate]|]).
  destruct H.
Qed.
Lemma open_no_newline cl : simple_class cl -> ~ In 10 (span_open cl).
Proof.
  intros S. unfold span_open. rewrite !in_app_iff. intros [K|[K|[K|[K|K]]]]; try (vm_compute in K; intuition discriminate).
  now apply (proj1 (S _ K)).
Qed.
Lemma no_newline d h s : html simple_class d h s -> ~ In 10 s -> ~ In 10 h.
Proof.
  intros H. induction H as [|d c h s F H IH|d e c h s E H IH|d cl h s C H IH|d h s H IH]; intros N.
  - exact N.
  - intros [->|K]; [apply N; now left|]. apply IH; [|exact K]. intros K'. apply N. now right.
  - rewrite in_app_iff. intros [K|K]; [exact (proj1 (entity_no_newline _ _ E) K)|].
    apply IH; [|exact K]. intros K'. apply N. now right.
  - rewrite in_app_iff. intros [K|K]; [exact (open_no_newline _ C K)|exact (IH N K)].
  - rewrite in_app_iff. intros [K|K]; [vm_compute in K; intuition discriminate|exact (IH N K)].
Qed.
Lemma last_newline d h s : html simple_class d h s -> forall s', s = s' ++ [10] ->
  exists a b, h = a ++ 10 :: b /\ ~ In 10 b /\ html simple_class d (a ++ b) s'.
Proof.
  intros H. induction H as [|d c h s F H IH|d e c h s E H IH|d cl h s C H IH|d h s H IH]; intros s' Es.
  - destruct s'; discriminate Es.
  - destruct s' as [|x s']; cbn in Es; injection Es as -> ->.
    + exists [], h. split; [reflexivity|]. split; [|exact H]. apply (no_newline _ _ _ H). intros [].
    + destruct (IH s' eq_refl) as (a & b & -> & B & R). exists (x :: a), b. split; [reflexivity|]. split; [exact B|].
      cbn. now constructor.
  - destruct s' as [|x s']; cbn in Es; injection Es as -> ->.
    + destruct (proj2 (entity_no_newline _ _ E) eq_refl).
    + destruct (IH s' eq_refl) as (a & b & -> & B & R). exists (e ++ a), b. rewrite <- !app_assoc. split; [reflexivity|]. split; [exact B|].
      now apply html_entity.
  - destruct (IH s' Es) as (a & b & -> & B & R). exists (span_open cl ++ a), b. rewrite <- !app_assoc. split; [reflexivity|]. split; [exact B|].
    now apply html_open.
  - destruct (IH s' Es) as (a & b & -> & B & R). exists (txt "</span>" ++ a), b. rewrite <- !app_assoc. split; [reflexivity|]. split; [exact B|].
    now apply html_close.
Qed.

(** *** Highlighting *)
Lemma csv_simple cl : csv_class cl -> simple_class cl.
Proof.
  intros [->|[->|(d & D & ->)]] c; try (vm_compute; intuition (subst; discriminate)).
  rewrite in_app_iff. intros [K|[<-|[]]]; [vm_compute in K; intuition (subst; discriminate)|]. lia.
Qed.
Lemma html_weaken (p q : text -> Prop) d h s : (forall cl, p cl -> q cl) -> html p d h s -> html q d h s.
Proof. intros W H. induction H; [apply html_end|now apply html_char|now apply html_entity with (c := c)|apply html_open; auto|now apply html_close]. Qed.

Lemma shows_source hl source language h : faithful hl -> highlight_source hl source language = Ok h -> html simple_class 0 h source.
Proof.
  intros F. unfold highlight_source. destruct (text_eqb _ _).
  { intros E. injection E as <-. exact (html_weaken _ _ _ _ _ csv_simple (highlight_csv_html source)). }
  destruct (ends_with_newline source) eqn:N; cbn [negb].
  - destruct (hl _ _) as [x|e|p] eqn:E; cbn [bind]; try discriminate. intros K. injection K as <-.
    destruct (ends_true _ N) as (b & ->). pose proof (F _ _ _ (lines_whole b) E) as R. now rewrite lines_concat in R.
  - destruct (hl _ _) as [x|e|p] eqn:E; cbn [bind]; try discriminate.
    pose proof (F _ _ _ (lines_whole source) E) as R. rewrite lines_concat in R.
    destruct (last_newline _ _ _ R source eq_refl) as (a & b & -> & B & R'). rewrite (remove_last _ _ B). cbn.
    intros K. now injection K as <-.
Qed.
Lemma always_shown hl source language : faithful hl -> accepts hl -> exists h, highlight_source hl source language = Ok h.
Proof.
  intros F A. unfold highlight_source. destruct (text_eqb _ _); [eexists; reflexivity|].
  destruct (ends_with_newline source) eqn:N; cbn [negb].
  - destruct (ends_true _ N) as (b & ->). destruct (A (syntax_for language) _ (lines_whole b)) as (h & ->). eexists. reflexivity.
  - destruct (A (syntax_for language) _ (lines_whole source)) as (h & E). rewrite E. cbn [bind].
    pose proof (F _ _ _ (lines_whole source) E) as R. rewrite lines_concat in R.
    destruct (last_newline _ _ _ R source eq_refl) as (a & b & -> & B & R'). rewrite (remove_last _ _ B). eexists. reflexivity.
Qed.
Lemma fails_alone hl source language e : highlight_source hl source language = Err e -> faithful hl ->
  exists syntax lines, Forall whole_line lines /\ (concat lines = source \/ concat lines = source ++ [10]) /\ hl syntax lines = Err e.
Proof.
  intros H F. revert H. unfold highlight_source. destruct (text_eqb _ _); [discriminate|].
  destruct (ends_with_newline source) eqn:N; cbn [negb].
  - destruct (ends_true _ N) as (b & ->). destruct (hl _ _) as [x|x|p] eqn:E; cbn [bind]; try discriminate. intros K. injection K as <-.
    exists (syntax_for language), (lines_with_endings (b ++ [10])). split; [apply lines_whole|]. split; [left; apply lines_concat|exact E].
  - destruct (hl _ _) as [x|x|p] eqn:E; cbn [bind]; try discriminate.
    + pose proof (F _ _ _ (lines_whole source) E) as R. rewrite lines_concat in R.
      destruct (last_newline _ _ _ R source eq_refl) as (a & b & -> & B & R'). rewrite (remove_last _ _ B). discriminate.
    + intros K. injection K as <-. exists (syntax_for language), (lines_with_endings (source ++ [10])).
      split; [apply lines_whole|]. split; [right; apply lines_concat|exact E].
Qed.

Lemma named_syntax language f : names_format language f ->
  text_eqb (to_ascii_lowercase (trim language)) (txt "csv") = match f with FCsv => true | _ => false end /\ syntax_for language = syntax_of f.
Proof.
  intros H. apply named in H. revert H. unfold format_from_str, syntax_for. cbv zeta.
  generalize (to_ascii_lowercase (trim language)). intros l H.
  repeat match type of H with context [text_eqb l ?n] => let E := fresh "E" in destruct (text_eqb l n) eqn:E;
    [apply text_eqb_ok in E; subst l; vm_compute in H; injection H as <-; split; reflexivity|cbn [orb] in H] end.
  discriminate H.
Qed.
Lemma unnamed_syntax language : (forall f, ~ names_format language f) ->
  text_eqb (to_ascii_lowercase (trim language)) (txt "csv") = false /\ syntax_for language = None.
Proof.
  intros H. apply not_named in H. revert H. unfold format_from_str, syntax_for. cbv zeta.
  generalize (to_ascii_lowercase (trim language)). intros l H.
  repeat match type of H with context [text_eqb l ?n] => destruct (text_eqb l n); cbn [orb] in H; [discriminate H|] end.
  split; reflexivity.
Qed.
Lemma by_language hl source language f : names_format language f ->
  (f = FCsv -> highlight_source hl source language = Ok (highlight_csv source)) /\
  (f <> FCsv -> forall h, highlight_source hl source language = Ok h ->
     exists lines h', (concat lines = source \/ concat lines = source ++ [10]) /\ hl (syntax_of f) lines = Ok h').
Proof.
  intros H. destruct (named_syntax _ _ H) as [C S]. unfold highlight_source. rewrite C, S. split; [now intros ->|].
  intros NC h. replace (match f with FCsv => true | _ => false end) with false by (destruct f; congruence || reflexivity).
  intros E. apply bind_ok in E. destruct E as (h' & E & _). do 2 eexists. split; [|exact E]. rewrite lines_concat. destruct (negb _); auto.
Qed.
Lemma by_no_language hl source language h : (forall f, ~ names_format language f) -> highlight_source hl source language = Ok h ->
  exists lines h', (concat lines = source \/ concat lines = source ++ [10]) /\ hl None lines = Ok h'.
Proof.
  intros H. destruct (unnamed_syntax _ H) as [C S]. unfold highlight_source. rewrite C, S.
  intros E. apply bind_ok in E. destruct E as (h' & E & _). do 2 eexists. split; [|exact E]. rewrite lines_concat. destruct (negb _); auto.
Qed.

(** *** The text content is unique *)
Lemma simple_open_eq cl1 cl2 a b : simple_class cl1 -> simple_class cl2 -> span_open cl1 ++ a = span_open cl2 ++ b -> cl1 = cl2 /\ a = b.
Proof.
  intros H1 H2 E. unfold span_open in E. rewrite <- !app_assoc in E. apply app_inv_head in E. apply app_inv_head in E.
  destruct (no_quote_split cl1 cl2 _ _ (fun K => proj1 (proj2 (H1 _ K)) eq_refl) (fun K => proj1 (proj2 (H2 _ K)) eq_refl) E) as [E1 E2].
  cbn in E2. inversion E2. auto.
Qed.
Lemma read_one_way d h s1 : html simple_class d h s1 -> forall s2, html simple_class d h s2 -> s1 = s2.
Proof.
  intros H. induction H as [|d c h s Hc H IH|d e c h s He H IH|d cl h s Hcl H IH|d h s H IH]; intros s2 H2.
  - inversion H2; subst; [reflexivity|html_bad].
  - inversion H2; subst; [f_equal; apply IH; assumption|html_bad..].
  - remember (e ++ h) as eh eqn:Eh. inversion H2; subst; try html_bad.
    match goal with HI : In (?e0, ?c0) _, HE : ?e0 ++ _ = e ++ h |- _ => symmetry in HE;
      destruct (proj2 (html_prefix_free (fun c => c = 38) eq_refl) _ _ _ _ _ _ He HI HE) as (-> & -> & ->) end.
    f_equal. apply IH. assumption.
  - remember (span_open cl ++ h) as eh eqn:Eh. inversion H2; subst; try html_bad.
    match goal with HE : span_open _ ++ _ = _ |- _ => symmetry in HE; apply simple_open_eq in HE; [destruct HE as [-> ->]|assumption|assumption] end.
    apply IH. assumption.
  - inversion H2; subst; try html_bad. apply IH. assumption.
Qed.

(** *** A library that puts one element around the escaped lines *)
Definition ex_class (syntax : option text) : text :=
  match syntax with Some s => if text_eqb s (txt "json") then txt "syn-source syn-json" else txt "syn-source" | None => txt "syn-text" end.
Definition ex_highlighter : highlighter := fun syntax lines =>
  Ok (span_open (ex_class syntax) ++ escape_html (concat lines) ++ txt "</span>").
Lemma ex_faithful : faithful ex_highlighter /\ accepts ex_highlighter.
Proof.
  split; [|intros; eexists; reflexivity]. intros syntax lines h _ E. unfold ex_highlighter in E. apply Ok_inj in E. subst h.
  apply html_open.
  - unfold ex_class. destruct syntax as [s|]; [destruct (text_eqb s _)|]; intros c; vm_compute; intuition (subst; discriminate).
  - rewrite <- (app_nil_r (concat lines)) at 2. apply html_escape. rewrite <- (app_nil_r (txt "</span>")). apply html_close, html_end.
Qed.

(** *** The function of the JavaScript module *)
Lemma js_ok hl source language h : m_bus_highlight hl source language = Ok h <-> highlight_source hl source language = Ok h.
Proof. unfold m_bus_highlight. destruct (highlight_source hl source language); cbn; split; intros E; (discriminate E || exact E). Qed.
Lemma js_shows_source hl source language h : faithful hl -> m_bus_highlight hl source language = Ok h -> html simple_class 0 h source.
Proof. intros F E. apply js_ok in E. exact (shows_source _ _ _ _ F E). Qed.
Lemma js_always_shown hl source language : faithful hl -> accepts hl -> exists h, m_bus_highlight hl source language = Ok h.
Proof. intros F A. destruct (always_shown hl source language F A) as (h & E). exists h. now apply js_ok. Qed.
Lemma js_fails_alone hl source language e : m_bus_highlight hl source language = Err e -> faithful hl ->
  exists syntax lines e', Forall whole_line lines /\ (concat lines = source \/ concat lines = source ++ [10]) /\ hl syntax lines = Err e' /\
    e = txt "syntax highlighting failed: " ++ e'.
Proof.
  unfold m_bus_highlight. destruct (highlight_source hl source language) as [x|x|x] eqn:E; cbn [map_err]; try discriminate.
  intros K F. injection K as <-. destruct (fails_alone _ _ _ _ E F) as (sy & l & W & C & R). exists sy, l, x. auto.
Qed.
Lemma js_by_language hl source language f : names_format language f ->
  (f = FCsv -> m_bus_highlight hl source language = Ok (highlight_csv source)) /\
  (f <> FCsv -> forall h, m_bus_highlight hl source language = Ok h ->
     exists lines h', (concat lines = source \/ concat lines = source ++ [10]) /\ hl (syntax_of f) lines = Ok h').
Proof.
  intros H. destruct (by_language hl source language f H) as [A B]. split; [intros E; apply js_ok; auto|].
  intros NC h E. apply js_ok in E. eauto.
Qed.
Lemma js_by_no_language hl source language h : (forall f, ~ names_format language f) -> m_bus_highlight hl source language = Ok h ->
  exists lines h', (concat lines = source \/ concat lines = source ++ [10]) /\ hl None lines = Ok h'.
Proof. intros H E. apply js_ok in E. exact (by_no_language _ _ _ _ H E). Qed.
Lemma highlight_example : faithful ex_highlighter /\ accepts ex_highlighter /\ names_format (txt " JSON") FJson /\
  m_bus_highlight ex_highlighter (txt "[""</script>""]") (txt " JSON") =
    Ok (span_open (txt "syn-source syn-json") ++ txt "[&quot;&lt;/script&gt;&quot;]</span>").
Proof.
  split; [exact (proj1 ex_faithful)|]. split; [exact (proj2 ex_faithful)|]. split; [apply named; vm_compute; reflexivity|]. vm_compute. reflexivity.
Qed.
Lemma failing_example : exists hl : highlighter, faithful hl /\ m_bus_highlight hl (txt "a") (txt "xml") = Err (txt "syntax highlighting failed: no").
Proof. exists (fun _ _ => Err (txt "no")). split; [intros ? ? ? _ E; discriminate E|]. vm_compute. reflexivity. Qed.

