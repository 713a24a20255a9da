(** Lemmas about the nodes, groups and names of a diagram. *)
From Coq Require Import String List NArith Lia Bool.
Import ListNotations.
From Verif Require Import Model.Base Model.Text Model.Show Model.Escape Model.Format Model.Output Model.Rscada Model.Render
  Spec.TableSpec Spec.EscapeSpec Spec.RenderSpec Spec.MermaidSpec Spec.DiagramSpec
  Proof.BaseFacts Proof.TextFacts Proof.ShowFacts Proof.EscapeFacts Proof.TableFacts Proof.RecordFacts Proof.OutputRecords Proof.RenderFacts
  Proof.MermaidFacts.
Open Scope N_scope.
Open Scope list_scope.

(** *** Nodes *)
Definition quiet (s : statement) : Prop := match s with Open _ _ | End | Node _ _ => False | _ => True end.
Definition in_group (g : text) (ns : list (text * text)) : list (text * text * text) := map (fun n => (g, fst n, snd n)) ns.

Lemma nodes_quiet g es rest : Forall quiet es -> nodes g (es ++ rest) = nodes g rest.
Proof. induction 1 as [|e es He _ IH]; [reflexivity|]. cbn [app]. destruct e; try destruct He; exact IH. Qed.
Lemma nodes_nodes g ns rest l : nodes g rest = Some l ->
  nodes g (map (fun n => Node (fst n) (snd n)) ns ++ rest) = Some (in_group (match g with Some x => x | None => [] end) ns ++ l).
Proof. intros H. induction ns as [|n ns IH]; [exact H|]. cbn [map app nodes]. rewrite IH. reflexivity. Qed.
Lemma nodes_group name label ns es rest l : Forall quiet es -> nodes None rest = Some l ->
  nodes None (group_of name label ns es ++ rest) = Some (in_group name ns ++ l).
Proof.
  intros He H. unfold group_of. rewrite <- !app_assoc. cbn [app nodes].
  rewrite (nodes_nodes (Some name) ns (es ++ End :: rest) l); [reflexivity|]. rewrite nodes_quiet by exact He. exact H.
Qed.

Lemma quiet_chain ns : Forall quiet (edge_chain ns).
Proof. apply Forall_forall. intros s H. apply in_map_iff in H. destruct H as (e & <- & _). exact I. Qed.

Definition all_nodes rn (d : decoded_output) : list (text * text * text) :=
  in_group (txt "FRAME_SG") (frame_written d)
  ++ (match do_identity d with Some i => in_group (txt "METER_SG") (meter_written i) | None => [] end)
  ++ in_group (txt "SECURITY_SG") (security_written d)
  ++ in_group (txt "RECORDS_SG") (records_written rn (do_records d))
  ++ in_group [] (diagnostics_written d).

Lemma nodes_none_quiet es : Forall quiet es -> nodes None es = Some [].
Proof. intros H. rewrite <- (app_nil_r es), nodes_quiet by exact H. reflexivity. Qed.

Lemma classes_quiet d : Forall quiet (class_statements d).
Proof.
  unfold class_statements. repeat (apply Forall_app; split); repeat constructor.
  - destruct (do_identity d) as [i|]; [|constructor]. repeat (apply Forall_app; split); repeat constructor;
      destruct (is_some _); repeat constructor.
  - apply Forall_forall. intros s H. apply in_flat_map in H. destruct H as (r & _ & [<-|[]]). exact I.
  - destruct (do_diagnostics d); repeat constructor.
  - destruct (is_some _); repeat constructor.
  - destruct (do_records d); repeat constructor.
Qed.

Lemma nodes_of_diagram rn d : nodes None (statements_of rn d) = Some (all_nodes rn d).
Proof.
  unfold statements_of, all_nodes. rewrite nodes_quiet by repeat constructor.
  apply nodes_group; [apply quiet_chain|].
  assert (G : nodes None (security_statements d ++ records_statements rn d ++ diagnostics_statements d ++ [Blank] ++
    map ClassDef class_names ++ class_statements d) =
    Some (in_group (txt "SECURITY_SG") (security_written d) ++ in_group (txt "RECORDS_SG") (records_written rn (do_records d)) ++
      in_group [] (diagnostics_written d))).
  { unfold security_statements. rewrite <- app_assoc. apply nodes_group; [apply quiet_chain|]. rewrite nodes_quiet by repeat constructor.
    assert (G : nodes None (diagnostics_statements d ++ [Blank] ++ map ClassDef class_names ++ class_statements d) =
      Some (in_group [] (diagnostics_written d))).
    { unfold diagnostics_statements. rewrite <- app_assoc. rewrite (nodes_nodes None _ _ []); [rewrite app_nil_r; reflexivity|].
      apply nodes_none_quiet. apply Forall_app. split; [destruct (do_diagnostics d); repeat constructor|].
      apply Forall_app. split; [repeat constructor|]. apply Forall_app. split; [unfold class_names; repeat constructor|apply classes_quiet]. }
    unfold records_statements. destruct (do_records d) as [|r0 rest]; [exact G|]. rewrite <- app_assoc.
    apply nodes_group.
    - apply Forall_forall. intros s H. apply in_map_iff in H. destruct H as (e & <- & _). exact I.
    - rewrite nodes_quiet by repeat constructor. exact G. }
  destruct (do_identity d) as [i|]; [|exact G]. unfold meter_statements. rewrite <- app_assoc.
  apply nodes_group; [apply quiet_chain|]. rewrite nodes_quiet by repeat constructor. exact G.
Qed.

Lemma nodes_of_app g a b : nodes_of g (a ++ b) = nodes_of g a ++ nodes_of g b.
Proof. apply flat_map_app. Qed.
Lemma nodes_of_group g h ns : nodes_of g (in_group h ns) = if same h g then ns else [].
Proof.
  induction ns as [|[a b] ns IH]; [destruct (same h g); reflexivity|]. unfold in_group, nodes_of in *. cbn [map flat_map fst snd]. rewrite IH.
  destruct (same h g); reflexivity.
Qed.

Lemma frame_nodes_of rn d : nodes_of (txt "FRAME_SG") (all_nodes rn d) = frame_written d.
Proof. unfold all_nodes. rewrite !nodes_of_app, !nodes_of_group. destruct (do_identity d); rewrite ?nodes_of_group; cbn [same txt app]; apply app_nil_r. Qed.
Lemma meter_nodes_of rn d : nodes_of (txt "METER_SG") (all_nodes rn d) = match do_identity d with Some i => meter_written i | None => [] end.
Proof. unfold all_nodes. rewrite !nodes_of_app, !nodes_of_group. destruct (do_identity d); rewrite ?nodes_of_group; [apply app_nil_r|reflexivity]. Qed.
Lemma security_nodes_of rn d : nodes_of (txt "SECURITY_SG") (all_nodes rn d) = security_written d.
Proof. unfold all_nodes. rewrite !nodes_of_app, !nodes_of_group. destruct (do_identity d); rewrite ?nodes_of_group; apply app_nil_r. Qed.
Lemma records_nodes_of rn d : nodes_of (txt "RECORDS_SG") (all_nodes rn d) = records_written rn (do_records d).
Proof. unfold all_nodes. rewrite !nodes_of_app, !nodes_of_group. destruct (do_identity d); rewrite ?nodes_of_group; apply app_nil_r. Qed.
Lemma outside_nodes_of rn d : nodes_of [] (all_nodes rn d) = diagnostics_written d.
Proof. unfold all_nodes. rewrite !nodes_of_app, !nodes_of_group. destruct (do_identity d); rewrite ?nodes_of_group; reflexivity. Qed.

(** *** What they say *)
Lemma escaped_app e f a b s t : escaped e f a s -> escaped e f b t -> escaped e f (a ++ b) (s ++ t).
Proof.
  intros H Hb. induction H; cbn [app]; [exact Hb|apply esc_char; assumption|]. rewrite <- app_assoc. apply esc_entity; assumption.
Qed.
Lemma one_line_app a b : one_line (a ++ b) = one_line a ++ one_line b.
Proof. apply map_app. Qed.
Lemma plain_escaped s : forallb (fun c => negb ((c =? 38) || (c =? 60) || (c =? 62) || (c =? 34) || (c =? 10))) s = true ->
  escaped xml_entities label_forbidden s (one_line s).
Proof.
  induction s as [|c s IH]; intros H; [constructor|]. cbn [forallb] in H. apply andb_true_iff in H. destruct H as [H1 H2].
  apply negb_true_iff in H1. rewrite !orb_false_iff, !N.eqb_neq in H1. destruct H1 as ((((A & B) & C) & D) & E).
  cbn [one_line map]. apply N.eqb_neq in E. rewrite E. apply esc_char; [|apply IH; exact H2].
  intros H. apply N.eqb_neq in E. cbn in H. intuition.
Qed.
Lemma dec_escaped n : escaped xml_entities label_forbidden (dec n) (one_line (dec n)).
Proof.
  apply plain_escaped. apply forallb_forall. intros c Hc. destruct (dec_digits n) as [D _]. rewrite Forall_forall in D.
  specialize (D c Hc). cbv beta in D. apply negb_true_iff. rewrite !orb_false_iff, !N.eqb_neq. lia.
Qed.
Ltac esc := rewrite ?one_line_app;
  first [apply mermaid_ok | apply dec_escaped | apply plain_escaped; vm_compute; reflexivity | apply escaped_app; esc].

Ltac says := first [apply Forall2_nil | apply Forall2_cons; [split; [reflexivity|]; cbn [snd]; unfold with_dot; esc|]].

Lemma frame_ok d : written (frame_says d) (frame_written d).
Proof.
  unfold written, frame_says, frame_written. constructor; [split; [reflexivity|]; cbn [snd]; unfold with_dot; esc|].
  destruct (fo_function _), (fo_address _); cbn [app]; repeat says.
Qed.
Lemma meter_ok d : written (meter_says d) (match do_identity d with Some i => meter_written i | None => [] end).
Proof.
  unfold meter_says. destruct (do_identity d) as [i|]; [|constructor]. unfold written, meter_written.
  constructor; [split; [reflexivity|]; cbn [snd]; unfold with_dot; esc|].
  constructor; [split; [reflexivity|]; cbn [snd]; unfold with_dot; esc|].
  destruct (id_device_type i), (id_version i); cbn [app]; repeat says.
Qed.
Lemma security_ok d : written (security_says d) (security_written d).
Proof. unfold written, security_says, security_written. repeat says. Qed.
Lemma diagnostics_ok d : written (diagnostics_say d) (diagnostics_written d).
Proof.
  unfold diagnostics_say, diagnostics_written, len. destruct (do_diagnostics d) as [|g gs] eqn:E; [constructor|].
  constructor; [|constructor]. split; [reflexivity|]. cbn [snd]. unfold with_dot. rewrite <- app_assoc. esc.
Qed.

Lemma records_ok rn d rs : do_records d = outs_of 0 rs ->
  exists said, records_say (rn_number rn) d said /\ written said (records_written rn (do_records d)).
Proof.
  intros E. exists (map (fun r => (record_node r, reading rn r)) (do_records d)). split.
  - split; [apply map_length|]. intros i r Hi. exists (reading rn r). rewrite nth_error_map, Hi. cbn [option_map].
    rewrite E in Hi. destruct (outs_nth _ _ _ _ Hi) as (x & ->). split; [reflexivity|]. apply reading_shown, value_regular.
  - unfold written, records_written. induction (do_records d) as [|r l IH]; cbn [map]; [constructor|].
    constructor; [split; [reflexivity|apply mermaid_ok]|]. clear -l rn. induction l as [|r l IH]; cbn [map]; [constructor|].
    constructor; [split; [reflexivity|apply mermaid_ok]|exact IH].
Qed.

(** *** Names *)
Definition group_names (d : decoded_output) : list text :=
  [txt "FRAME_SG"] ++ (if is_some (do_identity d) then [txt "METER_SG"] else []) ++ [txt "SECURITY_SG"]
  ++ (match do_records d with [] => [] | _ => [txt "RECORDS_SG"] end).
Definition fixed_names (d : decoded_output) : list text :=
  frame_nodes d ++ (match do_identity d with Some i => meter_nodes i | None => [] end) ++ [txt "SECURITY_MODE"; txt "SECURITY_STATE"].
Definition last_names (d : decoded_output) : list text := match do_diagnostics d with [] => [] | _ => [txt "DIAG"] end.

Lemma names_of_nodes rn d : map (fun x => snd (fst x)) (all_nodes rn d) =
  fixed_names d ++ map record_node (do_records d) ++ last_names d.
Proof.
  unfold all_nodes, fixed_names, last_names. rewrite !map_app.
  assert (G : forall g ns, map (fun x : text * text * text => snd (fst x)) (in_group g ns) = map fst ns).
  { intros g ns. unfold in_group. rewrite map_map. reflexivity. }
  rewrite !G, frame_names. rewrite <- ?app_assoc. f_equal.
  destruct (do_identity d) as [i|].
  - rewrite G, meter_names, <- ?app_assoc. f_equal. cbn [security_written map fst app]. f_equal. f_equal.
    unfold records_written. rewrite map_map. f_equal. unfold diagnostics_written. destruct (do_diagnostics d); reflexivity.
  - cbn [app map]. cbn [security_written map fst app]. f_equal. f_equal.
    unfold records_written. rewrite map_map. f_equal. unfold diagnostics_written. destruct (do_diagnostics d); reflexivity.
Qed.

Lemma groups_app a b : groups (a ++ b) = groups a ++ groups b.
Proof. apply flat_map_app. Qed.
Lemma groups_quiet es : Forall quiet es -> groups es = [].
Proof. induction 1 as [|e es He _ IH]; [reflexivity|]. destruct e; try destruct He; exact IH. Qed.
Lemma groups_nodes ns : groups (map (fun n : text * text => Node (fst n) (snd n)) ns) = [].
Proof. induction ns as [|n ns IH]; [reflexivity|exact IH]. Qed.
Lemma groups_group n l ns es : Forall quiet es -> groups (group_of n l ns es) = [n].
Proof. intros H. unfold group_of. rewrite !groups_app, groups_nodes, (groups_quiet es H). reflexivity. Qed.
Lemma groups_diagram rn d : groups (statements_of rn d) = group_names d.
Proof.
  unfold statements_of, group_names. rewrite !groups_app.
  assert (A : groups [Flowchart] = []) by reflexivity.
  assert (B : groups [Blank] = []) by reflexivity.
  assert (C : groups (map ClassDef class_names) = []) by reflexivity.
  assert (F : groups (frame_statements d) = [txt "FRAME_SG"]) by (apply groups_group, quiet_chain).
  assert (R : groups (class_statements d) = []) by (apply groups_quiet, classes_quiet).
  assert (D : groups (diagnostics_statements d) = []).
  { unfold diagnostics_statements. rewrite groups_app, groups_nodes. destruct (do_diagnostics d); reflexivity. }
  assert (S : groups (security_statements d) = [txt "SECURITY_SG"]).
  { unfold security_statements. rewrite groups_app, groups_group by apply quiet_chain. reflexivity. }
  assert (T : groups (records_statements rn d) = match do_records d with [] => [] | _ => [txt "RECORDS_SG"] end).
  { unfold records_statements. destruct (do_records d); [reflexivity|]. rewrite groups_app, groups_group; [reflexivity|].
    apply Forall_forall. intros s H. apply in_map_iff in H. destruct H as (e & <- & _). exact I. }
  assert (M : groups (match do_identity d with Some i => meter_statements i | None => [] end) =
              if is_some (do_identity d) then [txt "METER_SG"] else []).
  { destruct (do_identity d) as [i|]; [|reflexivity]. unfold meter_statements. rewrite groups_app, groups_group by apply quiet_chain. reflexivity. }
  rewrite A, B, C, F, R, D, S, T, M, !app_nil_r. reflexivity.
Qed.

Lemma fixed_distinct d : NoDup (group_names d ++ fixed_names d ++ last_names d) /\
  forall n, In n (group_names d ++ fixed_names d ++ last_names d) -> match n with 82 :: c :: _ => 58 <= c | _ => True end.
Proof.
  unfold group_names, fixed_names, frame_nodes, last_names.
  assert (D : forall l : list text,
    (fix go (l : list text) := match l with [] => true | x :: l => negb (existsb (text_eqb x) l) && go l end) l &&
    forallb (fun n : text => match n with 82 :: c :: _ => 58 <=? c | _ => true end) l = true ->
    NoDup l /\ forall n, In n l -> match n with 82 :: c :: _ => 58 <= c | _ => True end).
  { intros l H. apply andb_true_iff in H. destruct H as [H1 H2]. split; [apply nodup_text; exact H1|].
    intros n Hn. rewrite forallb_forall in H2. specialize (H2 n Hn). cbv beta in H2.
    destruct n as [|x [|c n]]; try exact I; destruct x as [|[]]; try exact I.
    all: repeat match goal with |- context [match ?p with _ => _ end] => is_var p; destruct p; try exact I end.
    all: try (apply N.leb_le; exact H2). }
  destruct (is_some (fo_function _)), (is_some (fo_address _)), (do_records d), (do_diagnostics d);
    (destruct (do_identity d) as [i|]; [unfold meter_nodes; destruct (is_some (id_device_type i)), (is_some (id_version i))|]);
    apply D; vm_compute; reflexivity.
Qed.

Lemma record_names_distinct rs : forall k, NoDup (map record_node (outs_of k rs)) /\
  forall n, In n (map record_node (outs_of k rs)) -> exists i, k <= i /\ n = txt "R" ++ dec i.
Proof.
  induction rs as [|r rs IH]; intros k; [split; [constructor|intros n []]|]. cbn [outs_of map]. destruct (IH (k + 1)) as [I1 I2]. split.
  - constructor; [|exact I1]. intros H. destruct (I2 _ H) as (i & Hi & E). unfold record_node in E. cbn in E. inversion E as [E'].
    apply dec_injective in E'. lia.
  - intros n [<-|H]; [exists k; split; [lia|reflexivity]|]. destruct (I2 n H) as (i & Hi & ->). exists i. split; [lia|reflexivity].
Qed.

Lemma record_name_apart i n : (match n with 82 :: c :: _ => 58 <= c | _ => True end) -> n <> txt "R" ++ dec i.
Proof.
  intros H ->. destruct (dec_digits i) as [D N]. destruct (dec i) as [|c t]; [congruence|].
  assert (H' : 58 <= c) by exact H. apply Forall_inv in D. cbv beta in D. lia.
Qed.

Lemma nodup_middle {A} (a b c : list A) : NoDup (a ++ c) -> NoDup b -> (forall x, In x b -> ~ In x (a ++ c)) -> NoDup (a ++ b ++ c).
Proof.
  intros Hac Hb H. induction a as [|x a IH]; cbn [app] in *.
  - apply nodup_app; [exact Hb|exact Hac|]. intros y H1 H2. exact (H y H1 H2).
  - inversion Hac; subst. constructor.
    + intros Hin. apply in_app_or in Hin. destruct Hin as [Hin|Hin]; [apply H2, in_or_app; left; exact Hin|].
      apply in_app_or in Hin. destruct Hin as [Hin|Hin]; [apply (H x Hin); left; reflexivity|apply H2, in_or_app; right; exact Hin].
    + apply IH; [assumption|]. intros y Hy Hin. apply (H y Hy). right. exact Hin.
Qed.

Lemma names_distinct rn d rs : do_records d = outs_of 0 rs ->
  NoDup (groups (statements_of rn d) ++ map (fun x => snd (fst x)) (all_nodes rn d)).
Proof.
  intros E. rewrite groups_diagram, names_of_nodes. destruct (fixed_distinct d) as [F1 F2].
  rewrite app_assoc. destruct (record_names_distinct rs 0) as [R1 R2]. rewrite <- E in R1, R2.
  apply nodup_middle; [rewrite <- app_assoc; exact F1|exact R1|].
  intros x Hx Hin. rewrite <- app_assoc in Hin. destruct (R2 x Hx) as (i & _ & ->).
  assert (H := F2 _ Hin). revert H. generalize (record_name_apart i (txt "R" ++ dec i)). intros G H. exact (G H eq_refl).
Qed.

(** *** References *)
Lemma references_app a b : references (a ++ b) = references a ++ references b.
Proof. apply flat_map_app. Qed.
Lemma chain_names (P : text -> Prop) l : Forall P l -> Forall (fun e => P (fst e) /\ P (snd e)) (chain l).
Proof.
  induction 1 as [|a l Ha F IH]; [constructor|]. destruct l as [|b l]; [constructor|]. inversion F; subst. constructor; [split; assumption|exact IH].
Qed.
Lemma edge_references (P : text -> Prop) ns : Forall P (map fst ns) -> Forall P (references (edge_chain ns)).
Proof.
  intros H. unfold edge_chain. apply chain_names in H. induction H as [|e l [H1 H2] _ IH]; [constructor|]. cbn. constructor; [exact H1|constructor; [exact H2|exact IH]].
Qed.
Lemma beside_references (P : text -> Prop) l : Forall P l -> Forall P (references (map (fun e => Beside (fst e) (snd e)) (chain l))).
Proof.
  intros H. apply chain_names in H. induction H as [|e ls [H1 H2] _ IH]; [constructor|]. cbn. constructor; [exact H1|constructor; [exact H2|exact IH]].
Qed.
Lemma node_references ns : references (map (fun n : text * text => Node (fst n) (snd n)) ns) = [].
Proof. induction ns as [|n ns IH]; [reflexivity|exact IH]. Qed.
Lemma group_references (P : text -> Prop) n l ns es : Forall P (references es) -> Forall P (references (group_of n l ns es)).
Proof. intros H. unfold group_of. rewrite !references_app, node_references. cbn [references flat_map app]. rewrite app_nil_r. exact H. Qed.

Lemma all_references rn d : Forall (fun r => In r (groups (statements_of rn d) ++ map (fun x => snd (fst x)) (all_nodes rn d))) (references (statements_of rn d)).
Proof.
  rewrite groups_diagram, names_of_nodes.
  set (P := fun r => In r (group_names d ++ fixed_names d ++ map record_node (do_records d) ++ last_names d)).
  assert (PG : forall x, In x (group_names d) -> P x) by (intros x H; apply in_or_app; left; exact H).
  assert (PF : forall x, In x (fixed_names d) -> P x) by (intros x H; apply in_or_app; right; apply in_or_app; left; exact H).
  assert (PR : forall x, In x (map record_node (do_records d)) -> P x) by (intros x H; do 2 (apply in_or_app; right); apply in_or_app; left; exact H).
  assert (PL : forall x, In x (last_names d) -> P x) by (intros x H; do 3 (apply in_or_app; right); exact H).
  assert (Gf : P (txt "FRAME_SG")) by (apply PG; left; reflexivity).
  assert (Gs : P (txt "SECURITY_SG")) by (apply PG; unfold group_names; apply in_or_app; right; apply in_or_app; right; left; reflexivity).
  assert (Gm : forall i, do_identity d = Some i -> P (txt "METER_SG")).
  { intros i E. apply PG. unfold group_names. rewrite E. right. left. reflexivity. }
  assert (Gr : do_records d <> [] -> P (txt "RECORDS_SG")).
  { intros H. apply PG. unfold group_names. do 3 (apply in_or_app; right). destruct (do_records d); [congruence|left; reflexivity]. }
  assert (Gd : do_diagnostics d <> [] -> P (txt "DIAG")).
  { intros H. apply PL. unfold last_names. destruct (do_diagnostics d); [congruence|left; reflexivity]. }
  assert (Ff : Forall P (frame_nodes d)) by (apply Forall_forall; intros x H; apply PF, in_or_app; left; exact H).
  assert (Fm : forall i, do_identity d = Some i -> Forall P (meter_nodes i)).
  { intros i E. apply Forall_forall. intros x H. apply PF. unfold fixed_names. rewrite E. apply in_or_app; right; apply in_or_app; left; exact H. }
  assert (Fs : P (txt "SECURITY_MODE") /\ P (txt "SECURITY_STATE")).
  { split; apply PF; unfold fixed_names; do 2 (apply in_or_app; right); cbn [In]; tauto. }
  unfold statements_of. rewrite !references_app. clearbody P. rewrite ?Forall_app; repeat match goal with |- _ /\ _ => split end; try apply Forall_nil.
  - unfold frame_statements. apply group_references, edge_references. rewrite frame_names. exact Ff.
  - destruct (do_identity d) as [i|] eqn:E; [|constructor]. unfold meter_statements. rewrite references_app. apply Forall_app. split.
    + apply group_references, edge_references. rewrite meter_names. apply Fm. reflexivity.
    + constructor; [exact Gf|constructor; [eapply Gm; reflexivity|constructor]].
  - unfold security_statements. rewrite references_app. apply Forall_app. split.
    + apply group_references, edge_references. constructor; [apply Fs|constructor; [apply Fs|constructor]].
    + constructor; [exact Gf|constructor; [exact Gs|constructor]].
  - unfold records_statements. destruct (do_records d) as [|r0 rest] eqn:E; [constructor|]. rewrite references_app. apply Forall_app. split.
    + apply group_references, beside_references. unfold records_written. rewrite map_map. cbn [fst]. apply Forall_forall. exact PR.
    + constructor; [|constructor; [apply Gr; discriminate|constructor]]. destruct (do_identity d) as [i|] eqn:Ei; cbn [is_some]; [eapply Gm; reflexivity|exact Gf].
  - unfold diagnostics_statements. rewrite references_app, node_references. destruct (do_diagnostics d); constructor; [exact Gf|].
    constructor; [apply Gd; discriminate|constructor].
  - unfold class_statements. rewrite !references_app. rewrite ?Forall_app; repeat match goal with |- _ /\ _ => split end.
    + cbn [references flat_map app]. rewrite app_nil_r. exact Ff.
    + destruct (do_identity d) as [i|] eqn:E; [|constructor]. specialize (Fm i eq_refl). unfold meter_nodes in Fm.
      apply Forall_app in Fm. destruct Fm as [M1 M2]. apply Forall_app in M2. destruct M2 as [M2 M3]. rewrite !references_app.
      rewrite ?Forall_app; repeat match goal with |- _ /\ _ => split end.
      * exact M1.
      * destruct (is_some (id_device_type i)); [exact M2|constructor].
      * destruct (is_some (id_version i)); [exact M3|constructor].
    + constructor; [apply Fs|constructor; [apply Fs|constructor]].
    + apply Forall_forall. intros x H. unfold references in H. apply in_flat_map in H. destruct H as (s & Hs & Hx).
      apply in_flat_map in Hs. destruct Hs as (r & Hr & [<-|[]]). destruct Hx as [<-|[]]. apply PR, in_map. exact Hr.
    + destruct (do_diagnostics d); constructor; [apply Gd; discriminate|constructor].
    + constructor; [exact Gf|constructor].
    + destruct (do_identity d) as [i|] eqn:E; constructor; [eapply Gm; reflexivity|constructor].
    + constructor; [exact Gs|constructor].
    + destruct (do_records d); constructor; [apply Gr; discriminate|constructor].
Qed.

(** *** Classes and arrows *)
Lemma used_app a b : classes_used (a ++ b) = classes_used a ++ classes_used b.
Proof. apply flat_map_app. Qed.
Lemma defined_app a b : classes_defined (a ++ b) = classes_defined a ++ classes_defined b.
Proof. apply flat_map_app. Qed.
Lemma arrows_app a b : arrows (a ++ b) = arrows a ++ arrows b.
Proof. apply flat_map_app. Qed.
Lemma neighbours_app a b : neighbours (a ++ b) = neighbours a ++ neighbours b.
Proof. apply flat_map_app. Qed.

Definition classless (s : statement) : Prop := match s with Class _ _ => False | _ => True end.
Lemma used_none es : Forall classless es -> classes_used es = [].
Proof. induction 1 as [|e es He _ IH]; [reflexivity|]. destruct e; try destruct He; exact IH. Qed.
Lemma classless_group n l ns es : Forall classless es -> Forall classless (group_of n l ns es).
Proof.
  intros H. unfold group_of. rewrite !Forall_app. split; [repeat constructor|]. split; [|split; [exact H|repeat constructor]].
  apply Forall_forall. intros s Hs. apply in_map_iff in Hs. destruct Hs as (x & <- & _). exact I.
Qed.
Lemma classless_chain ns : Forall classless (edge_chain ns).
Proof. apply Forall_forall. intros s Hs. apply in_map_iff in Hs. destruct Hs as (x & <- & _). exact I. Qed.

Lemma classes_exist rn d c : In c (classes_used (statements_of rn d)) -> In c (classes_defined (statements_of rn d)).
Proof.
  intros H. assert (D : forall x, In x class_names -> In x (classes_defined (statements_of rn d))).
  { intros x Hx. unfold statements_of. rewrite !defined_app. do 7 (apply in_or_app; right). apply in_or_app. left.
    change (classes_defined (map ClassDef class_names)) with class_names. exact Hx. }
  apply D. clear D. unfold statements_of in H. rewrite !used_app in H.
  assert (F : classes_used (frame_statements d) = []) by (apply used_none, classless_group, classless_chain).
  assert (M : classes_used (match do_identity d with Some i => meter_statements i | None => [] end) = []).
  { destruct (do_identity d); [|reflexivity]. apply used_none. unfold meter_statements. apply Forall_app. split; [apply classless_group, classless_chain|repeat constructor]. }
  assert (S : classes_used (security_statements d) = []).
  { apply used_none. unfold security_statements. apply Forall_app. split; [apply classless_group, classless_chain|repeat constructor]. }
  assert (R : classes_used (records_statements rn d) = []).
  { apply used_none. unfold records_statements. destruct (do_records d); [constructor|]. apply Forall_app. split; [apply classless_group|repeat constructor].
    apply Forall_forall. intros s Hs. apply in_map_iff in Hs. destruct Hs as (x & <- & _). exact I. }
  assert (G : classes_used (diagnostics_statements d) = []).
  { apply used_none. unfold diagnostics_statements, diagnostics_written. destruct (do_diagnostics d); repeat constructor. }
  rewrite F, M, S, R, G in H. change (classes_used [Flowchart]) with (@nil text) in H. change (classes_used [Blank]) with (@nil text) in H.
  change (classes_used (map ClassDef class_names)) with (@nil text) in H. cbn [app] in H.
  unfold class_statements in H. rewrite !used_app in H.
  assert (K : forall w, In (txt w) class_names -> c = txt w -> In c class_names) by (intros w Hw ->; exact Hw).
  rewrite !in_app_iff in H. destruct H as [H|[H|[H|[H|[H|[H|[H|[H|H]]]]]]]].
  - destruct H as [<-|[]]. cbn; tauto.
  - destruct (do_identity d) as [i|]; [|destruct H]. rewrite !used_app, !in_app_iff in H. destruct H as [H|[H|H]];
      try (destruct (is_some _)); first [destruct H as [<-|[]]; cbn; tauto | destruct H].
  - destruct H as [<-|[]]. cbn; tauto.
  - unfold classes_used in H. apply in_flat_map in H. destruct H as (s & Hs & Hx). apply in_flat_map in Hs. destruct Hs as (r & _ & [<-|[]]).
    destruct Hx as [<-|[]]. apply record_class_ok.
  - destruct (do_diagnostics d); [destruct H|]. destruct H as [<-|[]]. cbn; tauto.
  - destruct H.
  - destruct (is_some _); destruct H.
  - destruct H.
  - destruct (do_records d); destruct H.
Qed.

Lemma arrows_nodes ns : arrows (map (fun n : text * text => Node (fst n) (snd n)) ns) = [].
Proof. induction ns as [|n ns IH]; [reflexivity|exact IH]. Qed.
Lemma arrows_chain ns : arrows (edge_chain ns) = chain (map fst ns).
Proof. unfold edge_chain. induction (chain (map fst ns)) as [|[a b] l IH]; [reflexivity|]. cbn. f_equal. exact IH. Qed.
Lemma arrows_group n l ns es : arrows (group_of n l ns es) = arrows es.
Proof. unfold group_of. rewrite !arrows_app, arrows_nodes. cbn [arrows flat_map app]. apply app_nil_r. Qed.
Lemma arrows_besides l : arrows (map (fun e => Beside (fst e) (snd e)) l) = [].
Proof. induction l as [|n ns IH]; [reflexivity|exact IH]. Qed.
Definition arrowless (s : statement) : Prop := match s with Edge _ _ | Beside _ _ => False | _ => True end.
Lemma arrows_none es : Forall arrowless es -> arrows es = [] /\ neighbours es = [].
Proof. induction 1 as [|e es He _ IH]; [split; reflexivity|]. destruct e; try destruct He; exact IH. Qed.
Lemma classes_arrowless d : Forall arrowless (class_statements d).
Proof.
  unfold class_statements. rewrite !Forall_app. repeat match goal with |- _ /\ _ => split end; try (repeat constructor; fail).
  - destruct (do_identity d) as [i|]; [|constructor]. rewrite !Forall_app. repeat match goal with |- _ /\ _ => split end;
      try (destruct (is_some _)); repeat constructor.
  - apply Forall_forall. intros s H. apply in_flat_map in H. destruct H as (r & _ & [<-|[]]). exact I.
  - destruct (do_diagnostics d); repeat constructor.
  - destruct (is_some _); repeat constructor.
  - destruct (do_records d); repeat constructor.
Qed.

Lemma says_names said nodes : written said nodes -> map fst said = map fst nodes.
Proof. induction 1 as [|x y l m [E _] _ IH]; [reflexivity|]. cbn. rewrite E, IH. reflexivity. Qed.

Lemma arrows_diagram rn d : arrows (statements_of rn d) = expected_arrows d.
Proof.
  unfold statements_of. rewrite !arrows_app.
  assert (C : arrows (class_statements d) = []) by apply arrows_none, classes_arrowless.
  assert (F : arrows (frame_statements d) = chain (map fst (frame_says d))).
  { unfold frame_statements. rewrite arrows_group, arrows_chain, <- (says_names _ _ (frame_ok d)). reflexivity. }
  assert (M : arrows (match do_identity d with Some i => meter_statements i | None => [] end) =
    chain (map fst (meter_says d)) ++ (match do_identity d with Some _ => [(txt "FRAME_SG", txt "METER_SG")] | None => [] end)).
  { rewrite (says_names _ _ (meter_ok d)). destruct (do_identity d) as [i|]; [|reflexivity].
    unfold meter_statements. rewrite arrows_app, arrows_group, arrows_chain. reflexivity. }
  assert (S : arrows (security_statements d) = [(txt "SECURITY_MODE", txt "SECURITY_STATE"); (txt "FRAME_SG", txt "SECURITY_SG")]).
  { unfold security_statements. rewrite arrows_app, arrows_group, arrows_chain. reflexivity. }
  assert (R : arrows (records_statements rn d) = match do_records d with [] => [] | _ =>
    [(match do_identity d with Some _ => txt "METER_SG" | None => txt "FRAME_SG" end, txt "RECORDS_SG")] end).
  { unfold records_statements. destruct (do_records d); [reflexivity|]. rewrite arrows_app, arrows_group, arrows_besides.
    destruct (do_identity d); reflexivity. }
  assert (G : arrows (diagnostics_statements d) = match do_diagnostics d with [] => [] | _ => [(txt "FRAME_SG", txt "DIAG")] end).
  { unfold diagnostics_statements. rewrite arrows_app, arrows_nodes. destruct (do_diagnostics d); reflexivity. }
  rewrite C, F, M, S, R, G. change (arrows [Flowchart]) with (@nil (text * text)). change (arrows [Blank]) with (@nil (text * text)).
  change (arrows (map ClassDef class_names)) with (@nil (text * text)). cbn [app]. rewrite ?app_nil_r.
  unfold expected_arrows. rewrite <- !app_assoc. destruct (do_identity d); reflexivity.
Qed.

Lemma neighbours_nodes ns : neighbours (map (fun n : text * text => Node (fst n) (snd n)) ns) = [].
Proof. induction ns as [|n ns IH]; [reflexivity|exact IH]. Qed.
Lemma neighbours_chain ns : neighbours (edge_chain ns) = [].
Proof. unfold edge_chain. induction (chain (map fst ns)) as [|[a b] l IH]; [reflexivity|exact IH]. Qed.
Lemma neighbours_group n l ns es : neighbours (group_of n l ns es) = neighbours es.
Proof. unfold group_of. rewrite !neighbours_app, neighbours_nodes. cbn [neighbours flat_map app]. apply app_nil_r. Qed.
Lemma neighbours_besides l : neighbours (map (fun e => Beside (fst e) (snd e)) l) = l.
Proof. induction l as [|[a b] l IH]; [reflexivity|]. cbn. f_equal. exact IH. Qed.

Lemma neighbours_diagram rn d : neighbours (statements_of rn d) = chain (map record_node (do_records d)).
Proof.
  unfold statements_of. rewrite !neighbours_app.
  assert (C : neighbours (class_statements d) = []) by apply arrows_none, classes_arrowless.
  assert (F : neighbours (frame_statements d) = []) by (unfold frame_statements; rewrite neighbours_group; apply neighbours_chain).
  assert (M : neighbours (match do_identity d with Some i => meter_statements i | None => [] end) = []).
  { destruct (do_identity d) as [i|]; [|reflexivity]. unfold meter_statements. rewrite neighbours_app, neighbours_group, neighbours_chain. reflexivity. }
  assert (S : neighbours (security_statements d) = []).
  { unfold security_statements. rewrite neighbours_app, neighbours_group, neighbours_chain. reflexivity. }
  assert (R : neighbours (records_statements rn d) = chain (map record_node (do_records d))).
  { unfold records_statements. destruct (do_records d) as [|r0 rest]; [reflexivity|]. generalize (r0 :: rest). intros l.
    rewrite neighbours_app, neighbours_group, neighbours_besides. unfold records_written. rewrite map_map. apply app_nil_r. }
  assert (G : neighbours (diagnostics_statements d) = []).
  { unfold diagnostics_statements. rewrite neighbours_app, neighbours_nodes. destruct (do_diagnostics d); reflexivity. }
  rewrite C, F, M, S, R, G. cbn [app]. rewrite ?app_nil_r. reflexivity.
Qed.

Lemma diagram_shown env rn data options t : render_bytes env rn data FMermaid options = Ok t ->
  exists d lines statements l said,
    decode_bytes env data (op_key options) (op_include_enrichment options) = Ok d /\
    t = unlines lines /\ Forall (fun line => ~ In 10 line) lines /\ map read_statement lines = map Some statements /\
    well_formed statements l /\
    written (frame_says d) (nodes_of (txt "FRAME_SG") l) /\
    written (meter_says d) (nodes_of (txt "METER_SG") l) /\
    written (security_says d) (nodes_of (txt "SECURITY_SG") l) /\
    records_say (rn_number rn) d said /\ written said (nodes_of (txt "RECORDS_SG") l) /\
    written (diagnostics_say d) (nodes_of [] l) /\
    arrows statements = expected_arrows d /\ neighbours statements = chain (map fst said).
Proof.
  intros H. unfold render_bytes in H. cbv zeta in H. bind_inv H. apply Ok_inj in H. subst t.
  destruct (decode_bytes env data (op_key options) (op_include_enrichment options)) as [d| |] eqn:D; try discriminate.
  apply Ok_inj in Ha. subst a. destruct (decoded_outs _ _ _ _ _ D) as (rs & E).
  destruct (reads_diagram rn d) as (lines & L1 & L2 & L3). destruct (records_ok rn d rs E) as (said & S1 & S2).
  exists d, lines, (statements_of rn d), (all_nodes rn d), said.
  split; [reflexivity|]. split; [exact L1|]. split; [exact L2|]. split; [exact L3|]. split; [|].
  { split; [apply nodes_of_diagram|]. split; [eapply names_distinct; exact E|]. split; [|apply classes_exist].
    intros r Hr. pose proof (all_references rn d) as A. rewrite Forall_forall in A. apply A. exact Hr. }
  rewrite frame_nodes_of, meter_nodes_of, security_nodes_of, records_nodes_of, outside_nodes_of.
  split; [apply frame_ok|]. split; [apply meter_ok|]. split; [apply security_ok|]. split; [exact S1|]. split; [exact S2|].
  split; [apply diagnostics_ok|]. split; [apply arrows_diagram|].
  rewrite neighbours_diagram. f_equal. rewrite (says_names _ _ S2). unfold records_written. rewrite map_map. reflexivity.
Qed.
