(** Lemmas about the diagram of a frame. *)
From Coq Require Import String List NArith Lia Bool.
Import ListNotations.
From Verif Require Import Model.Base Model.Text Model.Show Model.Escape Model.Format Model.Output Model.Rscada Model.Render
  Spec.TableSpec Spec.EscapeSpec Spec.RenderSpec Spec.MermaidSpec Spec.DiagramSpec
  Proof.BaseFacts Proof.TextFacts Proof.ShowFacts Proof.EscapeFacts Proof.TableFacts Proof.RecordFacts Proof.OutputRecords Proof.RenderFacts.
Open Scope N_scope.
Open Scope list_scope.

Lemma same_ok a b : same a b = true <-> a = b.
Proof.
  revert b. induction a as [|x a IH]; intros [|y b]; cbn; try (split; congruence).
  rewrite andb_true_iff, N.eqb_eq, IH. split; [intros [-> ->]; reflexivity|intros H; inversion H; auto].
Qed.

Lemma take_all p s rest : Forall (fun c => p c = true) s -> match rest with c :: _ => p c = false | [] => True end ->
  take p (s ++ rest) = (s, rest).
Proof.
  intros H Hr. induction H as [|c s Hc _ IH]; cbn.
  - destruct rest as [|c rest]; [reflexivity|]. cbn. rewrite Hr. reflexivity.
  - rewrite Hc, IH. reflexivity.
Qed.

(** names *)
Definition keywords : list text := map txt ["flowchart"; "direction"; "end"; "subgraph"; "classDef"; "style"; "class"]%string.
Definition name_ok (n : text) : Prop := n <> [] /\ Forall (fun c => word_char c = true) n /\ ~ In n keywords.
Definition label_ok (l : text) : Prop := Forall (fun c => c <> 34 /\ c <> 10) l.

Lemma name_no_space n : name_ok n -> match n with c :: _ => (c =? 32) = false | [] => False end.
Proof.
  intros (H & F & _). destruct n as [|c n]; [congruence|]. inversion F; subst. apply N.eqb_neq. intros ->. discriminate.
Qed.
Lemma name_no_feed n : name_ok n -> ~ In 10 n.
Proof. intros (_ & F & _) H. rewrite Forall_forall in F. specialize (F 10 H). discriminate. Qed.

Lemma read_label_ok l : label_ok l -> read_label ([91; 34] ++ l ++ [34; 93]) = Some l.
Proof.
  intros H. cbn [app read_label]. rewrite (take_all (fun c => negb (c =? 34)) l [34; 93]).
  - reflexivity.
  - eapply Forall_impl; [|exact H]. cbn. intros c [Hc _]. apply negb_true_iff, N.eqb_neq. exact Hc.
  - reflexivity.
Qed.

Lemma spaces_name k n rest : name_ok n -> take (fun c => c =? 32) (repeat 32 k ++ n ++ rest) = (repeat 32 k, n ++ rest).
Proof.
  intros H. apply take_all.
  - apply Forall_forall. intros c Hc. apply repeat_spec in Hc. subst. reflexivity.
  - assert (N := name_no_space n H). destruct n; [destruct N|exact N].
Qed.

Lemma not_keyword n w : name_ok n -> In (txt w) keywords -> same n (txt w) = false.
Proof. intros (_ & _ & H) Hw. destruct (same n (txt w)) eqn:E; [|reflexivity]. apply same_ok in E. subst. contradiction. Qed.

Lemma read_name k n rest : name_ok n -> match rest with c :: _ => word_char c = false | [] => True end ->
  read_statement (repeat 32 k ++ n ++ rest) =
  match read_label rest with
  | Some l => Some (Node n l)
  | None =>
      match after (txt " --> ") rest with
      | Some r => match whole_word r with Some b => Some (Edge n b) | None => None end
      | None =>
          match after (txt " ~~~ ") rest with
          | Some r => match whole_word r with Some b => Some (Beside n b) | None => None end
          | None => None
          end
      end
  end.
Proof.
  intros Hn Hr. unfold read_statement. rewrite spaces_name by exact Hn. cbn [snd].
  assert (E : exists c t, n ++ rest = c :: t) by (destruct Hn as (H & _); destruct n; [congruence|do 2 eexists; reflexivity]).
  destruct E as (c & t & E). rewrite E at 1. cbv iota beta.
  rewrite (take_all word_char n rest (proj1 (proj2 Hn)) Hr). cbv zeta.
  rewrite !(not_keyword n _ Hn) by (cbn; tauto). reflexivity.
Qed.

Lemma read_node k n l : name_ok n -> label_ok l ->
  read_statement (repeat 32 k ++ n ++ [91; 34] ++ l ++ [34; 93]) = Some (Node n l).
Proof. intros Hn Hl. rewrite read_name; [|exact Hn|reflexivity]. rewrite read_label_ok by exact Hl. reflexivity. Qed.

Lemma whole_name n : name_ok n -> whole_word n = Some n.
Proof.
  intros (H & F & _). unfold whole_word. destruct n as [|c n]; [congruence|].
  replace (forallb word_char (c :: n)) with true; [reflexivity|]. symmetry. apply forallb_forall. apply Forall_forall. exact F.
Qed.
Lemma read_edge k a b : name_ok a -> name_ok b -> read_statement (repeat 32 k ++ a ++ txt " --> " ++ b) = Some (Edge a b).
Proof.
  intros Ha Hb. rewrite read_name; [|exact Ha|reflexivity].
  change (read_label (txt " --> " ++ b)) with (@None (list N)). change (after (txt " --> ") (txt " --> " ++ b)) with (Some b).
  cbv iota beta. rewrite whole_name by exact Hb. reflexivity. Qed.
Lemma read_beside k a b : name_ok a -> name_ok b -> read_statement (repeat 32 k ++ a ++ txt " ~~~ " ++ b) = Some (Beside a b).
Proof.
  intros Ha Hb. rewrite read_name; [|exact Ha|reflexivity].
  change (read_label (txt " ~~~ " ++ b)) with (@None (list N)). change (after (txt " --> ") (txt " ~~~ " ++ b)) with (@None (list N)).
  change (after (txt " ~~~ ") (txt " ~~~ " ++ b)) with (Some b). cbv iota beta. rewrite whole_name by exact Hb. reflexivity. Qed.

(** *** Text and statements *)
Definition reads (t : text) (statements : list statement) : Prop :=
  exists lines, t = unlines lines /\ Forall (fun l => ~ In 10 l) lines /\ map read_statement lines = map Some statements.

Lemma reads_nil : reads [] [].
Proof. exists []. split; [reflexivity|split; [constructor|reflexivity]]. Qed.
Lemma reads_app a b s u : reads a s -> reads b u -> reads (a ++ b) (s ++ u).
Proof.
  intros (l & -> & F & M) (l' & -> & F' & M'). exists (l ++ l'). rewrite unlines_app, !map_app, M, M'.
  split; [reflexivity|]. split; [apply Forall_app; auto|reflexivity].
Qed.
Lemma reads_line l s : ~ In 10 l -> read_statement l = Some s -> reads (line l) [s].
Proof. intros H E. exists [l]. split; [symmetry; apply unlines_one|]. split; [constructor; [exact H|constructor]|cbn; rewrite E; reflexivity]. Qed.
Lemma reads_flat {A} (f : A -> text) (g : A -> list statement) l : (forall a, In a l -> reads (f a) (g a)) -> reads (flat_map f l) (flat_map g l).
Proof.
  induction l as [|a l IH]; intros H; [apply reads_nil|]. cbn [flat_map]. apply reads_app; [apply H; left; reflexivity|].
  apply IH. intros b Hb. apply H. right. exact Hb.
Qed.

Lemma feed_free l : forallb (fun c => negb (c =? 10)) l = true -> ~ In 10 l.
Proof. intros H Hin. rewrite forallb_forall in H. specialize (H 10 Hin). discriminate. Qed.

Lemma not_in_app (x : N) a b : ~ In x a -> ~ In x b -> ~ In x (a ++ b).
Proof. intros H1 H2 H. apply in_app_or in H. tauto. Qed.
Lemma label_no_feed l : label_ok l -> ~ In 10 l.
Proof. intros H Hin. unfold label_ok in H. rewrite Forall_forall in H. destruct (H 10 Hin). congruence. Qed.

Lemma reads_node n l : name_ok n -> label_ok l -> reads (node n l) [Node n l].
Proof.
  intros Hn Hl. unfold node. apply reads_line.
  - repeat apply not_in_app; try (apply feed_free; reflexivity); [apply name_no_feed; exact Hn|apply label_no_feed; exact Hl].
  - exact (read_node 8 n l Hn Hl).
Qed.
Lemma reads_edges names : Forall name_ok names -> reads (edges (txt "-->") names) (map (fun e => Edge (fst e) (snd e)) (chain names)).
Proof.
  induction 1 as [|a names Ha F IH]; [apply reads_nil|]. destruct names as [|b names]; [apply reads_nil|].
  inversion F; subst. cbn [edges chain map fst snd].
  change (?x :: ?y) with ([x] ++ y). apply reads_app; [|exact IH]. apply reads_line.
  - repeat apply not_in_app; try (apply feed_free; reflexivity); apply name_no_feed; assumption.
  - exact (read_edge 8 a b Ha ltac:(assumption)).
Qed.
Lemma reads_besides names : Forall name_ok names -> reads (edges (txt "~~~") names) (map (fun e => Beside (fst e) (snd e)) (chain names)).
Proof.
  induction 1 as [|a names Ha F IH]; [apply reads_nil|]. destruct names as [|b names]; [apply reads_nil|].
  inversion F; subst. cbn [edges chain map fst snd].
  change (?x :: ?y) with ([x] ++ y). apply reads_app; [|exact IH]. apply reads_line.
  - repeat apply not_in_app; try (apply feed_free; reflexivity); apply name_no_feed; assumption.
  - exact (read_beside 8 a b Ha ltac:(assumption)).
Qed.

Ltac concrete := first [apply feed_free; vm_compute; reflexivity | vm_compute; reflexivity].
Ltac fixed_line := apply reads_line; [apply feed_free; vm_compute; reflexivity | vm_compute; reflexivity].

Lemma name_decide n : negb (same n []) && forallb word_char n && negb (existsb (same n) keywords) = true -> name_ok n.
Proof.
  rewrite !andb_true_iff, !negb_true_iff. intros [[H1 H2] H3]. split; [intros ->; discriminate|].
  split; [apply Forall_forall, forallb_forall; exact H2|]. intros Hin.
  assert (E : existsb (same n) keywords = true) by (apply existsb_exists; exists n; split; [exact Hin|apply same_ok; reflexivity]). congruence.
Qed.
Ltac name := apply name_decide; vm_compute; reflexivity.

Lemma record_name i : name_ok (txt "R" ++ dec i).
Proof.
  destruct (dec_digits i) as [D N]. split; [discriminate|]. split.
  - constructor; [reflexivity|]. eapply Forall_impl; [|exact D]. intros c Hc. unfold word_char. cbn in Hc.
    apply orb_true_iff. left. apply orb_true_iff. left. apply orb_true_iff. left. apply andb_true_iff. split; apply N.leb_le; lia.
  - cbn. destruct (dec i) as [|c t]; [congruence|]. intuition discriminate.
Qed.

Lemma label_app a b : label_ok a -> label_ok b -> label_ok (a ++ b).
Proof. intros; apply Forall_app; auto. Qed.
Lemma label_escape s : label_ok (mermaid_escape s).
Proof. eapply Forall_impl; [|exact (mermaid_chars s)]. cbn. tauto. Qed.
Lemma label_dec n : label_ok (dec n).
Proof. eapply Forall_impl; [|exact (proj1 (dec_digits n))]. cbn. intros; lia. Qed.
Lemma label_decide l : forallb (fun c => negb (c =? 34) && negb (c =? 10)) l = true -> label_ok l.
Proof.
  intros H. apply Forall_forall. intros c Hc. rewrite forallb_forall in H. specialize (H c Hc). cbv beta in H.
  rewrite andb_true_iff, !negb_true_iff, !N.eqb_neq in H. exact H.
Qed.
Ltac label := first [apply label_escape | apply label_dec | apply label_decide; vm_compute; reflexivity | apply label_app; label].

Lemma reads_subgraph n l : name_ok n -> label_ok l -> reads (subgraph n l) [Open n l; Direction].
Proof.
  intros Hn Hl. unfold subgraph. change [Open n l; Direction] with ([Open n l] ++ [Direction]). apply reads_app; [|fixed_line].
  apply reads_line.
  - repeat apply not_in_app; try (apply feed_free; reflexivity); [apply name_no_feed; exact Hn|apply label_no_feed; exact Hl].
  - change (read_statement (txt "    subgraph " ++ n ++ [91; 34] ++ l ++ [34; 93])) with
      (let (name, rest') := take word_char (snd (take (fun c => c =? 32) (repeat 32 1 ++ n ++ [91; 34] ++ l ++ [34; 93]))) in
       match read_label rest' with Some l => Some (Open name l) | None => None end).
    rewrite spaces_name by exact Hn. cbn [snd]. rewrite (take_all word_char n); [|exact (proj1 (proj2 Hn))|reflexivity].
    rewrite read_label_ok by exact Hl. reflexivity.
Qed.

Lemma word_or_comma n : name_ok n -> Forall (fun c => word_char c || (c =? 44) = true) n.
Proof. intros (_ & F & _). eapply Forall_impl; [|exact F]. cbn. intros c ->. reflexivity. Qed.

Lemma reads_class n c : name_ok n -> name_ok c -> reads (class_line n c) [Class [n] c].
Proof.
  intros Hn Hc. unfold class_line. apply reads_line.
  - repeat apply not_in_app; try (apply feed_free; reflexivity); apply name_no_feed; assumption.
  - change (read_statement (txt "    class " ++ n ++ txt " " ++ c)) with
      (let (names, rest') := take (fun c => word_char c || (c =? 44)) (snd (take (fun c => c =? 32) (repeat 32 1 ++ n ++ txt " " ++ c))) in
       match whole_word (snd (take (fun c => c =? 32) rest')) with
       | Some class => Some (Class (words (List.length names) names) class)
       | None => None
       end).
    rewrite spaces_name by exact Hn. cbn [snd]. rewrite (take_all (fun c => word_char c || (c =? 44)) n);
      [|apply word_or_comma; exact Hn|reflexivity].
    change (txt " " ++ c) with (repeat 32 1 ++ c). rewrite <- (app_nil_r c) at 1. rewrite spaces_name by exact Hc. cbn [snd].
    rewrite app_nil_r, whole_name by exact Hc.
    replace (words (List.length n) n) with [n]; [reflexivity|].
    destruct n as [|x n]; [destruct Hn; congruence|]. cbn [List.length words].
    assert (E := take_all word_char (x :: n) [] (proj1 (proj2 Hn)) I). rewrite app_nil_r in E. rewrite E. reflexivity.
Qed.

(** *** The statements of a diagram *)
(** a group with nodes and edges *)
Definition group_of (name label : text) (ns : list (text * text)) (es : list statement) : list statement :=
  [Open name label; Direction] ++ map (fun n => Node (fst n) (snd n)) ns ++ es ++ [End].
Definition edge_chain (ns : list (text * text)) : list statement := map (fun e => Edge (fst e) (snd e)) (chain (map fst ns)).

Definition frame_written (d : decoded_output) : list (text * text) :=
  [(txt "FRAME_KIND", mermaid_escape (do_protocol d) ++ dot ++ mermaid_escape (fo_kind (do_frame d)))]
  ++ (match fo_function (do_frame d) with Some f => [(txt "FRAME_FUNCTION", txt "Function" ++ dot ++ mermaid_escape f)] | None => [] end)
  ++ (match fo_address (do_frame d) with Some a => [(txt "FRAME_ADDRESS", txt "Address" ++ dot ++ mermaid_escape a)] | None => [] end).
Definition meter_written (i : meter_identity) : list (text * text) :=
  [(txt "METER_ID", txt "ID" ++ dot ++ mermaid_escape (match id_id i with Some t => t | None => txt "unknown" end));
   (txt "METER_MANUFACTURER", txt "Manufacturer" ++ dot ++
     mermaid_escape (match id_manufacturer_code i with Some t => t | None => txt "unknown manufacturer" end))]
  ++ (match id_device_type i with Some t => [(txt "METER_TYPE", txt "Type" ++ dot ++ mermaid_escape t)] | None => [] end)
  ++ (match id_version i with Some v => [(txt "METER_VERSION", txt "Version" ++ dot ++ dec v)] | None => [] end).
Definition security_written (d : decoded_output) : list (text * text) :=
  [(txt "SECURITY_MODE", mermaid_escape (so_payload_protection (do_security d)));
   (txt "SECURITY_STATE", mermaid_escape (so_decryption_state (do_security d)))].
Definition records_written (rn : renderers) (records : list record_out) : list (text * text) :=
  map (fun r => (record_node r, mermaid_escape (reading rn r))) records.

Definition frame_statements d : list statement := group_of (txt "FRAME_SG") (txt "Frame") (frame_written d) (edge_chain (frame_written d)).
Definition meter_statements i : list statement :=
  group_of (txt "METER_SG") (txt "Meter") (meter_written i) (edge_chain (meter_written i)) ++ [Edge (txt "FRAME_SG") (txt "METER_SG")].
Definition security_statements d : list statement :=
  group_of (txt "SECURITY_SG") (txt "Security") (security_written d) (edge_chain (security_written d)) ++ [Edge (txt "FRAME_SG") (txt "SECURITY_SG")].
Definition records_statements rn (d : decoded_output) : list statement :=
  match do_records d with
  | [] => []
  | records => group_of (txt "RECORDS_SG") (txt "Data Records" ++ dot ++ dec (len records)) (records_written rn records)
                 (map (fun e => Beside (fst e) (snd e)) (chain (map fst (records_written rn records))))
               ++ [Edge (if is_some (do_identity d) then txt "METER_SG" else txt "FRAME_SG") (txt "RECORDS_SG")]
  end.
Definition diagnostics_written (d : decoded_output) : list (text * text) :=
  match do_diagnostics d with
  | [] => []
  | g :: _ => [(txt "DIAG", dec (len (do_diagnostics d)) ++ txt " diagnostic(s)" ++ dot ++ mermaid_escape (dg_code g))]
  end.
Definition diagnostics_statements (d : decoded_output) : list statement :=
  map (fun n => Node (fst n) (snd n)) (diagnostics_written d)
  ++ (match do_diagnostics d with [] => [] | _ => [Edge (txt "FRAME_SG") (txt "DIAG")] end).
Definition class_names : list text :=
  map txt ["frame"; "meter"; "security"; "record0"; "record1"; "record2"; "record3"; "record4"; "record5"; "record6"; "record7"; "diagnostic"]%string.
Definition record_class (r : record_out) : text := txt "record" ++ [48 + ro_index r mod 8].
Definition class_statements (d : decoded_output) : list statement :=
  [Class (frame_nodes d) (txt "frame")]
  ++ (match do_identity d with
      | Some i => [Class [txt "METER_ID"; txt "METER_MANUFACTURER"] (txt "meter")]
                  ++ (if is_some (id_device_type i) then [Class [txt "METER_TYPE"] (txt "meter")] else [])
                  ++ (if is_some (id_version i) then [Class [txt "METER_VERSION"] (txt "meter")] else [])
      | None => []
      end)
  ++ [Class [txt "SECURITY_MODE"; txt "SECURITY_STATE"] (txt "security")]
  ++ flat_map (fun r => [Class [record_node r] (record_class r)]) (do_records d)
  ++ (match do_diagnostics d with [] => [] | _ => [Class [txt "DIAG"] (txt "diagnostic")] end)
  ++ [Style (txt "FRAME_SG")]
  ++ (if is_some (do_identity d) then [Style (txt "METER_SG")] else [])
  ++ [Style (txt "SECURITY_SG")]
  ++ (match do_records d with [] => [] | _ => [Style (txt "RECORDS_SG")] end).
Definition statements_of rn (d : decoded_output) : list statement :=
  [Flowchart] ++ frame_statements d ++ (match do_identity d with Some i => meter_statements i | None => [] end)
  ++ security_statements d ++ records_statements rn d ++ diagnostics_statements d
  ++ [Blank] ++ map ClassDef class_names ++ class_statements d.

Lemma record_node_ok r : name_ok (record_node r).
Proof. apply record_name. Qed.
Lemma record_class_ok r : name_ok (record_class r) /\ In (record_class r) class_names.
Proof.
  unfold record_class. assert (M := N.mod_lt (ro_index r) 8 ltac:(lia)). revert M. generalize (ro_index r mod 8). intros m M.
  assert (C : m = 0 \/ m = 1 \/ m = 2 \/ m = 3 \/ m = 4 \/ m = 5 \/ m = 6 \/ m = 7) by lia.
  decompose [or] C; subst m; (split; [name|unfold class_names; cbn [map In]; cbn; tauto]).
Qed.

Lemma reads_nodes ns : Forall (fun n => name_ok (fst n) /\ label_ok (snd n)) ns ->
  reads (flat_map (fun n => node (fst n) (snd n)) ns) (map (fun n => Node (fst n) (snd n)) ns).
Proof.
  induction 1 as [|n ns [Hn Hl] _ IH]; [apply reads_nil|]. cbn [flat_map map]. change (?x :: ?y) with ([x] ++ y).
  apply reads_app; [apply reads_node; assumption|exact IH].
Qed.

Lemma frame_written_ok d : Forall (fun n => name_ok (fst n) /\ label_ok (snd n)) (frame_written d).
Proof.
  unfold frame_written. apply Forall_app. split; [constructor; [split; [name|label]|constructor]|].
  apply Forall_app. split; [destruct (fo_function _)|destruct (fo_address _)]; try constructor; try constructor; cbn [fst snd]; first [name|label].
Qed.
Lemma meter_written_ok i : Forall (fun n => name_ok (fst n) /\ label_ok (snd n)) (meter_written i).
Proof.
  unfold meter_written. apply Forall_app. split.
  - constructor; [split; [name|label]|constructor; [split; [name|label]|constructor]].
  - apply Forall_app. split; [destruct (id_device_type _)|destruct (id_version _)]; try constructor; try constructor; cbn [fst snd]; first [name|label].
Qed.
Lemma security_written_ok d : Forall (fun n => name_ok (fst n) /\ label_ok (snd n)) (security_written d).
Proof. constructor; [split; [name|label]|constructor; [split; [name|label]|constructor]]. Qed.
Lemma records_written_ok rn rs : Forall (fun n => name_ok (fst n) /\ label_ok (snd n)) (records_written rn rs).
Proof. apply Forall_forall. intros n Hn. apply in_map_iff in Hn. destruct Hn as (r & <- & _). split; [apply record_node_ok|label]. Qed.

Lemma names_ok ns : Forall (fun n => name_ok (fst n) /\ label_ok (snd n)) ns -> Forall name_ok (map (@fst text text) ns).
Proof. intros H. apply Forall_forall. intros x Hx. apply in_map_iff in Hx. destruct Hx as (n & <- & Hn). rewrite Forall_forall in H. apply H. exact Hn. Qed.

Lemma reads_group name label ns t es : name_ok name -> label_ok label -> Forall (fun n => name_ok (fst n) /\ label_ok (snd n)) ns ->
  reads t es -> reads (subgraph name label ++ flat_map (fun n => node (fst n) (snd n)) ns ++ t ++ line (txt "    end")) (group_of name label ns es).
Proof.
  intros Hn Hl Hns Ht. unfold group_of. apply reads_app; [apply reads_subgraph; assumption|].
  apply reads_app; [apply reads_nodes; assumption|]. apply reads_app; [exact Ht|fixed_line].
Qed.

Lemma frame_names d : map fst (frame_written d) = frame_nodes d.
Proof. unfold frame_written, frame_nodes. destruct (fo_function _), (fo_address _); reflexivity. Qed.
Lemma meter_names i : map fst (meter_written i) = meter_nodes i.
Proof. unfold meter_written, meter_nodes. destruct (id_device_type i), (id_version i); reflexivity. Qed.

Lemma reads_frame d : reads (frame_group d) (frame_statements d).
Proof.
  assert (E : frame_group d = subgraph (txt "FRAME_SG") (txt "Frame") ++ flat_map (fun n => node (fst n) (snd n)) (frame_written d) ++
    edges (txt "-->") (frame_nodes d) ++ line (txt "    end")).
  { unfold frame_group, frame_written. destruct (fo_function _), (fo_address _); cbn [flat_map app fst snd];
      rewrite ?app_nil_r, <- ?app_assoc; reflexivity. }
  rewrite E. apply reads_group; [name|label|apply frame_written_ok|]. rewrite <- frame_names. apply reads_edges, names_ok, frame_written_ok.
Qed.
Lemma reads_meter i : reads (meter_group i) (meter_statements i).
Proof.
  assert (E : meter_group i = (subgraph (txt "METER_SG") (txt "Meter") ++ flat_map (fun n => node (fst n) (snd n)) (meter_written i) ++
    edges (txt "-->") (meter_nodes i) ++ line (txt "    end")) ++ line (txt "    FRAME_SG --> METER_SG")).
  { unfold meter_group, meter_written. rewrite <- !app_assoc. destruct (id_device_type i), (id_version i); cbn [flat_map app fst snd];
      rewrite ?app_nil_r, <- ?app_assoc; reflexivity. }
  rewrite E. apply reads_app; [|fixed_line].
  apply reads_group; [name|label|apply meter_written_ok|]. rewrite <- meter_names. apply reads_edges, names_ok, meter_written_ok.
Qed.
Lemma reads_security d : reads (security_group d) (security_statements d).
Proof.
  assert (E : security_group d = (subgraph (txt "SECURITY_SG") (txt "Security") ++ flat_map (fun n => node (fst n) (snd n)) (security_written d) ++
    edges (txt "-->") (map fst (security_written d)) ++ line (txt "    end")) ++ line (txt "    FRAME_SG --> SECURITY_SG")).
  { unfold security_group, security_written. cbn [flat_map map fst snd edges]. rewrite ?app_nil_r, <- ?app_assoc. reflexivity. }
  rewrite E. apply reads_app; [|fixed_line].
  apply reads_group; [name|label|apply security_written_ok|]. apply reads_edges, names_ok, security_written_ok.
Qed.
Lemma reads_records rn d : reads (records_group rn d) (records_statements rn d).
Proof.
  unfold records_group, records_statements. destruct (do_records d) as [|r0 rest]; [apply reads_nil|].
  generalize (r0 :: rest). intros records.
  assert (E : flat_map (fun r => node (record_node r) (mermaid_escape (reading rn r))) records =
              flat_map (fun n => node (fst n) (snd n)) (records_written rn records)).
  { unfold records_written. rewrite !flat_map_concat_map, map_map. reflexivity. }
  rewrite E. clear E. assert (E : map record_node records = map fst (records_written rn records)) by (unfold records_written; rewrite map_map; reflexivity).
  rewrite E. rewrite !app_assoc, <- (app_assoc (subgraph _ _)), <- (app_assoc (subgraph _ _)), <- (app_assoc (flat_map _ _)).
  apply reads_app; [|destruct (is_some (do_identity d)); fixed_line].
  apply reads_group; [name|label|apply records_written_ok|]. apply reads_besides, names_ok, records_written_ok.
Qed.
Lemma reads_diagnostics d : reads (diagnostic_node d) (diagnostics_statements d).
Proof.
  unfold diagnostic_node, diagnostics_statements, diagnostics_written. destruct (do_diagnostics d) as [|g gs] eqn:E; [apply reads_nil|].
  cbn [map fst snd]. apply reads_app; [|fixed_line].
  set (label := dec (len (g :: gs)) ++ txt " diagnostic(s)" ++ dot ++ mermaid_escape (dg_code g)).
  assert (L : label_ok label) by label.
  assert (Et : txt "    DIAG[" ++ [34] ++ dec (len (g :: gs)) ++ txt " diagnostic(s)" ++ dot ++ mermaid_escape (dg_code g) ++ [34; 93] =
    repeat 32 4 ++ txt "DIAG" ++ [91; 34] ++ label ++ [34; 93]).
  { unfold label. rewrite <- !app_assoc. reflexivity. }
  rewrite Et. clear Et. clearbody label. apply reads_line; [|apply read_node; [name|exact L]].
  repeat apply not_in_app; try (apply feed_free; reflexivity). apply label_no_feed. exact L.
Qed.
Lemma reads_class_defs : reads class_defs (map ClassDef class_names).
Proof.
  unfold class_defs, class_names. cbn [map]. repeat (change (?x :: ?y :: ?z) with ([x] ++ y :: z); apply reads_app; [fixed_line|]). fixed_line.
Qed.
Lemma reads_classes d : reads (classes d) (class_statements d).
Proof.
  unfold classes, class_statements. repeat apply reads_app.
  - unfold frame_nodes. destruct (is_some (fo_function _)), (is_some (fo_address _)); unfold class_line; fixed_line.
  - destruct (do_identity d) as [i|]; [|apply reads_nil]. repeat apply reads_app.
    + unfold class_line; fixed_line.
    + destruct (is_some _); [unfold class_line; fixed_line|apply reads_nil].
    + destruct (is_some _); [unfold class_line; fixed_line|apply reads_nil].
  - unfold class_line; fixed_line.
  - apply reads_flat. intros r _. apply reads_class; [apply record_node_ok|apply record_class_ok].
  - destruct (do_diagnostics d); [apply reads_nil|unfold class_line; fixed_line].
  - unfold style_line; fixed_line.
  - destruct (is_some _); [unfold style_line; fixed_line|apply reads_nil].
  - unfold style_line; fixed_line.
  - destruct (do_records d); [apply reads_nil|unfold style_line; fixed_line].
Qed.

Lemma reads_diagram rn d : reads (render_mermaid rn d) (statements_of rn d).
Proof.
  unfold render_mermaid, statements_of. apply reads_app; [fixed_line|].
  apply reads_app; [apply reads_frame|]. apply reads_app; [destruct (do_identity d); [apply reads_meter|apply reads_nil]|].
  apply reads_app; [apply reads_security|]. apply reads_app; [apply reads_records|]. apply reads_app; [apply reads_diagnostics|].
  apply reads_app; [|apply reads_app; [apply reads_class_defs|apply reads_classes]].
  exists [[]]. split; [reflexivity|]. split; [constructor; [intros []|constructor]|reflexivity].
Qed.
