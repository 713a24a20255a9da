(** How records read in the older outputs. *)
From Coq Require Import List NArith ZArith Lia Bool String.
Import ListNotations.
From Verif Require Import Model.Base Model.Text Model.Core Model.F64 Model.DataInfo Model.ValueInfo Model.Record Model.Wired Model.Wireless Model.UserData Model.Hex Model.MbusData Model.Show Model.Escape Model.Output Model.Legacy
  Spec.CoreSpec Spec.TextSpec Spec.CrcSpec Spec.WiredSpec Spec.WirelessSpec Spec.AppSpec Spec.AnnotateSpec Spec.MbusSpec Spec.OutputSpec Spec.RecordSpec Spec.VifSpec Spec.DetailSpec Spec.RenderSpec Spec.LegacySpec
  Proof.BaseFacts Proof.ShowFacts Proof.RecordFacts Proof.DateFacts Proof.RscadaValues Proof.DetailRecords Proof.RenderFacts
  Proof.WiredFacts Proof.WirelessFacts Proof.AppFacts Proof.MbusFacts Proof.OutputFacts Proof.OutputRecords Proof.HexFacts Proof.LegacyRecords.
Open Scope N_scope.
Open Scope list_scope.

Lemma old_row vif row n : primary vif row n ->
  In (vr_label row, label_identifier (vr_label row)) old_quantity_texts /\ label_identifier (vr_label row) <> [] /\
  (vr_units row <> [] -> In (vr_units row, concat (map show_unit (vr_units row))) old_unit_texts /\ concat (map show_unit (vr_units row)) <> []).
Proof.
  intros (H & _). revert row H. apply Forall_forall.
  repeat (apply Forall_cons;
    [split; [vm_compute; pick|split; [vm_compute; discriminate
            |first [intros K; destruct (K eq_refl); fail|intros _; split; [vm_compute; pick|vm_compute; discriminate]]]]|]).
  apply Forall_nil.
Qed.
Lemma number_shown x : number_component x (show_single dec x).
Proof. destruct x; constructor; reflexivity. Qed.
Lemma month_shown x : month_component x (show_single Legacy.show_month x).
Proof. destruct x as [m| |]; constructor; destruct m; cbn; tauto. Qed.
Lemma join_same sep l : join sep l = separated sep l.
Proof. reflexivity. Qed.
Lemma value_written display x : old_value display x (show_data display (Some x)).
Proof.
  destruct x; cbn [show_data]; try constructor; try apply number_shown; try apply month_shown.
Qed.

Lemma old_record cf display head rest hdr h dif vif row n r :
  header_of cf head rest h dif vif -> primary vif row n -> data_record_parse cf (head ++ rest) hdr = Ok r ->
  let s := summarize_record display r in
  rs_exponent s = Some (primary_scale row n) /\
  exists u q, old_unit row (rs_unit s) u /\ rs_quantity s = Some q /\ In (vr_label row, q) old_quantity_texts /\
    forall x, d_value (dr_data r) = Some x -> exists v, old_value display x v /\
      rs_display s = txt "(" ++ v ++ txt ")" ++ old_exponent (primary_scale row n) ++ u ++ txt "(" ++ q ++ txt ")".
Proof.
  intros Hh Hp Hr. destruct (record_data _ _ _ _ Hr) as (_ & _ & _ & _ & _ & _ & Hhdr & _).
  destruct Hh as (B & Eh & Hl & Hd). pose proof Eh as Eh'. rewrite Eh' in Hhdr. apply Ok_inj in Hhdr.
  destruct (native_information cf head rest h dif vif row n) as (us & E & U1 & U2); [exact (conj B (conj Eh (conj Hl Hd)))|exact Hp|].
  destruct (old_row vif row n Hp) as (T1 & T2 & T3). intros s. subst s. unfold summarize_record. cbv zeta. rewrite <- Hhdr, E.
  cbn [rs_exponent rs_unit rs_quantity rs_display vi_decimal_scale_exponent vi_labels vi_units map join].
  split; [reflexivity|].
  assert (Q : duration row \/ ~ duration row).
  { unfold duration. destruct (vr_label row); first [left; left; reflexivity|left; right; reflexivity|right; intros [Q|Q]; discriminate Q]. }
  assert (Hu : old_unit row (not_empty (concat (map show_unit us))) (match us with [] => [] | us => txt "[" ++ concat (map show_unit us) ++ txt "]" end)).
  { destruct us as [|a us'] eqn:Eu.
    - cbn [map concat not_empty]. constructor. destruct Q as [Q|Q]; [auto|]. right. symmetry. auto.
    - rewrite <- Eu. assert (Nd : ~ duration row) by (intros D; discriminate (U2 D)). rewrite Eu, (U1 Nd).
      destruct T3 as [T3 T4]; [rewrite <- (U1 Nd); discriminate|].
      destruct (concat (map show_unit (vr_units row))) as [|c t] eqn:Ec; [contradiction|]. cbn [not_empty]. apply OuUnit; assumption. }
  exists (match us with [] => [] | us => txt "[" ++ concat (map show_unit us) ++ txt "]" end), (label_identifier (vr_label row)).
  split; [exact Hu|]. split; [destruct (label_identifier (vr_label row)); [contradiction|reflexivity]|]. split; [exact T1|].
  intros x Hx. exists (show_data display (Some x)). split; [apply value_written|]. rewrite Hx.
  unfold show_value_information, old_exponent. cbn [vi_decimal_offset_exponent vi_decimal_scale_exponent vi_labels vi_units map join].
  rewrite Z.eqb_refl. destruct us; reflexivity.
Qed.
Lemma old_number display r f : d_value (dr_data r) = Some (Number f) \/ d_value (dr_data r) = Some (LossyNumber f) ->
  rs_value (summarize_record display r) = Some f.
Proof. intros [H|H]; unfold summarize_record; cbn [rs_value]; now rewrite H. Qed.

(** ** The older chart *)
Lemma chart_message env display input data payload id u e :
  clean_and_convert input = data -> bytes_ok data -> message data payload id -> app_result payload u e ->
  (exists f a m, md_frame m = LongFrame f a payload /\ md_data_records m = block_of u /\
     parse_to_mermaid env display input = wired_chart env display m) \/
  (exists m, md_data_records m = block_of u /\ parse_to_mermaid env display input = wireless_chart env display m).
Proof.
  intros Hc B M A. unfold parse_to_mermaid. rewrite Hc. destruct M as [data f a payload W|data w fr W R Wm].
  - left. pose proof (wired_payload_ok _ _ _ _ B W) as Bp.
    destruct (with_application_block (E := mbus_error) (LongFrame f a payload) payload u e Bp A) as (m & E & Ef & Eu & Er).
    exists f, a, m. split; [exact Ef|]. split; [exact Er|].
    unfold mbus_wired_try_from. rewrite (proj2 (wired_ok_iff (env_config env) _ _) W). cbn [map_err bind wired_payload]. rewrite E. reflexivity.
  - right. pose proof (received_bytes _ _ B R) as Bw.
    pose proof (wireless_payload_ok _ _ Bw Wm) as Bp.
    destruct (with_application_block (E := mbus_error) fr (wf_data fr) u e Bp A) as (m & E & Ef & Eu & Er).
    pose proof (wireless_len _ _ Wm) as L. pose proof (received_len _ _ R) as L'.
    destruct (not_wired_error (env_config env) data W) as [e' Ew]; [lia|].
    destruct (received_frame data w fr B Bw R Wm) as (r & out & Es & En).
    exists m. split; [exact Er|].
    unfold mbus_wired_try_from. rewrite Ew. cbn [map_err bind]. rewrite Es. cbn [bind]. rewrite En.
    unfold mbus_wireless_try_from. rewrite (proj2 (wireless_ok_iff _ _ Bw) Wm). cbn [map_err bind]. rewrite E. reflexivity.
Qed.
Lemma nodes_shown display rs : forall k, old_nodes display (N.of_nat k) rs
  (concat (map (fun '(i, r) => chart_node (txt "R" ++ dec (N.of_nat i))
     (legacy_mermaid_escape (txt "(" ++ show_data display (d_value (dr_data r))
        ++ match ph_value_information (drh_processed (dr_header r)) with Some v => show_value_information v | None => [] end)))
     (combine (seq k (length rs)) rs))).
Proof.
  induction rs as [|r rs IH]; intros k; [constructor|]. cbn [length seq combine map concat].
  unfold chart_node at 1, chart_line. cbn [repeat Nat.mul Nat.add]. 
  match goal with |- old_nodes _ _ _ ((_ ++ ((_ ++ _) ++ _ ++ legacy_mermaid_escape ?t ++ _) ++ _) ++ ?rest) =>
    assert (K := OnNext display (N.of_nat k) r rs t rest) end.
  rewrite <- ?app_assoc. apply K.
  - unfold summarize_record. cbn [rs_display]. destruct (ph_value_information (drh_processed (dr_header r))); [now left|right].
    rewrite <- ?app_assoc. reflexivity.
  - replace (N.of_nat k + 1) with (N.of_nat (S k)) by lia. apply IH.
Qed.
Definition inside (n x : text) : Prop := exists b r, x = b ++ n ++ r.
Lemma inside_refl n : inside n n.
Proof. exists [], []. now rewrite app_nil_r. Qed.
Lemma inside_l n x y : inside n y -> inside n (x ++ y).
Proof. intros (b & r & ->). exists (x ++ b), r. now rewrite <- app_assoc. Qed.
Lemma inside_r n x y : inside n x -> inside n (x ++ y).
Proof. intros (b & r & ->). exists b, (r ++ y). now rewrite <- !app_assoc. Qed.
Ltac find_inside :=
  match goal with
  | |- inside ?n ?n => apply inside_refl
  | |- inside ?n (?x ++ ?y) => first [apply (inside_l n x y); find_inside|apply (inside_r n x y); find_inside]
  end.
Lemma chart_clear env display input data payload id block u rs e :
  clean_and_convert input = data -> bytes_ok data -> message data payload id -> in_clear payload block -> app_meaning payload u ->
  records_all (env_config env) block None = Some (map Ok rs) \/ records_all (env_config env) block None = Some (map Ok rs ++ [Err e]) ->
  exists before nodes rest, parse_to_mermaid env display input = Ok (before ++ nodes ++ rest) /\ old_nodes display 0 rs nodes.
Proof.
  intros Hc B M C A Hr. pose proof (message_bytes _ _ _ B M) as Bp. destruct (legacy_clear _ _ _ C Bp A) as [Le Lb].
  assert (F : flatten_records (env_config env) (records_new block None) = Ok rs).
  { unfold flatten_records. unfold records_all in Hr. cbn [rs_data records_new]. destruct Hr as [Hr|Hr]; rewrite Hr.
    - rewrite <- (app_nil_r (map Ok rs)). apply (flatten_end rs EDone).
    - apply (flatten_end rs (EErr e)). }
  pose proof (nodes_shown display rs 0) as Hn.
  destruct (chart_message env display input data payload id (Some u) None Hc B M) as [(f & a & m & Ef & Er & ->)|(m & Er & ->)]; [left; eauto| |];
    cbn [block_of] in Er; rewrite Lb in Er; cbn [option_map] in Er.
  - unfold wired_chart. rewrite Ef, Er. unfold chart_wired_records. rewrite F. cbn [bind]. unfold chart_records.
    set (nodes := concat _) in *. clearbody nodes.
    destruct (mermaid_centered_chains [txt "FTYPE"; txt "FUNC"; txt "ADDR"] 4 (txt "FP")) as [chains pads].
    match goal with |- context [match md_user_data m with _ => _ end] => destruct (match md_user_data m with Some (VariableLong _ h _) => chart_device env h | _ => ([], []) end) as [device dstyles] end.
    destruct (mermaid_centered_chains (map _ _) 4 (txt "RP")) as [rchains rpads]. cbn [bind].
    match goal with |- exists _ _ _, Ok ?x = _ /\ _ => assert (K : inside nodes x) by find_inside end.
    destruct K as (b & r & K). rewrite K. eauto.
  - unfold wireless_chart. rewrite Er, F. cbn [bind]. unfold chart_records.
    set (nodes := concat (map (fun '(i, r) => chart_node _ _) _)) in *. clearbody nodes.
    cbn [bind]. match goal with |- exists _ _ _, Ok ?x = _ /\ _ => assert (K : inside nodes x) by find_inside end.
    destruct K as (b & r & K). rewrite K. eauto.
Qed.

(** ** Rows of the chart *)
Lemma links_side row : pair_links row = side_by_side row.
Proof. induction row as [|a [|b row] IH]; [reflexivity|reflexivity|]. cbn [pair_links side_by_side] in *. now rewrite IH. Qed.
Definition pad_names (p : text) (k n : nat) : list text := map (fun i => p ++ txt "P" ++ dec (N.of_nat i)) (seq k n).
Lemma pads_eq p k n : pad_nodes (p ++ []) k n = pad_nodes p k n.
Proof. now rewrite app_nil_r. Qed.
Lemma NoDup_map {A B} (f : A -> B) l : (forall x y, f x = f y -> x = y) -> NoDup l -> NoDup (map f l).
Proof.
  intros I. induction 1 as [|x l N D IH]; cbn [map]; constructor; [|exact IH].
  intros K. apply in_map_iff in K as (y & E & Hy). apply I in E. now subst.
Qed.
Definition record_names (k n : nat) : list text := map (fun i => txt "R" ++ dec (N.of_nat i)) (seq k n).
Lemma dec_head n : exists d t, dec n = d :: t /\ digit_char d.
Proof. destruct (dec_text n) as (F & N & _ & _). destruct (dec n) as [|d t]; [contradiction|]. inversion F; subst. eauto. Qed.
Lemma row_names k n m1 m2 : NoDup (map (fun i => txt "RPP" ++ dec (N.of_nat i)) (seq 0 m1) ++ record_names k n
  ++ map (fun i => txt "RPP" ++ dec (N.of_nat i)) (seq m1 m2)).
Proof.
  apply (Permutation.Permutation_NoDup (l := map (fun i => txt "RPP" ++ dec (N.of_nat i)) (seq 0 (m1 + m2)) ++ record_names k n)).
  - rewrite seq_app, map_app, <- app_assoc. apply Permutation.Permutation_app_head. apply Permutation.Permutation_app_comm.
  - assert (D1 : NoDup (map (fun i => txt "RPP" ++ dec (N.of_nat i)) (seq 0 (m1 + m2)))).
    { apply NoDup_map; [|apply seq_NoDup]. intros x y E. apply app_inv_head in E. apply dec_injective in E. lia. }
    assert (D2 : NoDup (record_names k n)).
    { apply NoDup_map; [|apply seq_NoDup]. intros x y E. apply app_inv_head in E. apply dec_injective in E. lia. }
    assert (X : forall t, In t (map (fun i => txt "RPP" ++ dec (N.of_nat i)) (seq 0 (m1 + m2))) -> ~ In t (record_names k n)).
    { intros t H1 H2. apply in_map_iff in H1 as (i & <- & _). apply in_map_iff in H2 as (j & E & _).
      destruct (dec_head (N.of_nat j)) as (d & u & Ed & Hd). rewrite Ed in E. injection E as E _. unfold digit_char in Hd. lia. }
    induction D1 as [|x l Nx D1 IH]; [exact D2|]. cbn [app]. constructor; [|apply IH; intros t Ht; apply X; now right].
    intros K. apply in_app_or in K as [K|K]; [contradiction|]. exact (X x (or_introl eq_refl) K).
Qed.
Lemma record_rows m : forall fuel k, (m <= fuel)%nat ->
  laid_rows 4 (record_names k m) (fst (chain_rows 4 (txt "RP") 0 (chunks fuel 4 (record_names k m)))).
Proof.
  induction m as [m IH] using lt_wf_ind. intros fuel k H. destruct m as [|m]; [destruct fuel; constructor|]. destruct fuel as [|fuel]; [lia|].
  destruct (Nat.le_gt_cases 4 (S m)) as [L|L].
  - replace (S m) with (4 + (S m - 4))%nat by lia. set (q := (S m - 4)%nat) in *. unfold record_names at 2. rewrite seq_app, map_app.
    change (map _ (seq k 4)) with (record_names k 4). change (map _ (seq (k + 4) q)) with (record_names (k + 4) q).
    assert (Ln : List.length (record_names k 4) = 4%nat) by reflexivity.
    replace (chunks (S fuel) 4 (record_names k 4 ++ record_names (k + 4) q)) with (record_names k 4 :: chunks fuel 4 (record_names (k + 4) q)) by reflexivity.
    cbn [chain_rows]. unfold chain_row. rewrite Ln. cbn [Nat.eqb].
    destruct (chain_rows 4 (txt "RP") 0 (chunks fuel 4 (record_names (k + 4) q))) as [body styles] eqn:E.
    cbn [fst]. unfold record_names at 1. rewrite seq_app, map_app. change (map _ (seq k 4)) with (record_names k 4). change (map _ (seq (k + 4) q)) with (record_names (k + 4) q).
    rewrite links_side. constructor; [exact Ln|]. specialize (IH q ltac:(lia) fuel (k + 4)%nat ltac:(lia)). rewrite E in IH. exact IH.
  - assert (Ln : List.length (record_names k (S m)) = S m) by (unfold record_names; now rewrite map_length, seq_length).
    assert (E : chunks (S fuel) 4 (record_names k (S m)) = [record_names k (S m)]).
    { assert (Hf : firstn 4 (record_names k (S m)) = record_names k (S m)) by (apply firstn_all2; lia).
      assert (Hs : skipn 4 (record_names k (S m)) = []) by (apply skipn_all2; lia).
      destruct (record_names k (S m)) as [|x l] eqn:Er; [discriminate Er|]. cbn [chunks]. rewrite Hf, Hs. destruct fuel; reflexivity. }
    rewrite E. cbn [chain_rows]. unfold chain_row. rewrite Ln. rewrite (proj2 (Nat.eqb_neq (S m) 4)) by lia.
    unfold pad_nodes. cbn [fst]. rewrite app_nil_r, links_side.
    set (left := Nat.div2 (4 - S m)). set (right := (4 - S m - left)%nat). cbn [Nat.add].
    change (fun i : nat => txt "RP" ++ txt "P" ++ dec (N.of_nat i)) with (fun i : nat => txt "RPP" ++ dec (N.of_nat i)).
    rewrite app_assoc, <- concat_app, <- map_app. apply RowsLast.
    + intros K. rewrite K in Ln. discriminate Ln.
    + lia.
    + apply row_names.
    + rewrite !app_length, !map_length, !seq_length, Ln. unfold right, left. destruct m as [|[|[|m]]]; try reflexivity. lia.
    + rewrite !map_length, !seq_length. unfold right, left. destruct m as [|[|[|m]]]; cbn; lia.
Qed.
Lemma chart_rows env display input data payload block u rs e :
  clean_and_convert input = data -> bytes_ok data -> message data payload None -> in_clear payload block -> app_meaning payload u ->
  records_all (env_config env) block None = Some (map Ok rs) \/ records_all (env_config env) block None = Some (map Ok rs ++ [Err e]) ->
  exists before nodes rows rest, parse_to_mermaid env display input = Ok (before ++ nodes ++ rows ++ txt "    end" ++ [10] ++ rest) /\
    old_nodes display 0 rs nodes /\ laid_rows 4 (map (fun i => txt "R" ++ dec (N.of_nat i)) (seq 0 (List.length rs))) rows.
Proof.
  intros Hc B M C A Hr. pose proof (message_bytes _ _ _ B M) as Bp. destruct (legacy_clear _ _ _ C Bp A) as [Le Lb].
  assert (F : flatten_records (env_config env) (records_new block None) = Ok rs).
  { unfold flatten_records. unfold records_all in Hr. cbn [rs_data records_new]. destruct Hr as [Hr|Hr]; rewrite Hr.
    - rewrite <- (app_nil_r (map Ok rs)). apply (flatten_end rs EDone).
    - apply (flatten_end rs (EErr e)). }
  pose proof (nodes_shown display rs 0) as Hn.
  inversion M as [data' f a payload' W E1 E2 E3|]; subst data' payload'. pose proof (wired_payload_ok _ _ _ _ B W) as Bw.
  destruct (with_application_block (E := mbus_error) (LongFrame f a payload) payload (Some u) None Bw) as (m & E & Ef & Eu & Er); [left; eauto|].
  unfold parse_to_mermaid. rewrite Hc. unfold mbus_wired_try_from. rewrite (proj2 (wired_ok_iff (env_config env) _ _) W). cbn [map_err bind wired_payload]. rewrite E.
  cbn [block_of] in Er; rewrite Lb in Er; cbn [option_map] in Er.
  unfold wired_chart. rewrite Ef, Er. unfold chart_wired_records. rewrite F. cbn [bind]. unfold chart_records.
  set (nodes := concat _) in *. clearbody nodes.
  destruct (mermaid_centered_chains [txt "FTYPE"; txt "FUNC"; txt "ADDR"] 4 (txt "FP")) as [chains pads].
  match goal with |- context [match md_user_data m with _ => _ end] => destruct (match md_user_data m with Some (VariableLong _ h _) => chart_device env h | _ => ([], []) end) as [device dstyles] end.
  pose proof (record_rows (List.length rs) (List.length rs) 0 (Nat.le_refl _)) as K. 
  unfold mermaid_centered_chains. rewrite map_length, seq_length. change (map _ (seq 0 (List.length rs))) with (record_names 0 (List.length rs)).
  destruct (chain_rows 4 (txt "RP") 0 (chunks (List.length rs) 4 (record_names 0 (List.length rs)))) as [rchains rpads]. cbn [bind fst] in *.
  match goal with |- exists _ _ _ _, Ok ?x = _ /\ _ =>
    assert (I : inside (nodes ++ rchains ++ chart_line 1 (txt "end") ++ chart_line 1 (txt "DEV_SG --> REC_SG")) x) by find_inside end.
  destruct I as (b & r & ->). exists b, nodes, rchains, (chart_line 1 (txt "DEV_SG --> REC_SG") ++ r). split; [|auto].
  rewrite <- !app_assoc. reflexivity.
Qed.
