(** The text interface: dispatch on the format, and the errors. *)
From Coq Require Import List NArith Lia Bool String.
Import ListNotations.
From Verif Require Import Model.Base Model.Text Model.Core Model.Wired Model.Wireless Model.F64 Model.Record Model.Decrypt Model.UserData Model.Hex Model.Annotate Model.MbusData
  Model.Show Model.Output Model.Rscada Model.Format Model.Csv Model.AnnotateText Model.JsonView Model.Render Model.Legacy Model.Serialize
  Spec.TextSpec Spec.FormatSpec Spec.WiredSpec Spec.WirelessSpec Spec.AppSpec Spec.AnnotateSpec Spec.MbusSpec Spec.OutputSpec Spec.RenderSpec Spec.LegacySpec Spec.TooltipSpec Spec.CsvSpec Spec.SerializeSpec
  Proof.BaseFacts Proof.WiredFacts Proof.WirelessFacts Proof.FormatAFacts Proof.AppFacts Proof.HexFacts Proof.FormatFacts Proof.TextFacts Proof.RecordFacts
  Proof.AnnotateFacts Proof.AnnotateApp Proof.MbusFacts Proof.OutputFacts Proof.OutputRecords Proof.OutputFrames
  Proof.RenderFacts Proof.FormatProps Proof.RscadaErrors Proof.LegacyFacts Proof.LegacyRecords Proof.CsvFacts Proof.TooltipFacts.
Open Scope N_scope.
Open Scope list_scope.

(** ** No fuel *)
Lemma replace_no_error cf display : forall segs e, replace_encrypted cf segs display <> Err e.
Proof.
  induction segs as [|s segs IH]; intros e; cbn [replace_encrypted]; [discriminate|].
  apply bind_no_error.
  - destruct (s_kind s); try discriminate. apply bind_no_error; [|discriminate].
    destruct (get_range _ _ _); [apply records_no_error|discriminate].
  - intros a _. apply bind_no_error; [apply IH|discriminate].
Qed.
Lemma strip_no_error data out e : bytes_ok data -> strip_format_a_crcs data out <> Err e.
Proof. intros B H. destruct (strip_cases data out B) as [(E & _)|(? & ? & ? & ? & ? & _ & _ & _ & _ & _ & E)]; congruence. Qed.
Lemma some_no_error {A B} (o : option A) (k : A -> outcome unit (option B)) e : (forall a, o = Some a -> k a <> Err e) -> some o k <> Err e.
Proof. destruct o; cbn; [auto|discriminate]. Qed.
Lemma splice_no_error v a b src e : vec_splice v a b src <> Err e.
Proof. unfold vec_splice. destruct (_ && _); discriminate. Qed.
Lemma hexview_no_error cf aes data key e : bytes_ok data -> decrypted_hexview cf aes data key <> Err e.
Proof.
  destruct e. intros B. unfold decrypted_hexview. apply bind_no_error.
  - unfold decrypted_wired_hexview. destruct (mbus_wired_try_from cf data) as [m| |]; try discriminate.
    apply some_no_error. intros u _. cbv zeta. destruct (variable_data_len u =? 0); [discriminate|].
    destruct (decrypt_variable_data_with_key _ _ _ _ _) as [res buffer] eqn:E.
    apply bind_no_error; [intros ->; exact (decrypt_with_key_answer _ _ _ _ _ _ E)|]. intros r _.
    repeat first [apply some_no_error; intros ? _ | apply bind_no_error; [apply splice_no_error|intros ? _] | discriminate
      | match goal with |- context [if ?b then _ else _] => destruct b end].
  - intros [d|] _; [discriminate|]. unfold decrypted_wireless_hexview.
    apply bind_no_error; [now apply strip_no_error|]. intros [stripped o] _. cbv zeta.
    destruct (mbus_wireless_try_from _) as [m| |]; try discriminate.
    apply some_no_error. intros u _. destruct (variable_data_len u =? 0); [discriminate|].
    destruct (decrypt_variable_data_with_key _ _ _ _ _) as [res buffer] eqn:E.
    apply bind_no_error; [intros ->; exact (decrypt_with_key_answer _ _ _ _ _ _ E)|]. intros r _.
    repeat first [apply some_no_error; intros ? _ | apply bind_no_error; [apply splice_no_error|intros ? _] | discriminate
      | match goal with |- context [if ?b then _ else _] => destruct b end].
Qed.

(** ** Annotation *)
Lemma annotation_refused cf data e : bytes_ok data -> annotate_frame cf data = Err e -> ~ readable data.
Proof.
  intros B H. apply annotate_errors in H as (_ & Nw & N1 & N2); [|exact B]. intros R. destruct R as [data fr W|data w fr W R Wm].
  - exact (Nw fr W).
  - pose proof (received_bytes _ _ B R) as Bw. destruct (received_frame _ w fr B Bw R Wm) as (r & out & Es & En).
    assert (Ew : wireless_try_from w = Ok fr) by (apply wireless_ok_iff; assumption).
    destruct r as [d|]; subst w; [exact (N2 _ _ Es _ Ew)|exact (N1 _ Ew)].
Qed.

(** ** Decryption *)
Lemma prepare_code aes u id key code : prepare_security aes u id key = Err (ODecryption code) -> In code decryption_codes.
Proof.
  unfold prepare_security. destruct (security_fields u) as [[encrypted mode] ell]. destruct encrypted; cbn [negb]; [|discriminate].
  destruct key as [key|]; [|discriminate]. destruct (ell && _); [intros H; injection H as <-; cbn; auto|].
  destruct u as [u|]; cbn [ok_or bind]; [|intros H; injection H as <-; cbn; auto].
  destruct (decrypt_user_data _ _ _ _ _) as [res out]. destruct res as [n|e|p]; cbn [map_err bind].
  - destruct (get_to out n); cbn [ok_or bind]; [discriminate|]. intros H; injection H as <-; cbn; auto.
  - intros H; injection H as <-. destruct e; cbn; auto.
  - discriminate.
Qed.
Lemma decode_code env data key enrich code : bytes_ok data -> decode_bytes env data key enrich = Err (ODecryption code) -> In code decryption_codes.
Proof.
  intros B H. unfold decode_bytes in H. destruct data as [|b data]; [discriminate H|].
  destruct (mbus_wired_try_from (env_config env) (b :: data)) as [m|we|p] eqn:Em; [|..].
  - destruct (prepare_cases (env_aes env) (md_user_data m) None key) as [(sc & E)|(c & E & _)]; rewrite E in H; cbn [bind] in H.
    + exfalso. unfold build_wired_output in H. pose proof (wired_of_block _ _ _ sc Em) as Kb.
      destruct (md_frame m);
        (edestruct build_output_cases as [(d & K')|(bl & hd & it & p & K' & _)]; [exact Kb|rewrite K' in H; discriminate H..]).
    + injection H as ->. exact (prepare_code _ _ _ _ _ E).
  - destruct (map_err (fun _ => OFuel) (strip_format_a_crcs (b :: data) (repeat 0 512))) as [[s out]|x|p] eqn:Es; cbn [bind] in *.
    + destruct (mbus_wireless_try_from _) as [m|x|p] eqn:Em2; [|discriminate H..].
      destruct (prepare_cases (env_aes env) (md_user_data m) (Some (wf_manufacturer_id (md_frame m))) key)
        as [(sc & E)|(c & E & _)]; rewrite E in H; cbn [bind] in H.
      * exfalso. unfold build_wireless_output in H. pose proof (wireless_of_block _ _ sc Em2) as Kb.
        edestruct build_output_cases as [(d & K')|(bl & hd & it & p & K' & _)]; [exact Kb|rewrite K' in H; discriminate H..].
      * injection H as ->. exact (prepare_code _ _ _ _ _ E).
    + destruct (strip_format_a_crcs _ _); cbn [map_err] in Es; congruence.
    + discriminate H.
  - discriminate H.
Qed.

Lemma told_no_error cf display shown l e : replace_encrypted_told cf display l shown <> Err e.
Proof.
  intros H. pose proof (replace_ranges cf display l shown) as R. rewrite H in R. symmetry in R. exact (replace_no_error _ _ _ _ R).
Qed.

(** ** Rendering *)
Lemma annotated_error env rn data key e : bytes_ok data -> render_annotated_bytes env rn data key = Err e ->
  exists x, e = RAnnotation x /\ (~ readable data \/ key <> None).
Proof.
  intros B H. unfold render_annotated_bytes, annotated_document in H.
  pose proof (frame_ranges (env_config env) (rn_display rn) data) as Ea. symmetry in Ea.
  destruct (frame_told (env_config env) (rn_display rn) data) as [segs|x|p]; cbn [ranges map_err bind] in H, Ea; [|injection H as <-; eauto using annotation_refused|discriminate H].
  destruct key as [key|]; [|discriminate H].
  pose proof (hexview_no_error (env_config env) (env_aes env) data key) as Hn.
  destruct (decrypted_hexview _ _ _ _) as [[display|]|x|p] eqn:Ed; cbn [map_err bind] in H; try discriminate H; [|destruct (Hn x B eq_refl)].
  destruct (frame_told (env_config env) (rn_display rn) display) as [ds|x|p]; cbn [map_err bind] in H;
    [|injection H as <-; eexists; split; [reflexivity|right; discriminate]|discriminate H].
  pose proof (told_no_error (env_config env) (rn_display rn) display ds) as Hr.
  destruct (replace_encrypted_told _ _ _ _) as [rs|x|p]; cbn [map_err bind] in H; [discriminate H|destruct (Hr x eq_refl)|discriminate H].
Qed.

Lemma render_failure_any env rn data f options e : bytes_ok data -> data <> [] -> render_bytes env rn data f options = Err e ->
  (failure data (op_key options) f (error_code (SRender e)) (error_layer (SRender e)) \/
   (f = FTable /\ match op_table_width options with Some w => w | None => 100 end < 32 /\
    e = RDecode (OInvalidOption (txt "table_width") (txt "must be at least 32 columns")))) /\
  error_byte_offset (SRender e) = None.
Proof.
  intros B Ne H. set (key := op_key options).
  assert (D : forall x, In f [FTable; FJson; FYaml; FCsv; FMermaid] -> decode_bytes env data key (op_include_enrichment options) = Err x -> e = RDecode x ->
    failure data key f (error_code (SRender e)) (error_layer (SRender e)) /\ error_byte_offset (SRender e) = None).
  { intros x Hf Hd ->. destruct (decode_error _ _ _ _ _ B Hd) as [(-> & _)|[(a & b & -> & _ & R)|(code & -> & Hk)]]; [easy|..];
      (split; [|reflexivity]); cbn [error_code error_layer].
    - now apply FlFrame.
    - apply FlSecurity; [exact Hf|exact Hk|exact (decode_code _ _ _ _ _ B Hd)]. }
  assert (G : In f [FJson; FYaml; FCsv; FMermaid] -> failure data key f (error_code (SRender e)) (error_layer (SRender e)) /\ error_byte_offset (SRender e) = None).
  { intros Hf. edestruct (always_rendered env rn data) as [(d & t & _ & R)|[(x & Hd & R)|(p & _ & R)]]; [exact Hf|..]; rewrite H in R; try discriminate R.
    injection R as ->. eapply D; [cbn in Hf |- *; tauto|exact Hd|reflexivity]. }
  assert (L : failure data key f (error_code (SRender e)) (error_layer (SRender e)) /\ error_byte_offset (SRender e) = None ->
    (failure data key f (error_code (SRender e)) (error_layer (SRender e)) \/
     (f = FTable /\ match op_table_width options with Some w => w | None => 100 end < 32 /\
      e = RDecode (OInvalidOption (txt "table_width") (txt "must be at least 32 columns")))) /\ error_byte_offset (SRender e) = None) by tauto.
  destruct f; try (apply L, G; cbn; tauto).
  - unfold render_bytes in H. fold key in H. destruct (decode_bytes env data key _) as [d|x|p] eqn:Hd; cbn [map_err bind] in H; try discriminate H.
    + unfold render_table in H. destruct (_ <? 32) eqn:W; [|discriminate H]. injection H as <-. apply N.ltb_lt in W. split; [right; auto|reflexivity].
    + injection H as <-. apply L. eapply D; [now left|reflexivity|reflexivity].
  - apply L. unfold render_bytes in H. fold key in H.
    destruct (render_from_bytes env (rn_powi rn) data key) as [t|x|p] eqn:Ex; cbn [map_err] in H; try discriminate H.
    injection H as <-. split; [|reflexivity]. cbn [error_code error_layer].
    destruct (xml_error_cases _ _ _ _ _ B Ex) as [(_ & fr & W & _)|[(y & _ & R)|(_ & Hk)]];
      [eapply FlXmlWired; exact W|now apply FlXmlFrame|now apply FlXmlKey].
  - apply L. unfold render_bytes in H. fold key in H. apply annotated_error in H as (x & -> & [R|R]); [..|exact B];
      (split; [|reflexivity]); cbn [error_code error_layer]; [apply FlAnnotation; [cbn; auto|exact R]|now apply FlAnnotationKey].
  - apply L. unfold render_bytes, annotate_and_render in H.
    pose proof (frame_ranges (env_config env) (rn_display rn) data) as Ea. symmetry in Ea.
    destruct (frame_told (env_config env) (rn_display rn) data) as [segs|x|p]; cbn [ranges map_err bind] in H, Ea; try discriminate H.
    injection H as <-. split; [|reflexivity]. apply FlAnnotation; [cbn; auto|exact (annotation_refused _ _ _ B Ea)].
Qed.
Lemma render_failure env rn data f key e : bytes_ok data -> data <> [] ->
  render_bytes env rn data f {| op_key := key; op_include_enrichment := true; op_table_width := Some 100 |} = Err e ->
  failure data key f (error_code (SRender e)) (error_layer (SRender e)) /\ error_byte_offset (SRender e) = None.
Proof.
  intros B Ne H. destruct (render_failure_any _ _ _ _ _ _ B Ne H) as ([F|(_ & W & _)] & O); [split; assumption|cbn in W; lia].
Qed.

(** ** Dispatch *)
Lemma older_format v f : format_from_str v = Ok f -> ~ In v older_names.
Proof. intros H I. cbn in I. repeat (destruct I as [<-|I]; [vm_compute in H; discriminate H|]). exact I. Qed.
Lemma dispatch_new env rn lr input format key : ~ In format older_names ->
  serialize_mbus_data env rn lr input format key =
  match format_from_str format with
  | Ok f => match render_hex env rn input f {| op_key := key; op_include_enrichment := true; op_table_width := Some 100 |} with
            | Ok t => Ok t | Err e => Ok (error_text lr (SRender e)) | Panic p => Panic p end
  | Err e => Ok (error_text lr (SUnsupportedFormat e))
  | Panic p => Panic p
  end.
Proof.
  intros H. unfold serialize_mbus_data. cbv zeta.
  repeat match goal with |- context [text_eqb format ?t] =>
    let E := fresh "E" in destruct (text_eqb format t) eqn:E; [apply text_eqb_ok in E; destruct H; rewrite E; cbn; tauto|] end.
  reflexivity.
Qed.

Lemma two_byte s b : two_digits s b -> b < 256.
Proof. intros (c1 & v1 & c2 & v2 & -> & Hx & Hy & ->). unfold hex_digit in *. lia. Qed.
Lemma token_byte s b : byte_token s b -> b < 256.
Proof. intros (pre & ds & _ & _ & H). exact (two_byte _ _ H). Qed.
Lemma hex_input_bytes input data : hex_input input data -> bytes_ok data.
Proof.
  intros (_ & l & core & r & _ & _ & _ & [H|H]); induction H; unfold bytes_ok in *; repeat first [apply Forall_nil | apply Forall_cons];
    solve [assumption | eapply two_byte; eassumption | eapply token_byte; eassumption].
Qed.

Lemma serialize_new env rn lr input format key f n core data :
  stripped format core -> In (n, f) format_names -> spells_word core (txt n) -> hex_input input data ->
  match render_bytes env rn data f {| op_key := key; op_include_enrichment := true; op_table_width := Some 100 |} with
  | Ok t => serialize_mbus_data env rn lr input format key = Ok t
  | Err e => exists code layer message,
      serialize_mbus_data env rn lr input format key = Ok (txt "Error [" ++ code ++ txt "]: " ++ message) /\
      failure data key f code layer /\
      code = error_code (SRender e) /\ layer = error_layer (SRender e) /\ error_byte_offset (SRender e) = None
  | Panic p => serialize_mbus_data env rn lr input format key = Panic p
  end.
Proof.
  intros S I W Hx. assert (F : format_from_str format = Ok f) by (apply (format_exact _ _ _ S); eauto).
  rewrite dispatch_new by exact (older_format _ _ F). rewrite F.
  rewrite (proj1 (hex_rendered env rn input f _) data Hx).
  destruct (render_bytes env rn data f _) as [t|e|p] eqn:E; try reflexivity.
  destruct (render_failure env rn data f key e) as (Fl & Bo); [exact (hex_input_bytes _ _ Hx)|exact (proj1 Hx)|exact E|].
  do 3 eexists. split; [reflexivity|]. split; [exact Fl|]. repeat split. exact Bo.
Qed.

Lemma serialize_unsupported env rn lr input format key core :
  ~ In format older_names -> stripped format core -> (forall n f, In (n, f) format_names -> ~ spells_word core (txt n)) ->
  serialize_mbus_data env rn lr input format key =
    Ok (txt "Error [format.unsupported]: unsupported output format " ++ lr_debug lr format ++
        txt "; expected table, json, yaml, csv, mermaid, xml, annotated, or annotated-text").
Proof.
  intros O S Nf. rewrite dispatch_new by exact O. destruct (format_from_str format) as [f|e|p] eqn:F.
  - exfalso. apply (format_exact _ _ _ S) in F as (n & I & W). exact (Nf n f I W).
  - apply format_error in F. subst e. reflexivity.
  - exfalso. unfold format_from_str in F. repeat match type of F with (if ?b then _ else _) = _ => destruct b end; discriminate F.
Qed.

Lemma serialize_unread env rn lr input format key f n core icore :
  stripped format core -> In (n, f) format_names -> spells_word core (txt n) ->
  stripped input icore -> (forall data, ~ hex_input input data) ->
  (serialize_mbus_data env rn lr input format key = Ok (txt "Error [input.empty]: input must not be empty") /\
   Forall (fun c => white c \/ separator c) input) \/
  (exists j message,
     serialize_mbus_data env rn lr input format key =
       Ok (txt "Error [input.invalid_hex]: invalid hexadecimal input at character " ++ dec j ++ txt ": " ++ message) /\
     ((Forall (fun c => exists v, hex_digit c v) icore /\ len icore mod 2 = 1 /\ j + 1 = len icore) \/
      (exists tok, run_at icore j tok /\ forall b, ~ byte_token tok b))).
Proof.
  intros S I W Si Nx. assert (F : format_from_str format = Ok f) by (apply (format_exact _ _ _ S); eauto).
  rewrite dispatch_new by exact (older_format _ _ F). rewrite F. unfold render_hex.
  destruct (decode_hex_bytes input) as [data|e|p] eqn:E.
  - apply decode_hex_exact in E. destruct (Nx _ E).
  - cbn [map_err bind]. destruct (decode_hex_error _ _ _ Si E) as [(-> & Hw)|(j & -> & Hj)]; [left; split; [reflexivity|exact Hw]|].
    right. exists j. eexists. split; [reflexivity|exact Hj].
  - destruct (decode_hex_no_panic input). exists p. exact E.
Qed.

(** the interface always answers (or panics): the model never runs out of fuel *)
Lemma hexdigit_value c : is_ascii_hexdigit c = true -> hex_value c < 16.
Proof.
  unfold is_ascii_hexdigit, hex_value. intros H.
  destruct (N.leb_spec 48 c), (N.leb_spec c 57), (N.leb_spec 65 c), (N.leb_spec c 70), (N.leb_spec 97 c), (N.leb_spec c 102);
    cbn in *; try discriminate; lia.
Qed.
Lemma chunk_byte c : chunk_value c < 256.
Proof.
  destruct c as [|a [|b [|? ?]]]; cbn [chunk_value]; try lia.
  - destruct (is_ascii_hexdigit a) eqn:Ea; [apply hexdigit_value in Ea; lia|lia].
  - destruct (is_ascii_hexdigit b) eqn:Eb; [apply hexdigit_value in Eb|lia].
    destruct (is_ascii_hexdigit a) eqn:Ea; [apply hexdigit_value in Ea; lia|]. destruct (a =? 43); lia.
Qed.
Lemma clean_bytes input : bytes_ok (clean_and_convert input).
Proof. apply Forall_forall. intros b H. apply in_map_iff in H as (c & <- & _). apply chunk_byte. Qed.
Lemma frame_answer env display input key : parse_frame_output env display input key <> Err tt.
Proof. apply (legacy_accepts env display (clean_and_convert input) key true (clean_bytes input)). Qed.
Lemma segments_answer cf display data : segments_text cf display data <> Err tt.
Proof. unfold segments_text. destruct (frame_told cf display data); discriminate. Qed.
Lemma serialize_answers env rn lr input format key :
  (exists t, serialize_mbus_data env rn lr input format key = Ok t) \/ is_panic (serialize_mbus_data env rn lr input format key).
Proof.
  assert (H : serialize_mbus_data env rn lr input format key <> Err tt).
  { unfold serialize_mbus_data. cbv zeta.
    assert (Fb : forall B (g : option parsed_output -> B), (o <- parse_frame_output env (lr_display lr) input key ;; Ok (g o)) <> Err tt)
      by (intros B g; apply bind_no_error; [apply frame_answer|discriminate]).
    repeat match goal with |- (if ?b then _ else _) <> _ => destruct b end.
    - apply Fb.
    - apply Fb.
    - apply bind_no_error; [apply Fb|discriminate].
    - apply segments_answer.
    - unfold parse_to_hexview, hexview_text. cbv zeta. destruct key as [key|]; [|apply segments_answer].
      apply bind_no_error; [apply hexview_no_error, clean_bytes|]. intros [d|] _; [|apply segments_answer].
      destruct (frame_told _ _ d); try discriminate. apply bind_no_error; [|discriminate].
      pose proof (told_no_error (env_config env) (lr_display lr) d a) as R. destruct (replace_encrypted_told _ _ _ _) as [x|x|x]; [discriminate|destruct (R x eq_refl)|discriminate].
    - destruct (format_from_str format); try discriminate. destruct (render_hex _ _ _ _ _); discriminate. }
  destruct (serialize_mbus_data env rn lr input format key) as [t|[]|p]; [eauto|easy|right; exists p; reflexivity].
Qed.

(** ** The wide CSV *)
Lemma serialize_wide env rn lr input key o : parse_frame_output env (lr_display lr) input key = Ok (Some o) ->
  exists headers row,
    (exists t, serialize_mbus_data env rn lr input (txt "csv-wide") key = Ok t /\ reads_only t [headers; row]) /\
    length headers = length row /\ NoDup headers /\
    forall name cell, column headers row name cell <-> wide_column (po_summary o) name cell.
Proof.
  intros H. destruct (wide_csv _ _ _ _ _ H) as (headers & row & E & Hl & Hn & Hc). exists headers, row.
  split; [|auto]. change (serialize_mbus_data env rn lr input (txt "csv-wide") key)
    with (rows <- parse_to_csv env (lr_display lr) input key ;; Ok (concat (map csv_line rows))).
  rewrite E. cbn [bind map concat]. rewrite app_nil_r. eexists. split; [reflexivity|].
  assert (X : column headers row (txt "FrameType") (fs_frame_type (po_summary o))) by (apply Hc; constructor).
  destruct X as (k & X1 & X2). apply two_lines; intros ->; destruct k; discriminate.
Qed.

(** the error value for an input that is not hexadecimal *)
Lemma unread_place env rn input f options icore : stripped input icore -> (forall data, ~ hex_input input data) ->
  exists e, render_hex env rn input f options = Err e /\ error_layer (SRender e) = txt "input" /\
    ((error_code (SRender e) = txt "input.empty" /\ error_byte_offset (SRender e) = None /\ Forall (fun c => white c \/ separator c) input) \/
     (exists j, error_code (SRender e) = txt "input.invalid_hex" /\ error_byte_offset (SRender e) = Some j /\
       ((Forall (fun c => exists v, hex_digit c v) icore /\ len icore mod 2 = 1 /\ j + 1 = len icore) \/
        (exists tok, run_at icore j tok /\ forall b, ~ byte_token tok b)))).
Proof.
  intros Si Nx. unfold render_hex. destruct (decode_hex_bytes input) as [data|e|p] eqn:E.
  - apply decode_hex_exact in E. destruct (Nx _ E).
  - cbn [map_err bind]. eexists. split; [reflexivity|]. destruct (decode_hex_error _ _ _ Si E) as [(-> & Hw)|(j & -> & Hj)]; (split; [reflexivity|]); [left; repeat split; exact Hw|right; exists j; repeat split; exact Hj].
  - destruct (decode_hex_no_panic input). exists p. exact E.
Qed.

