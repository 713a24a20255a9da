(** The front ends. *)
From Coq Require Import List NArith Lia Bool String.
Import ListNotations.
From Verif Require Import Model.Base Model.Text Model.F64 Model.Hex Model.MbusData Model.Show Model.Output Model.Format Model.Json Model.Render
  Model.Serialize Model.Bindings Spec.TextSpec Spec.FormatSpec Spec.OutputSpec Spec.JsonSpec Spec.SerializeSpec Spec.BindingsSpec
  Proof.BaseFacts Proof.TextFacts Proof.HexFacts Proof.FormatFacts Proof.IterFacts Proof.OutputFacts Proof.OutputRecords Proof.OutputFrames Proof.FormatProps Proof.JsonFacts Proof.JsonDocs Proof.JsonBack Proof.SerializeFacts.
Open Scope N_scope.
Open Scope list_scope.

(** ** The parts *)
Lemma named t f : names_format t f <-> format_from_str t = Ok f.
Proof.
  split.
  - intros (core & n & S & I & W). apply (format_exact _ _ _ S). eauto.
  - intros H. apply (format_exact _ _ _ (trim_stripped t)) in H as (n & I & W). exists (trim t), n. auto using trim_stripped.
Qed.
Lemma format_no_panic t p : format_from_str t <> Panic p.
Proof. unfold format_from_str. cbv zeta. repeat match goal with |- context [if ?b then _ else _] => destruct b end; discriminate. Qed.
Lemma format_error t e : format_from_str t = Err e -> e = t.
Proof.
  unfold format_from_str. cbv zeta. intros H. repeat match type of H with context [if ?b then _ else _] => destruct b end; try discriminate H. now injection H.
Qed.
Lemma not_named t : (forall f, ~ names_format t f) <-> format_from_str t = Err t.
Proof.
  split; intros H.
  - destruct (format_from_str t) as [f|e|p] eqn:E; [destruct (H f (proj2 (named t f) E))|now rewrite (format_error _ _ E)|destruct (format_no_panic _ _ E)].
  - intros f N. apply named in N. congruence.
Qed.

Lemma unread_error input e : decode_hex_bytes input = Err e ->
  unread input (error_code (of_input e)) (error_byte_offset (of_input e)) /\ error_layer (of_input e) = txt "input".
Proof.
  intros H. assert (N : forall data, ~ hex_input input data) by (intros data K; apply decode_hex_exact in K; congruence).
  pose proof (trim_stripped input) as S. destruct (decode_hex_error _ _ _ S H) as [(-> & W)|(j & -> & W)]; (split; [split; [exact N|]|reflexivity]).
  - left. repeat split. exact W.
  - right. split; [reflexivity|]. exists (trim input), j. auto.
Qed.
Lemma unread_cases input : (exists data, hex_input input data /\ decode_hex_bytes input = Ok data) \/
  (exists e, decode_hex_bytes input = Err e /\ unread input (error_code (of_input e)) (error_byte_offset (of_input e)) /\ error_layer (of_input e) = txt "input").
Proof.
  destruct (decode_hex_bytes input) as [data|e|p] eqn:E.
  - left. exists data. split; [now apply decode_hex_exact|reflexivity].
  - right. exists e. split; [reflexivity|]. now apply unread_error.
  - destruct (decode_hex_no_panic input). exists p. exact E.
Qed.

Lemma default_width env rn data f key en : render_bytes env rn data f {| op_key := key; op_include_enrichment := en; op_table_width := None |} =
  render_bytes env rn data f (asked key en 100).
Proof. destruct f; reflexivity. Qed.
Lemma any_width env rn data f key en w : render_bytes env rn data f {| op_key := key; op_include_enrichment := en; op_table_width := w |} =
  render_bytes env rn data f (asked key en (match w with Some w => w | None => 100 end)).
Proof. destruct w; [reflexivity|apply default_width]. Qed.
Lemma width_chosen su ar : match cli_width su ar with Some w => w | None => 100 end = table_width su ar.
Proof. unfold cli_width, table_width. destruct (ar_width ar); [reflexivity|]. destruct (su_terminal su), (su_columns su); reflexivity. Qed.

Lemma hex_render env rn input f key en w : render_hex env rn input f {| op_key := key; op_include_enrichment := en; op_table_width := w |} =
  match decode_hex_bytes input with
  | Ok data => render_bytes env rn data f (asked key en (match w with Some w => w | None => 100 end))
  | Err e => Err (RDecode (OInvalidHex e))
  | Panic p => Panic p
  end.
Proof. unfold render_hex. destruct (decode_hex_bytes input); cbn [map_err bind]; [apply any_width|reflexivity|reflexivity]. Qed.

(** keys *)
Lemma cli_key_ok ar k : cli_key ar = Ok k <-> key_text (ar_key ar) k.
Proof.
  unfold cli_key, key_text. destruct (ar_key ar) as [t|], k as [k|]; split; intros H; try discriminate H; try (now destruct H); try reflexivity.
  - destruct (cli_parse_key t) as [x|] eqn:E; [|discriminate H]. apply Ok_inj in H. injection H as <-. now apply cli_key_exact.
  - apply cli_key_exact in H. now rewrite H.
  - destruct (cli_parse_key t); discriminate H.
Qed.
Lemma cli_key_error ar e : cli_key ar = Err e -> e = txt "[option.invalid] key must contain exactly 32 hexadecimal characters" /\
  exists value, ar_key ar = Some value.
Proof.
  unfold cli_key. destruct (ar_key ar) as [t|]; [|discriminate]. destruct (cli_parse_key t); [discriminate|]. intros H. injection H as <-. eauto.
Qed.
Lemma cli_key_no_panic ar p : cli_key ar <> Panic p.
Proof. unfold cli_key. destruct (ar_key ar) as [t|]; [|discriminate]. destruct (cli_parse_key t); discriminate. Qed.

Lemma extracted lr value name data : extract_bytes lr value name = Ok data <-> py_bytes value data.
Proof.
  destruct value as [t|[|b bs]|]; cbn [extract_bytes py_bytes].
  - rewrite <- decode_hex_exact. destruct (decode_hex_bytes t); cbn [map_err]; split; intros H; try discriminate H; try exact H; congruence.
  - split; [discriminate|intros (_ & H); contradiction].
  - split; [intros H; apply Ok_inj in H; split; [congruence|discriminate]|intros (-> & _); reflexivity].
  - split; [discriminate|contradiction].
Qed.
Lemma extracted_error lr value name e : extract_bytes lr value name = Err e -> py_refused name value (@Err py_error text e).
Proof.
  destruct value as [t|[|b bs]|]; cbn [extract_bytes py_refused]; intros H; try discriminate H.
  - destruct (decode_hex_bytes t) as [x|x|x] eqn:E; cbn [map_err] in H; try discriminate H. injection H as <-.
    destruct (unread_error _ _ E) as (U & _). do 3 eexists. split; [exact U|reflexivity].
  - injection H as <-. split; reflexivity.
  - injection H as <-. reflexivity.
Qed.
Lemma extracted_no_panic lr value name p : extract_bytes lr value name <> Panic p.
Proof.
  destruct value as [t|[|b bs]|]; cbn [extract_bytes]; try discriminate. destruct (decode_hex_bytes t) as [x|x|x] eqn:E; cbn [map_err]; try discriminate.
  destruct (decode_hex_no_panic t). exists x. exact E.
Qed.
Lemma sixteen_ok b k : sixteen b = Ok k <-> k = Some b /\ List.length b = 16%nat.
Proof.
  unfold sixteen. destruct (len b =? 16) eqn:E.
  - apply N.eqb_eq in E. split; [intros H; apply Ok_inj in H; split; [congruence|]|intros (-> & _); reflexivity]. unfold len in E. lia.
  - apply N.eqb_neq in E. split; [discriminate|]. intros (_ & H). destruct E. unfold len. rewrite H. reflexivity.
Qed.
Lemma py_key_ok lr value k : extract_key lr value = Ok k <-> py_key value k.
Proof.
  unfold extract_key, py_key. destruct value as [v|]; [|destruct k; split; intros H; try discriminate H; try contradiction; reflexivity].
  destruct k as [k|].
  - rewrite <- (extracted lr v "key"). destruct (extract_bytes lr v "key") as [b|e|p]; cbn [bind].
    + rewrite sixteen_ok. split; [intros (H & L); injection H as <-; auto|intros (H & L); apply Ok_inj in H; subst; auto].
    + split; [discriminate|intros (H & _); discriminate H].
    + split; [discriminate|intros (H & _); discriminate H].
  - split; [|contradiction]. destruct (extract_bytes lr v "key") as [b|e|p]; cbn [bind]; try discriminate. intros H. apply sixteen_ok in H as (H & _). discriminate H.
Qed.
Lemma js_key_ok lr value k : js_key lr value = Ok k <-> js_key_text value k.
Proof.
  unfold js_key, js_key_text. destruct k as [k|].
  - destruct value as [t|].
    + destruct (wasm_parse_key (Some t)) as [x|x|x] eqn:E; cbn [map_err].
      * split.
        -- intros H. apply Ok_inj in H. subst x. apply wasm_key_exact in E. exists t. tauto.
        -- intros (t' & Et & H). injection Et as <-. apply wasm_key_exact in H. congruence.
      * split; [discriminate|]. intros (t' & Et & H). injection Et as <-. apply wasm_key_exact in H. congruence.
      * split; [discriminate|]. intros (t' & Et & H). injection Et as <-. apply wasm_key_exact in H. congruence.
    + split; [discriminate|]. intros (t' & Et & _). discriminate Et.
  - destruct value as [t|]; [|split; [auto|reflexivity]]. cbn [wasm_parse_key].
    pose proof (trim_stripped t) as S. destruct (trim t) as [|c r] eqn:E.
    + split; [intros _|reflexivity]. destruct S as (l & r & -> & Hl & Hr & _). cbn [app]. now apply Forall_app.
    + split.
      * destruct (decode_hex_bytes t) as [b|x|x]; cbn [bind map_err]; try discriminate. destruct (len b =? 16); cbn [map_err]; discriminate.
      * intros H. destruct S as (l & r' & -> & _ & _ & Hc & _). apply Forall_app in H as (_ & H). apply Forall_app in H as (H & _). inversion H; subst. destruct (Hc c eq_refl). assumption.
Qed.

(** ** The tool *)
Lemma input_ok su ar input : cli_input su ar = Ok input <-> given_text su ar input.
Proof.
  unfold cli_input, given_text. destruct (ar_file ar) as [path|], (ar_data ar) as [data|].
  - split; [discriminate|]. intros [(p & _ & H & _)|(H & _)]; discriminate H.
  - destruct (su_read su path) as [x|x] eqn:E.
    + split; [intros H; apply Ok_inj in H; subst; left; exists path; auto|]. intros [(p & H & _ & K)|(H & _)]; [|discriminate H]. injection H as <-. rewrite E in K. injection K as <-. reflexivity.
    + split; [discriminate|]. intros [(p & H & _ & K)|(H & _)]; [|discriminate H]. injection H as <-. congruence.
  - split; [intros H; apply Ok_inj in H; subst; right; auto|]. intros [(p & H & _)|(_ & H)]; [discriminate H|]. now injection H as <-.
  - split; [discriminate|]. intros [(p & H & _)|(_ & H)]; discriminate H.
Qed.

Lemma txt_app a b : txt (a ++ b) = txt a ++ txt b.
Proof. unfold txt. induction a as [|c a IH]; [reflexivity|]. cbn. f_equal. exact IH. Qed.

Theorem tool_success env rn lr su ar t :
  cli_main env rn lr su ar = success t <->
  exists input f k data, given_text su ar input /\ names_format (ar_format ar) f /\ key_text (ar_key ar) k /\ hex_input input data /\
    render_bytes env rn data f (asked k (negb (ar_no_enrichment ar)) (table_width su ar)) = Ok t.
Proof.
  unfold cli_main. split.
  - intros H. destruct (cli_run env rn lr su ar) as [t'|e|p] eqn:R; try discriminate H. injection H as ->.
    unfold cli_run in R. apply bind_ok in R as (input & Hi & R). apply bind_ok in R as (f & Hf & R). apply bind_ok in R as (k & Hk & R).
    apply map_err_ok in Hf. apply map_err_ok in R. rewrite hex_render, width_chosen in R.
    destruct (unread_cases input) as [(data & Hx & E)|(e & E & _)]; rewrite E in R; [|discriminate R].
    exists input, f, k, data. rewrite <- input_ok, <- cli_key_ok. split; [exact Hi|]. split; [now apply named|]. auto.
  - intros (input & f & k & data & Hi & Hf & Hk & Hx & R). apply input_ok in Hi. apply named in Hf. apply cli_key_ok in Hk. apply decode_hex_exact in Hx.
    unfold cli_run. rewrite Hi. cbn [bind]. rewrite Hf. cbn [map_err bind]. rewrite Hk. cbn [bind]. rewrite hex_render, Hx, width_chosen, R. reflexivity.
Qed.

Theorem tool_failure env rn lr su ar en : cli_main env rn lr su ar = Ok en ->
  (exists t, Ok en = success t) \/ (exists code message, Ok en = complaint code message /\ cli_cause su ar code message).
Proof.
  unfold cli_main. intros H. destruct (cli_run env rn lr su ar) as [t'|e|p] eqn:R; [|..|discriminate H]; apply Ok_inj in H; subst en; [left; exists t'; reflexivity|right].
  assert (C : forall code message, e = txt "[" ++ code ++ txt "] " ++ message ->
    @Ok unit _ {| en_exit := 1; en_out := []; en_error := txt "error: " ++ e ++ [10] |} = complaint code message).
  { intros code message ->. unfold complaint. change (txt "error: [") with (txt "error: " ++ txt "["). now rewrite <- !app_assoc. }
  unfold cli_run in R. destruct (cli_input su ar) as [input|x|x] eqn:Hi; cbn [bind] in R; [..|discriminate R].
  2:{ injection R as ->. unfold cli_input in Hi. destruct (ar_file ar) as [path|] eqn:F, (ar_data ar) as [data|] eqn:D; try discriminate Hi.
      - destruct (su_read su path) as [y|y] eqn:Sr; [discriminate Hi|]. injection Hi as <-. do 2 eexists. split; [apply (C (txt "input.file")); reflexivity|]. eapply NoFile; eassumption.
      - injection Hi as <-. do 2 eexists. split; [apply (C (txt "option.invalid")); reflexivity|]. now apply NoInput. }
  apply input_ok in Hi. destruct (format_from_str (ar_format ar)) as [f|x|x] eqn:Hf; cbn [map_err bind] in R; [..|discriminate R].
  2:{ injection R as <-. do 2 eexists. split; [apply (C (txt "format.unsupported")); reflexivity|]. eapply NoFormat; [exact Hi|]. apply not_named.
      now rewrite (format_error _ _ Hf) in Hf. }
  apply named in Hf. destruct (cli_key ar) as [k|x|x] eqn:Hk; cbn [bind] in R; [..|discriminate R].
  2:{ injection R as ->. destruct (cli_key_error _ _ Hk) as (-> & value & V). do 2 eexists. split; [apply (C (txt "option.invalid")); reflexivity|].
      eapply NoKey; [exact Hi|exact Hf|exact V|]. intros k K. apply cli_key_ok in K. congruence. }
  apply cli_key_ok in Hk. rewrite hex_render, width_chosen in R. destruct (unread_cases input) as [(data & Hx & E)|(x & E & U & _)]; rewrite E in R.
  - destruct (render_bytes env rn data f _) as [y|y|y] eqn:Er; cbn [map_err] in R; try discriminate R. injection R as <-.
    destruct (render_failure_any _ _ _ _ _ _ (hex_input_bytes _ _ Hx) (proj1 Hx) Er) as ([F|(-> & W & ->)] & _).
    + do 2 eexists. split; [apply (C (error_code (SRender y))); reflexivity|]. eapply NoRendering; eassumption.
    + do 2 eexists. split; [apply (C (txt "option.invalid")); reflexivity|]. eapply NoWidth; try eassumption.
  - cbn [map_err] in R. injection R as <-. do 2 eexists. split; [apply (C (error_code (of_input x))); reflexivity|]. eapply NoBytes; eassumption.
Qed.

Theorem tool_panic env rn lr su ar : is_panic (cli_main env rn lr su ar) ->
  (ar_file ar <> None /\ ar_data ar <> None) \/
  exists input f k data, given_text su ar input /\ names_format (ar_format ar) f /\ key_text (ar_key ar) k /\ hex_input input data /\
    is_panic (render_bytes env rn data f (asked k (negb (ar_no_enrichment ar)) (table_width su ar))).
Proof.
  intros (p & H). unfold cli_main in H. destruct (cli_run env rn lr su ar) as [t|e|q] eqn:R; try discriminate H.
  unfold cli_run in R. destruct (cli_input su ar) as [input|x|x] eqn:Hi; cbn [bind] in R; [|discriminate R|].
  2:{ left. unfold cli_input in Hi. destruct (ar_file ar) as [path|], (ar_data ar) as [data|]; try discriminate Hi; [split; discriminate|]. destruct (su_read su path); discriminate Hi. }
  apply input_ok in Hi. destruct (format_from_str (ar_format ar)) as [f|x|x] eqn:Hf; cbn [map_err bind] in R; [|discriminate R|destruct (format_no_panic _ _ Hf)].
  apply named in Hf. destruct (cli_key ar) as [k|x|x] eqn:Hk; cbn [bind] in R; [|discriminate R|destruct (cli_key_no_panic _ _ Hk)].
  apply cli_key_ok in Hk. rewrite hex_render, width_chosen in R. destruct (unread_cases input) as [(data & Hx & E)|(x & E & U & _)]; rewrite E in R; [|discriminate R].
  right. exists input, f, k, data. repeat split; try assumption; try apply Hx. destruct (render_bytes env rn data f _) as [y|y|y]; try discriminate R. eexists. reflexivity.
Qed.

(** ** All of them *)
Lemma compact_hex t k : compact t k -> k <> [] -> hex_input t k.
Proof. intros H N. split; [exact N|]. exists [], t, []. rewrite app_nil_r. repeat split; auto. Qed.
Lemma key_everywhere lr kt k : key_text kt k ->
  extract_key lr (option_map PyText kt) = Ok k /\ extract_key lr (option_map PyBytes k) = Ok k /\ js_key lr kt = Ok k.
Proof.
  intros H. rewrite !py_key_ok, js_key_ok. destruct kt as [t|], k as [k|]; try (now destruct H); cbn [option_map py_key js_key_text py_bytes].
  destruct H as (C & L). assert (N : k <> []) by (destruct k; [discriminate L|discriminate]). pose proof (compact_hex _ _ C N) as X. split; [auto|]. split; [auto|]. exists t. auto.
Qed.

Lemma tool_run env rn lr su ar input kt k : ar_file ar = None -> ar_data ar = Some input -> ar_key ar = kt -> key_text kt k ->
  cli_run env rn lr su ar =
  (f <- map_err (fun e => coded lr (SUnsupportedFormat e)) (format_from_str (ar_format ar)) ;;
   map_err (fun e => coded lr (SRender e)) (match decode_hex_bytes input with
     | Ok data => render_bytes env rn data f (asked k (negb (ar_no_enrichment ar)) (table_width su ar))
     | Err e => Err (RDecode (OInvalidHex e))
     | Panic p => Panic p end)).
Proof.
  intros F D <- K. unfold cli_run, cli_input. rewrite F, D. cbn [bind]. apply cli_key_ok in K. rewrite K. cbn [bind].
  destruct (format_from_str (ar_format ar)); cbn [map_err bind]; [|reflexivity|reflexivity]. now rewrite hex_render, width_chosen.
Qed.

Lemma told lr e : all_complain [Err (parser_error lr e)] (Err (error_to_js lr e))
  (Ok {| en_exit := 1; en_out := []; en_error := txt "error: " ++ coded lr e ++ [10] |})
  (error_code e) (error_layer e) (error_message lr e) (error_byte_offset e).
Proof.
  repeat split; [repeat constructor|]. unfold complaint, coded. change (txt "error: [") with (txt "error: " ++ txt "["). now rewrite <- !app_assoc.
Qed.
Lemma told2 lr e : all_complain [Err (parser_error lr e); Err (parser_error lr e)] (Err (error_to_js lr e))
  (Ok {| en_exit := 1; en_out := []; en_error := txt "error: " ++ coded lr e ++ [10] |})
  (error_code e) (error_layer e) (error_message lr e) (error_byte_offset e).
Proof. destruct (told lr e) as (A & B & C). inversion A; subst. repeat split; try assumption. repeat constructor; assumption. Qed.

Theorem all_render env rn lr su ar input data f k pk width : ar_file ar = None -> ar_data ar = Some input -> hex_input input data ->
  names_format (ar_format ar) f -> key_text (ar_key ar) k -> (pk = option_map PyText (ar_key ar) \/ pk = option_map PyBytes k) ->
  table_width su ar = (match width with Some w => w | None => 100 end) ->
  let enrichment := negb (ar_no_enrichment ar) in
  let python x := py_render env rn lr x (ar_format ar) pk width enrichment in
  let javascript := js_render env rn lr input (ar_format ar) (ar_key ar) width (Some enrichment) in
  let tool := cli_main env rn lr su ar in
  match render_bytes env rn data f {| op_key := k; op_include_enrichment := enrichment; op_table_width := width |} with
  | Ok t => python (PyText input) = Ok t /\ python (PyBytes data) = Ok t /\ javascript = Ok t /\ tool = success t
  | Err e => exists code layer message, all_complain [python (PyText input); python (PyBytes data)] javascript tool code layer message None /\
      code = error_code (SRender e) /\ layer = error_layer (SRender e) /\ message = error_message lr (SRender e) /\
      (failure data k f code layer \/ (f = FTable /\ table_width su ar < 32 /\ code = txt "option.invalid" /\ layer = txt "render"))
  | Panic p => python (PyText input) = Panic p /\ python (PyBytes data) = Panic p /\ javascript = Panic p /\ tool = Panic p
  end.
Proof.
  cbv zeta. intros F D Hx Hf Hk Hp Hw. set (en := negb (ar_no_enrichment ar)).
  destruct (key_everywhere lr _ _ Hk) as (K1 & K2 & K3). assert (K : extract_key lr pk = Ok k) by (destruct Hp as [-> | ->]; assumption).
  pose proof (proj1 (named _ _) Hf) as Nf. pose proof (proj2 (decode_hex_exact _ _) Hx) as Ex.
  assert (P : forall x, x = PyText input \/ x = PyBytes data -> py_render env rn lr x (ar_format ar) pk width en =
    map_err (fun e => parser_error lr (SRender e)) (render_bytes env rn data f {| op_key := k; op_include_enrichment := en; op_table_width := width |})).
  { intros x Hxx. unfold py_render. assert (X : extract_bytes lr x "data" = Ok data) by (apply extracted; destruct Hxx as [-> | ->]; [exact Hx|split; [reflexivity|exact (proj1 Hx)]]).
    rewrite X. cbn [bind]. rewrite Nf. cbn [map_err bind]. rewrite K. reflexivity. }
  assert (J : js_render env rn lr input (ar_format ar) (ar_key ar) width (Some en) =
    map_err (fun e => error_to_js lr (SRender e)) (render_bytes env rn data f {| op_key := k; op_include_enrichment := en; op_table_width := width |})).
  { unfold js_render. rewrite Nf. cbn [map_err bind]. rewrite K3. cbn [bind or_true]. unfold render_hex. rewrite Ex. reflexivity. }
  assert (C : cli_run env rn lr su ar =
    map_err (fun e => coded lr (SRender e)) (render_bytes env rn data f {| op_key := k; op_include_enrichment := en; op_table_width := width |})).
  { rewrite (tool_run _ _ _ _ _ _ _ _ F D eq_refl Hk), Nf. cbn [map_err bind]. rewrite Ex, Hw. now rewrite any_width. }
  rewrite (P (PyText input)), (P (PyBytes data)), J by auto. unfold cli_main. rewrite C.
  destruct (render_bytes env rn data f _) as [t|e|p] eqn:R; cbn [map_err].
  - repeat split.
  - destruct (render_failure_any _ _ _ _ _ _ (hex_input_bytes _ _ Hx) (proj1 Hx) R) as (Fl & O).
    do 3 eexists. split; [rewrite <- O; apply told2|]. repeat split. cbn [op_key op_table_width] in Fl.
    destruct Fl as [Fl|(-> & W & ->)]; [now left|right]. repeat split. rewrite Hw. exact W.
  - repeat split.
Qed.

Theorem all_unread env rn lr su ar input f k pk width : ar_file ar = None -> ar_data ar = Some input -> (forall data, ~ hex_input input data) ->
  names_format (ar_format ar) f -> key_text (ar_key ar) k -> (pk = option_map PyText (ar_key ar) \/ pk = option_map PyBytes k) ->
  exists code message offset, unread input code offset /\
    all_complain [py_render env rn lr (PyText input) (ar_format ar) pk width (negb (ar_no_enrichment ar))]
      (js_render env rn lr input (ar_format ar) (ar_key ar) width (Some (negb (ar_no_enrichment ar))))
      (cli_main env rn lr su ar) code (txt "input") message offset.
Proof.
  intros F D Nx Hf Hk Hp. destruct (unread_cases input) as [(data & Hx & _)|(e & E & U & L)]; [destruct (Nx _ Hx)|].
  destruct (key_everywhere lr _ _ Hk) as (K1 & K2 & K3). pose proof (proj1 (named _ _) Hf) as Nf.
  exists (error_code (of_input e)), (error_message lr (of_input e)), (error_byte_offset (of_input e)). split; [exact U|]. rewrite <- L.
  unfold py_render, extract_bytes. rewrite E. cbn [map_err bind]. unfold js_render. rewrite Nf. cbn [map_err bind]. rewrite K3. cbn [bind].
  rewrite hex_render, E. cbn [map_err]. unfold cli_main. rewrite (tool_run _ _ _ _ _ _ _ _ F D eq_refl Hk), Nf. cbn [map_err bind]. rewrite E. cbn [map_err]. apply told.
Qed.

Theorem all_unnamed env rn lr su ar input data pk k width : ar_file ar = None -> ar_data ar = Some input -> hex_input input data ->
  (forall f, ~ names_format (ar_format ar) f) -> key_text (ar_key ar) k ->
  exists message, message = txt "unsupported output format " ++ lr_debug lr (ar_format ar) ++ txt "; expected table, json, yaml, csv, mermaid, xml, annotated, or annotated-text" /\
    all_complain [py_render env rn lr (PyText input) (ar_format ar) pk width (negb (ar_no_enrichment ar)); py_render env rn lr (PyBytes data) (ar_format ar) pk width (negb (ar_no_enrichment ar))]
      (js_render env rn lr input (ar_format ar) (ar_key ar) width (Some (negb (ar_no_enrichment ar))))
      (cli_main env rn lr su ar) (txt "format.unsupported") (txt "render") message None.
Proof.
  intros F D Hx Nf Hk. apply not_named in Nf. eexists. split; [reflexivity|]. pose proof (proj2 (decode_hex_exact _ _) Hx) as Ex.
  unfold py_render at 1. cbn [extract_bytes]. rewrite Ex. cbn [map_err bind]. rewrite Nf. cbn [map_err bind].
  unfold py_render. assert (X : extract_bytes lr (PyBytes data) "data" = Ok data) by (apply extracted; split; [reflexivity|exact (proj1 Hx)]). rewrite X. cbn [bind]. rewrite Nf. cbn [map_err bind].
  unfold js_render. rewrite Nf. cbn [map_err bind]. unfold cli_main. rewrite (tool_run _ _ _ _ _ _ _ _ F D eq_refl Hk), Nf. cbn [map_err bind].
  apply (told2 lr (SUnsupportedFormat (ar_format ar))).
Qed.

(** the older functions *)
Theorem older_functions env rn lr stringify input data format f key k : hex_input input data -> names_format format f ->
  py_key (option_map PyText key) k ->
  match render_bytes env rn data f (asked k true 100) with
  | Ok t => py_m_bus_parse env rn lr input format key = Ok t /\ js_parse env rn lr stringify input format key = Ok t
  | Err e => exists code layer message, code = error_code (SRender e) /\ failure data k f code layer /\
      py_m_bus_parse env rn lr input format key = py_complaint code message /\
      js_parse env rn lr stringify input format key =
        Ok (match stringify {| je_message := message; je_code := code; je_layer := layer; je_byte_offset := None |} with
            | Some t => t | None => txt "M-Bus rendering failed" end)
  | Panic p => py_m_bus_parse env rn lr input format key = Panic p /\ js_parse env rn lr stringify input format key = Panic p
  end.
Proof.
  intros Hx Hf Hk. pose proof (proj1 (named _ _) Hf) as Nf. pose proof (proj2 (decode_hex_exact _ _) Hx) as Ex.
  assert (J : js_key lr key = Ok k).
  { apply js_key_ok. destruct key as [t|], k as [k|]; try (now destruct Hk). destruct Hk as (H & L). exists t. auto. }
  assert (P : py_m_bus_parse env rn lr input format key = map_err (fun e => parser_error lr (SRender e)) (render_bytes env rn data f (asked k true 100))).
  { unfold py_m_bus_parse. assert (K : match key with None => Ok None | Some value => b <- map_err (fun e => parser_error lr (of_input e)) (decode_hex_bytes value) ;; sixteen b end = Ok k).
    { apply (py_key_ok lr) in Hk. destruct key; exact Hk. }
    rewrite K. cbn [bind]. rewrite Nf. cbn [map_err bind]. rewrite hex_render, Ex. reflexivity. }
  rewrite P. unfold js_parse, js_render. rewrite Nf. cbn [map_err bind]. rewrite J. cbn [bind or_true]. rewrite hex_render, Ex.
  destruct (render_bytes env rn data f _) as [t|e|p] eqn:R; cbn [map_err]; auto.
  destruct (render_failure_any _ _ _ _ _ _ (hex_input_bytes _ _ Hx) (proj1 Hx) R) as ([F|(_ & W & _)] & O); [|cbn in W; lia].
  exists (error_code (SRender e)), (error_layer (SRender e)), (error_message lr (SRender e)). split; [reflexivity|]. split; [exact F|]. split; [reflexivity|]. rewrite <- O. reflexivity.
Qed.

(** ** Compact JSON *)
Lemma parts_elements l : Forall (fun v => value (to_string v) v) l -> l <> [] -> elements (parts (map to_string l)) l.
Proof.
  induction 1 as [|v l Hv H IH]; intros N; [congruence|]. destruct l as [|v' l].
  - cbn [map parts]. rewrite <- (app_nil_r (to_string v)). apply (LastElement []); [constructor|exact Hv|constructor].
  - change (parts (map to_string (v :: v' :: l))) with (to_string v ++ txt "," ++ parts (map to_string (v' :: l))).
    apply (MoreElements [] _ _ []); [constructor|exact Hv|constructor|]. apply IH. discriminate.
Qed.
Lemma parts_members m : Forall (fun v => value (to_string v) v) (map snd m) -> m <> [] ->
  members (parts (map (fun '(k, x) => json_string k ++ txt ":" ++ to_string x) m)) m.
Proof.
  induction m as [|[k v] m IH]; intros H N; [congruence|]. cbn [map snd] in H. inversion H as [|? ? Hv Hr]; subst. destruct m as [|[k' v'] m].
  - cbn [map parts]. rewrite <- (app_nil_r (to_string v)). apply (LastMember [] (flat_map json_char k) k [] []); auto using string_chars; constructor.
  - change (parts (map (fun '(k, x) => json_string k ++ txt ":" ++ to_string x) ((k, v) :: (k', v') :: m))) with
      ((json_string k ++ txt ":" ++ to_string v) ++ txt "," ++ parts (map (fun '(k, x) => json_string k ++ txt ":" ++ to_string x) ((k', v') :: m))).
    rewrite <- !app_assoc. apply (MoreMembers [] (flat_map json_char k) k [] [] _ _ []); auto using string_chars; try constructor. apply IH; [exact Hr|discriminate].
Qed.
Lemma to_string_value v : good_numbers v -> value (to_string v) v.
Proof.
  induction v as [|b|t|t|l IH|m IH] using json_ind2; intros G; cbn [to_string].
  - constructor.
  - destruct b; constructor.
  - inversion G as [? K|? K| |]; subst; [destruct K|]. now constructor.
  - apply IsString, string_chars.
  - inversion G as [? K| |? K|]; subst; [destruct K|]. destruct l as [|v l]; [apply (IsEmptyArray []); constructor|].
    apply IsArray, parts_elements; [|discriminate]. clear - IH K. induction IH; inversion K; subst; constructor; auto.
  - inversion G as [? K| | |? K]; subst; [destruct K|]. destruct m as [|[k v] m]; [apply (IsEmptyObject []); constructor|].
    apply IsObject, parts_members; [|discriminate]. clear - IH K. revert IH K. generalize (map snd ((k, v) :: m)). intros l IH K. induction IH; inversion K; subst; constructor; auto.
Qed.
Theorem compact_text v : fine v -> only_value (to_string v) v.
Proof.
  intros (D & G). assert (T : json_text (to_string v) v).
  { exists [], (to_string v), []. rewrite app_nil_r. split; [reflexivity|]. repeat split; try constructor. now apply to_string_value. }
  split; [exact T|]. split; [|exact D]. intros v' T'. exact (one_value _ _ _ T' T).
Qed.

(** ** The Python module *)
Lemma decode_failure env data key en e : bytes_ok data -> data <> [] -> decode_bytes env data key en = Err e ->
  failure data key FJson (error_code (of_output e)) (error_layer (of_output e)) /\ error_byte_offset (of_output e) = None.
Proof.
  intros B N H. destruct (decode_error _ _ _ _ _ B H) as [(-> & _)|[(a & b & -> & _ & R)|(code & -> & Hk)]]; [easy|..]; (split; [|reflexivity]); cbn [of_output error_code error_layer].
  - apply FlFrame; [cbn; auto|exact R].
  - apply FlSecurity; [cbn; auto|exact Hk|exact (decode_code _ _ _ _ _ B H)].
Qed.
Lemma py_bytes_some value data : py_bytes value data -> data <> [].
Proof. destruct value as [t|b|]; cbn; [intros H; exact (proj1 H)|intros (-> & H); exact H|contradiction]. Qed.

Theorem python_parse env rn lr value data key k en : numerals (rn_number rn) -> bytes_ok data -> py_bytes value data -> py_key key k ->
  match decode_bytes env data k en with
  | Ok d => exists t v, py_parse env rn lr value key en = Ok t /\ only_value t v /\ says_decoded (rn_number rn) d v
  | Err e => exists code layer message, py_parse env rn lr value key en = py_complaint code message /\ failure data k FJson code layer
  | Panic p => py_parse env rn lr value key en = Panic p
  end.
Proof.
  intros Hn B Hv Hk. pose proof (py_bytes_some _ _ Hv) as Ne. apply (extracted lr _ "data") in Hv. apply (py_key_ok lr) in Hk. unfold py_parse. rewrite Hv. cbn [bind]. rewrite Hk. cbn [bind].
  destruct (decode_bytes env data k en) as [d|e|p] eqn:E; cbn [map_err bind].
  - do 2 eexists. split; [reflexivity|]. split; [apply compact_text, decoded_fine; [exact Hn|exact (decoded_proper _ _ _ _ _ E)]|].
    apply decoded_said. intros x. exact (decoded_enrichment _ _ _ _ _ x E).
  - destruct (decode_failure _ _ _ _ _ B Ne E) as (F & _). do 3 eexists. split; [reflexivity|exact F].
  - reflexivity.
Qed.
Theorem python_lossless env rn lr value value' data data' key key' k k' en en' t d d' : apart (rn_number rn) -> numerals (rn_number rn) ->
  py_bytes value data -> py_bytes value' data' -> py_key key k -> py_key key' k' -> 
  decode_bytes env data k en = Ok d -> decode_bytes env data' k' en' = Ok d' ->
  py_parse env rn lr value key en = Ok t -> py_parse env rn lr value' key' en' = Ok t -> d = d'.
Proof.
  intros Ha Hn Hv Hv' Hk Hk' D D' H H'. apply (extracted lr _ "data") in Hv, Hv'. apply (py_key_ok lr) in Hk, Hk'. unfold py_parse in H, H'.
  rewrite Hv in H. rewrite Hv' in H'. cbn [bind] in H, H'. rewrite Hk in H. rewrite Hk' in H'. cbn [bind] in H, H'. rewrite D in H. rewrite D' in H'. cbn [map_err bind] in H, H'.
  apply Ok_inj in H, H'.
  pose proof (compact_text _ (decoded_fine _ d Hn (decoded_proper _ _ _ _ _ D))) as (_ & U & _). pose proof (compact_text _ (decoded_fine _ d' Hn (decoded_proper _ _ _ _ _ D'))) as (T' & _).
  rewrite H in U. rewrite H' in T'. pose proof (U _ T') as E.
  assert (S := decoded_said (rn_number rn) d (fun e => decoded_enrichment _ _ _ _ _ e D)). assert (S' := decoded_said (rn_number rn) d' (fun e => decoded_enrichment _ _ _ _ _ e D')).
  rewrite E in S'. exact (decoded_once (rn_number rn) _ d d' Ha (decoded_proper _ _ _ _ _ D) (decoded_proper _ _ _ _ _ D') S S').
Qed.

Lemma records_proper env data outs : decode_data_records env data = Ok outs -> Forall proper_record outs.
Proof.
  unfold decode_data_records. destruct (records_all_decodes (env_config env) data None) as (l & E & D).
  destruct (decodes_shape _ _ _ _ D) as (rs & x & ->). pose proof (collect_records_of env data None rs x E) as C. destruct data as [|b data]; [discriminate|].
  rewrite C. destruct x as [|e|p]; cbn [bind]; intros H; try discriminate H. apply Ok_inj in H. subst outs. apply outs_proper.
Qed.
Theorem python_records env rn lr value data : numerals (rn_number rn) -> py_bytes value data ->
  match decode_data_records env data with
  | Ok outs => exists t v, py_parse_records env rn lr value = Ok t /\ only_value t v /\ list_of (says_record (rn_number rn)) (Some v) outs
  | Err e => exists message, py_parse_records env rn lr value = py_complaint (error_code (SRender (RDecode e))) message
  | Panic p => py_parse_records env rn lr value = Panic p
  end.
Proof.
  intros Hn Hv. apply (extracted lr _ "data") in Hv. unfold py_parse_records. rewrite Hv. cbn [bind]. unfold records_json.
  destruct (decode_data_records env data) as [outs|e|p] eqn:E; cbn [map_err bind]; [|eexists; reflexivity|reflexivity].
  apply records_proper in E. do 2 eexists. split; [reflexivity|]. split.
  - apply compact_text, fine_array. intros r Hr. apply record_fine; [exact Hn|]. exact (proj1 (Forall_forall _ _) E r Hr).
  - apply list_map. intros r _. apply record_said.
Qed.
Lemma python_application env rn lr input : py_parse_application_layer env rn lr input = py_parse_records env rn lr (PyText input).
Proof. reflexivity. Qed.

Theorem python_refused env rn lr value : (forall data, ~ py_bytes value data) ->
  (forall key en, py_refused "data" value (py_parse env rn lr value key en)) /\ py_refused "data" value (py_parse_records env rn lr value) /\
  (forall format key width en, py_refused "data" value (py_render env rn lr value format key width en)).
Proof.
  intros N. destruct (extract_bytes lr value "data") as [data|e|p] eqn:E; [apply extracted in E; destruct (N _ E)|..|destruct (extracted_no_panic _ _ _ _ E)].
  apply extracted_error in E as R. unfold py_parse, py_parse_records, py_render. rewrite E. cbn [bind]. auto.
Qed.
Theorem python_key_refused env rn lr value data key en : py_bytes value data -> (forall k, ~ py_key (Some key) k) ->
  py_refused "key" key (py_parse env rn lr value (Some key) en) \/
  exists b, py_bytes key b /\ List.length b <> 16%nat /\
    py_parse env rn lr value (Some key) en = py_complaint (txt "option.invalid") (txt "key must contain exactly 16 bytes, received " ++ dec (len b)).
Proof.
  intros Hv Hk. apply (extracted lr _ "data") in Hv. unfold py_parse. rewrite Hv. cbn [bind extract_key].
  destruct (extract_bytes lr key "key") as [b|e|p] eqn:E; cbn [bind]; [right|left; exact (extracted_error _ _ _ _ E)|destruct (extracted_no_panic _ _ _ _ E)].
  apply extracted in E. exists b. split; [exact E|]. unfold sixteen. destruct (len b =? 16) eqn:L.
  - apply N.eqb_eq in L. destruct (Hk (Some b)). split; [exact E|]. unfold len in L. lia.
  - apply N.eqb_neq in L. split; [|reflexivity]. intros H. apply L. unfold len. rewrite H. reflexivity.
Qed.

(** ** The JavaScript module *)
Theorem javascript_decode env lr input data key k en : hex_input input data -> js_key_text key k ->
  match decode_bytes env data k (match en with Some b => b | None => true end) with
  | Ok d => exists d', js_decode env lr input key en = Ok d' /\ same_but_raw d d' /\ rw_input (do_raw d') = Some input /\
      rw_original_frame_hex (do_raw d') = rw_original_frame_hex (do_raw d)
  | Err e => exists code layer message, js_decode env lr input key en = js_complaint code layer message None /\ failure data k FJson code layer
  | Panic p => js_decode env lr input key en = Panic p
  end.
Proof.
  intros Hx Hk. apply (js_key_ok lr) in Hk. unfold js_decode. rewrite Hk. cbn [bind]. change (or_true en) with (match en with Some b => b | None => true end).
  destruct (decode_bytes env data k _) as [d|e|p] eqn:E.
  - destruct (decode_hex_of _ _ _ _ _ _ Hx E) as (d' & H & R). exists d'. rewrite H. split; [reflexivity|exact R].
  - pose proof (proj2 (decode_hex_exact _ _) Hx) as Ex. unfold decode_hex. rewrite Ex. cbn [map_err bind]. rewrite E. cbn [map_err bind].
    destruct (decode_failure _ _ _ _ _ (hex_input_bytes _ _ Hx) (proj1 Hx) E) as (F & O). do 3 eexists. split; [unfold js_complaint; rewrite <- O; reflexivity|exact F].
  - pose proof (proj2 (decode_hex_exact _ _) Hx) as Ex. unfold decode_hex. rewrite Ex. cbn [map_err bind]. rewrite E. reflexivity.
Qed.
Theorem javascript_unread env lr input key k en : (forall data, ~ hex_input input data) -> js_key_text key k ->
  exists code message offset, unread input code offset /\ js_decode env lr input key en = js_complaint code (txt "input") message offset.
Proof.
  intros N Hk. apply (js_key_ok lr) in Hk. destruct (unread_cases input) as [(data & Hx & _)|(e & E & U & L)]; [destruct (N _ Hx)|].
  unfold js_decode. rewrite Hk. cbn [bind]. unfold decode_hex. rewrite E. cbn [map_err bind]. do 3 eexists. split; [exact U|]. rewrite <- L. reflexivity.
Qed.
Theorem javascript_key env lr input key en : (forall k, ~ js_key_text (Some key) k) ->
  (exists code message offset, unread key code offset /\ js_decode env lr input (Some key) en = js_complaint code (txt "input") message offset) \/
  (exists b, hex_input key b /\ List.length b <> 16%nat /\ js_decode env lr input (Some key) en =
     js_complaint (txt "option.invalid") (txt "render") (txt "invalid key: must contain exactly 16 bytes, received " ++ dec (len b)) None).
Proof.
  intros N. unfold js_decode. destruct (js_key lr (Some key)) as [k|e|p] eqn:E; [apply js_key_ok in E; destruct (N _ E)|..].
  - cbn [bind]. unfold js_key, wasm_parse_key in E. destruct (trim key); [discriminate E|].
    destruct (unread_cases key) as [(b & Hx & Ed)|(x & Ex & U & L)].
    + rewrite Ed in E. cbn [bind] in E. destruct (len b =? 16) eqn:Lb; [discriminate E|]. cbn [map_err] in E. injection E as <-. right. exists b. split; [exact Hx|]. split; [|reflexivity].
      apply N.eqb_neq in Lb. intros H. apply Lb. unfold len. now rewrite H.
    + rewrite Ex in E. cbn [bind map_err] in E. injection E as <-. left.
      destruct x as [|i|i]; try (do 3 eexists; split; [exact U|]; rewrite <- L; reflexivity).
  - unfold js_key, wasm_parse_key in E. destruct (trim key); [discriminate E|]. destruct (unread_cases key) as [(b & Hx & Ed)|(x & Ex & U & L)].
    + rewrite Ed in E. cbn [bind] in E. destruct (len b =? 16); discriminate E.
    + rewrite Ex in E. discriminate E.
Qed.
