(** Concrete JSON texts. *)
From Coq Require Import List NArith ZArith Lia Bool String.
Import ListNotations.
From Verif Require Import Model.Base Model.Text Model.F64 Model.Show Model.MbusData Model.Annotate Model.Output Model.Format Model.Json Model.AnnotateText Model.JsonView Model.Hex Model.Render Model.Legacy Model.Serialize
  Spec.TextSpec Spec.JsonSpec Spec.JsonViewSpec Proof.BaseFacts Proof.ShowFacts Proof.RenderFacts Proof.FormatProps Proof.AnnotateProps Proof.MbusProps Proof.OutputProps Proof.LegacyProps
  Proof.JsonFacts Proof.JsonDocs Proof.JsonBack Proof.JsonViewFacts.
Open Scope N_scope.
Open Scope list_scope.

(** a way to write numbers: the sign, the mantissa, and the power of two as if it were one of ten *)
Definition minus (s : bool) : text := if s then [45] else [].
Definition ex_number (x : f64) : text :=
  match x with
  | S754_finite s m e => minus s ++ dec (Npos m) ++ [101] ++ minus (e <? 0)%Z ++ dec (Z.abs_N e)
  | S754_zero s => minus s ++ [48]
  | _ => txt "null"
  end.
Lemma dec_digit n : Forall digit (dec n).
Proof. destruct (dec_text n) as (D & _). eapply Forall_impl; [|exact D]. intros c H. exact H. Qed.
Lemma dec_filled n : dec n <> [].
Proof. apply dec_text. Qed.
Lemma dec_whole n : whole_part (dec n).
Proof.
  destruct (dec_text n) as (D & E & Z & _). destruct (dec n) as [|c rest] eqn:K; [congruence|]. inversion D as [|? ? Hc Hr]; subst. unfold digit_char in Hc.
  destruct (N.eq_dec c 48) as [->|Nc]; [left; now rewrite (Z 48 rest eq_refl eq_refl)|]. right. exists c, rest. repeat split; try lia. exact Hr.
Qed.
Lemma ex_numerals : numerals ex_number.
Proof.
  intros [s|s| |s m e] F; try destruct F.
  - exists (minus s), [48], [], []. rewrite !app_nil_r. split; [reflexivity|]. split; [destruct s; auto|]. split; [now left|]. split; now left.
  - exists (minus s), (dec (Npos m)), [], ([101] ++ minus (e <? 0)%Z ++ dec (Z.abs_N e)). split; [reflexivity|]. split; [destruct s; auto|].
    split; [apply dec_whole|]. split; [now left|]. right. exists 101, (minus (e <? 0)%Z), (dec (Z.abs_N e)). split; [reflexivity|]. split; [auto|].
    split; [destruct (e <? 0)%Z; cbn; auto|]. split; [apply dec_filled|apply dec_digit].
Qed.
Lemma minus_cut s t x y : (forall c r, x = c :: r -> c <> 45) -> (forall c r, y = c :: r -> c <> 45) -> minus s ++ x = minus t ++ y -> s = t /\ x = y.
Proof.
  intros Hx Hy E. destruct s, t; cbn [minus app] in E; [injection E; auto|..|auto].
  - destruct (Hy 45 x); auto.
  - destruct (Hx 45 y); auto.
Qed.
Lemma dec_plus n c r : dec n = c :: r -> c <> 45.
Proof. intros E. pose proof (dec_digit n) as D. rewrite E in D. inversion D; subst. unfold digit in *. lia. Qed.
Lemma dec_app_plus n t c r : dec n ++ t = c :: r -> c <> 45.
Proof. intros E. destruct (dec n) as [|d x] eqn:K; [now destruct (dec_filled n)|]. injection E as <- _. exact (dec_plus n d x K). Qed.
Lemma digits_cut a : forall b x y, Forall digit a -> Forall digit b -> a ++ 101 :: x = b ++ 101 :: y -> a = b /\ x = y.
Proof.
  induction a as [|c a IH]; intros [|d b] x y Ha Hb E; cbn [app] in E.
  - injection E; auto.
  - inversion Hb; subst. injection E as <- _. unfold digit in *. lia.
  - inversion Ha; subst. injection E as -> _. unfold digit in *. lia.
  - inversion Ha; subst. inversion Hb; subst. injection E as <- E. destruct (IH b x y) as [-> ->]; auto.
Qed.
Lemma zero_finite n t : [48] = dec n ++ 101 :: t -> False.
Proof.
  intros E. destruct (dec n) as [|c r] eqn:K; [now destruct (dec_filled n)|]. destruct r; discriminate.
Qed.
Lemma ex_apart : apart ex_number.
Proof.
  assert (P48 : forall c r, [48] = c :: r -> c <> 45) by (intros c r E; injection E as <- <-; lia).
  intros [s|s| |s m e] [t|t| |t n f] F G E; try destruct F; try destruct G; cbn [ex_number] in E.
  - apply minus_cut in E as [-> _]; auto.
  - apply minus_cut in E as [_ E]; auto; [now apply zero_finite in E|apply dec_app_plus].
  - apply minus_cut in E as [_ E]; auto; [symmetry in E; now apply zero_finite in E|apply dec_app_plus].
  - apply minus_cut in E as [-> E]; [|apply dec_app_plus..]. cbn [app] in E. apply digits_cut in E as [E1 E2]; [|apply dec_digit..].
    apply dec_injective in E1. injection E1 as <-. apply minus_cut in E2 as [E2 E3]; [|apply dec_plus..]. apply dec_injective in E3.
    f_equal. destruct (Z.ltb_spec e 0), (Z.ltb_spec f 0); try discriminate; lia.
Qed.

Definition json_renderers : renderers := {|
  rn_cw := rn_cw ex_renderers; rn_sw := rn_sw ex_renderers; rn_number := ex_number; rn_yaml := rn_yaml ex_renderers;
  rn_powi := rn_powi ex_renderers; rn_display := ex_number |}.

(** the first lines of a text *)
Definition starts (t : text) (l : list string) : Prop := exists rest, t = flat_map (fun s => txt s ++ [10]) l ++ rest.
Lemma starts_dec t l : firstn (length (flat_map (fun s => txt s ++ [10]) l)) t = flat_map (fun s => txt s ++ [10]) l -> starts t l.
Proof. intros H. exists (skipn (length (flat_map (fun s => txt s ++ [10]) l)) t). rewrite <- H at 1. symmetry. apply firstn_skipn. Qed.

Definition wide_options : render_options := {| op_key := None; op_include_enrichment := false; op_table_width := Some 120 |}.
Lemma json_example : exists t d v, render_bytes ex_env json_renderers ex_wired_clear FJson ex_options = Ok t /\
  render_bytes ex_env json_renderers ex_wired_clear FJson wide_options = Ok t /\
  decode_bytes ex_env ex_wired_clear None false = Ok d /\ json_text t v /\ numerals ex_number /\ apart ex_number /\
  starts t ["{"; "  ""schema_version"": 3,"; "  ""decode_state"": ""complete"","; "  ""protocol"": ""wired"","; "  ""frame"": {"; "    ""kind"": ""long"","]%string /\
  exists r value, field v "records" = Some (VArray [r; value]) /\ (exists x, field r "value" = Some x /\ text_of (field x "value") (txt "12345.678")).
Proof.
  destruct (decode_bytes ex_env ex_wired_clear None false) as [d|e|p] eqn:D; [|exfalso; vm_compute in D; discriminate..].
  assert (R : forall o, op_key o = None -> op_include_enrichment o = false -> render_bytes ex_env json_renderers ex_wired_clear FJson o = Ok (render_json ex_number d)).
  { intros [k i w] Ek Ei. cbn in Ek, Ei. subst. cbn [render_bytes op_key op_include_enrichment]. rewrite D. reflexivity. }
  destruct (json_output ex_env json_renderers ex_wired_clear ex_options _ ex_numerals (R ex_options eq_refl eq_refl)) as (d' & v & _ & T & U & _).
  exists (render_json ex_number d), d, v. split; [now apply R|]. split; [now apply R|]. split; [reflexivity|]. split; [exact T|].
  split; [exact ex_numerals|]. split; [exact ex_apart|].
  assert (V : v = decoded_json ex_number d).
  { symmetry. apply U. apply pretty_text. destruct (decoded_fine ex_number d ex_numerals (decoded_proper _ _ _ _ _ D)). assumption. }
  vm_compute in D. apply Ok_inj in D. subst d. split; [apply starts_dec; vm_compute; reflexivity|].
  subst v. do 2 eexists. split; [vm_compute; reflexivity|]. eexists. split; vm_compute; reflexivity.
Qed.

Lemma annotated_example : exists t v, render_annotated_bytes ex_env json_renderers ex_wired_clear None = Ok t /\ json_text t v /\
  starts t ["{"; "  ""bytes"": ["; "    104,"; "    26,"]%string /\ flag_of (field v "decrypted") false /\
  exists s rest, field v "segments" = Some (VArray (s :: rest)) /\ length rest = 22%nat /\ text_of (field s "detail") (txt "Start: 0x68").
Proof.
  destruct (frame_told (env_config ex_env) ex_number ex_wired_clear) as [l|e|p] eqn:D; [|exfalso; vm_compute in D; discriminate..].
  exists (to_string_pretty (annotated_json ex_wired_clear l None)), (annotated_json ex_wired_clear l None).
  split. { unfold render_annotated_bytes, annotated_document. change (rn_display json_renderers) with ex_number. rewrite D. reflexivity. }
  split; [apply pretty_text, annotated_fine|].
  vm_compute in D. apply Ok_inj in D. subst l. split; [apply starts_dec; vm_compute; reflexivity|]. split; [reflexivity|].
  do 2 eexists. split; [vm_compute; reflexivity|]. split; vm_compute; reflexivity.
Qed.
Lemma decrypted_example : exists t v, render_annotated_bytes ex_env json_renderers (long_frame (ex_sealed ex_long_head)) (Some ex_key) = Ok t /\ json_text t v /\
  flag_of (field v "decrypted") true /\
  (exists o, field v "original" = Some o /\ list_of (fun b x => x = VNumber (dec b)) (field o "bytes") (long_frame (ex_sealed ex_long_head))) /\
  list_of (fun b x => x = VNumber (dec b)) (field v "bytes") (long_frame (ex_plain ex_long_head)).
Proof.
  destruct (render_annotated_bytes ex_env json_renderers (long_frame (ex_sealed ex_long_head)) (Some ex_key)) as [t|e|p] eqn:D; [|exfalso; vm_compute in D; discriminate..].
  exists t. assert (Es : decrypted_hexview (env_config ex_env) (env_aes ex_env) (long_frame (ex_sealed ex_long_head)) ex_key = Ok (Some (long_frame (ex_plain ex_long_head))))
    by (vm_compute; reflexivity).
  unfold render_annotated_bytes, annotated_document in D. change (rn_display json_renderers) with ex_number in D.
  apply bind_ok in D as (v & D & T). apply map_err_ok in D. apply Ok_inj in T. subst t.
  apply bind_ok in D as (l0 & H0 & D). rewrite Es in D. cbn [map_err bind] in D.
  apply bind_ok in D as (l1 & H1 & D). apply bind_ok in D as (l2 & H2 & D). apply Ok_inj in D. subst v.
  eexists. split; [reflexivity|]. split; [apply pretty_text, annotated_fine|].
  destruct (annotated_said (long_frame (ex_plain ex_long_head)) l2 (Some (long_frame (ex_sealed ex_long_head), l0))) as (_ & [B _] & Fl & (w & Ew & [Bo _])).
  split; [exact Fl|]. split; [eauto|exact B].
Qed.
(** the older outputs with these numbers *)
Definition json_legacy : legacy_renderers := {|
  lr_display := ex_number; lr_number := ex_number; lr_yaml := lr_yaml ex_legacy; lr_frame_message := lr_frame_message ex_legacy;
  lr_message := lr_message ex_legacy; lr_debug := lr_debug ex_legacy |}.
Lemma hexview_example : exists t v,
  clean_and_convert (hex_string (long_frame (ex_sealed ex_long_head))) = long_frame (ex_sealed ex_long_head) /\
  (forall k shown, Some ex_key = Some k -> decrypted_hexview (env_config ex_env) (env_aes ex_env) (long_frame (ex_sealed ex_long_head)) k = Ok (Some shown) -> bytes_ok shown) /\
  serialize_mbus_data ex_env json_renderers json_legacy (hex_string (long_frame (ex_sealed ex_long_head))) (txt "hexview-legacy") (Some ex_key) = Ok t /\ json_text t v /\
  list_of (fun b x => x = VNumber (dec b)) (field v "bytes") (long_frame (ex_plain ex_long_head)).
Proof.
  assert (C : clean_and_convert (hex_string (long_frame (ex_sealed ex_long_head))) = long_frame (ex_sealed ex_long_head)) by (vm_compute; reflexivity).
  change (serialize_mbus_data ex_env json_renderers json_legacy (hex_string (long_frame (ex_sealed ex_long_head))) (txt "hexview-legacy") (Some ex_key))
    with (hexview_text ex_env ex_number (clean_and_convert (hex_string (long_frame (ex_sealed ex_long_head)))) (Some ex_key)). rewrite C.
  destruct (hexview_text ex_env ex_number (long_frame (ex_sealed ex_long_head)) (Some ex_key)) as [t|e|p] eqn:D; [|exfalso; vm_compute in D; discriminate..].
  assert (Es : decrypted_hexview (env_config ex_env) (env_aes ex_env) (long_frame (ex_sealed ex_long_head)) ex_key = Ok (Some (long_frame (ex_plain ex_long_head))))
    by (vm_compute; reflexivity).
  assert (B : forall k shown, Some ex_key = Some k -> decrypted_hexview (env_config ex_env) (env_aes ex_env) (long_frame (ex_sealed ex_long_head)) k = Ok (Some shown) -> bytes_ok shown).
  { intros k shown Ek Ed. injection Ek as <-. rewrite Es in Ed. injection Ed as <-. lit. }
  unfold hexview_text in D. rewrite Es in D. cbn [bind] in D.
  destruct (frame_told (env_config ex_env) ex_number (long_frame (ex_plain ex_long_head))) as [l0|e|p] eqn:F; [|exfalso; vm_compute in F; discriminate..].
  apply bind_ok in D as (l & Hl & D). apply Ok_inj in D. exists t, (hexview_json (long_frame (ex_plain ex_long_head)) l).
  split; [reflexivity|]. split; [exact B|]. split; [reflexivity|]. rewrite <- D. split; [apply pretty_text, hexview_fine|]. apply hexview_said.
Qed.
Lemma refused_example : exists t, serialize_mbus_data ex_env json_renderers json_legacy (txt "01 02 03") (txt "annotated-legacy") None = Ok t /\
  t = txt "{""error"": ""Invalid start byte""}".
Proof. eexists. split; vm_compute; reflexivity. Qed.
