(** What the JSON of annotated bytes says. *)
From Coq Require Import List NArith ZArith Lia Bool String.
Import ListNotations.
From Verif Require Import Model.Base Model.Text Model.Core Model.F64 Model.Record Model.MbusData Model.Hex Model.Show Model.Annotate Model.Output Model.Json Model.AnnotateText Model.JsonView Model.Render
  Model.Legacy Model.Serialize Spec.TextSpec Spec.AnnotateSpec Spec.TooltipSpec Spec.JsonSpec Spec.JsonViewSpec
  Proof.BaseFacts Proof.AnnotateFacts Proof.AnnotateApp Proof.RenderFacts Proof.SerializeFacts Proof.TooltipFacts Proof.JsonFacts Proof.JsonDocs Proof.JsonBack.
Open Scope N_scope.
Open Scope list_scope.

Lemma group_fine g : fine (group_json g).
Proof. destruct g; [apply fine_int|apply fine_null]. Qed.
Lemma segment_fine x : fine (segment_json x).
Proof. destruct x as [s t]. apply fine_object; [names|members_fine]. apply group_fine. Qed.
Lemma segment_sorted_fine x : fine (segment_json_sorted x).
Proof. destruct x as [s t]. apply fine_object; [names|members_fine]. apply group_fine. Qed.
Lemma bytes_fine data : fine (bytes_json data).
Proof. apply fine_array. intros b _. apply fine_int. Qed.
Lemma segments_fine l : fine (segments_json l).
Proof. apply fine_array. intros x _. apply segment_sorted_fine. Qed.
Lemma annotated_fine data l original : fine (annotated_json data l original).
Proof.
  apply fine_object; [names|members_fine]; auto using bytes_fine, segments_fine.
  destruct a as [d k]. apply fine_object; [names|members_fine]; auto using bytes_fine, segments_fine.
Qed.
Lemma hexview_fine data l : fine (hexview_json data l).
Proof. apply fine_object; [names|members_fine]; auto using bytes_fine, segments_fine. Qed.

Lemma kind_said k : In (k, kind_name k) kind_names.
Proof. destruct k; cbn; tauto. Qed.
Lemma layer_said l : In (l, layer_name l) layer_names.
Proof. destruct l; cbn; tauto. Qed.
Lemma segment_said x : says_segment x (segment_json x).
Proof.
  destruct x as [[a b k g la] t]. unfold says_segment. cbn [s_start s_end s_kind s_group s_layer].
  split; [reflexivity|]. split; [reflexivity|]. split; [exists (kind_name k); split; [apply kind_said|reflexivity]|]. split; [reflexivity|].
  split; [destruct g; reflexivity|]. exists (layer_name la). split; [apply layer_said|reflexivity].
Qed.
Lemma segment_sorted_said x : says_segment x (segment_json_sorted x).
Proof.
  destruct x as [[a b k g la] t]. unfold says_segment. cbn [s_start s_end s_kind s_group s_layer].
  split; [reflexivity|]. split; [reflexivity|]. split; [exists (kind_name k); split; [apply kind_said|reflexivity]|]. split; [reflexivity|].
  split; [destruct g; reflexivity|]. exists (layer_name la). split; [apply layer_said|reflexivity].
Qed.
Lemma bytes_listed data : list_of (fun b x => x = VNumber (dec b)) (Some (bytes_json data)) data.
Proof. apply list_map. reflexivity. Qed.
Lemma segments_listed l : list_of says_segment (Some (segments_json l)) l.
Proof. apply list_map. intros x _. apply segment_sorted_said. Qed.
Lemma annotated_said data l original : says_annotated data l original (annotated_json data l original).
Proof.
  pose proof (bytes_listed data) as B. pose proof (segments_listed l) as S.
  destruct original as [[d k]|]; (split; [reflexivity|]); (split; [split; [exact B|exact S]|]); (split; [reflexivity|]); [|reflexivity].
  eexists. split; [reflexivity|]. split; [exact (bytes_listed d)|exact (segments_listed k)].
Qed.
Lemma hexview_said data l : says_bytes (hexview_json data l) data l /\ flag_of (field (hexview_json data l) "decrypted") true.
Proof. split; [split; [exact (bytes_listed data)|exact (segments_listed l)]|reflexivity]. Qed.

Lemma fine_only v : fine v -> only_value (to_string_pretty v) v.
Proof. intros [D G]. pose proof (pretty_text v G) as P. split; [exact P|]. split; [intros v' K; exact (one_value _ _ _ K P)|exact D]. Qed.

Lemma ranges_frame cf display data l : frame_told cf display data = Ok l -> annotate_frame cf data = Ok (map fst l).
Proof. intros H. rewrite <- (frame_ranges cf display data), H. reflexivity. Qed.
Lemma told_frame cf display data segs : annotate_frame cf data = Ok segs -> exists l, frame_told cf display data = Ok l /\ map fst l = segs.
Proof. rewrite <- (frame_ranges cf display data). destruct (frame_told cf display data) as [l|e|p]; try discriminate. intros E. injection E. eauto. Qed.

Theorem annotated_text env rn data key t : render_annotated_bytes env rn data key = Ok t ->
  exists v, only_value t v /\ exists shown l original, says_annotated shown l original v /\
    match original with
    | None => shown = data /\ frame_told (env_config env) (rn_display rn) data = Ok l
    | Some (data0, l0) => data0 = data /\ frame_told (env_config env) (rn_display rn) data = Ok l0 /\
        (exists k, key = Some k /\ decrypted_hexview (env_config env) (env_aes env) data k = Ok (Some shown)) /\
        exists segs, annotate_frame (env_config env) shown = Ok segs /\ replace_encrypted (env_config env) segs shown = Ok (map fst l)
    end.
Proof.
  unfold render_annotated_bytes. intros T. apply bind_ok in T as (v & H & T). apply map_err_ok in H. apply Ok_inj in T. subst t. exists v.
  unfold annotated_document in H. apply bind_ok in H as (l0 & H0 & H). apply map_err_ok in H0.
  assert (P : v = annotated_json data l0 None -> only_value (to_string_pretty v) v /\ exists shown l original, says_annotated shown l original v /\
    match original with
    | None => shown = data /\ frame_told (env_config env) (rn_display rn) data = Ok l
    | Some (data0, l0) => data0 = data /\ frame_told (env_config env) (rn_display rn) data = Ok l0 /\
        (exists k, key = Some k /\ decrypted_hexview (env_config env) (env_aes env) data k = Ok (Some shown)) /\
        exists segs, annotate_frame (env_config env) shown = Ok segs /\ replace_encrypted (env_config env) segs shown = Ok (map fst l)
    end).
  { intros ->. split; [apply fine_only, annotated_fine|]. exists data, l0, None. split; [apply annotated_said|]. auto. }
  destruct key as [k|]; [|apply Ok_inj in H; subst; auto].
  apply bind_ok in H as (shown & Hs & H). apply map_err_ok in Hs.
  destruct shown as [shown|]; [|apply Ok_inj in H; subst; auto].
  apply bind_ok in H as (l1 & H1 & H). apply map_err_ok in H1. apply bind_ok in H as (l2 & H2 & H). apply map_err_ok in H2. apply Ok_inj in H. subst v.
  split; [apply fine_only, annotated_fine|]. exists shown, l2, (Some (data, l0)). split; [apply annotated_said|].
  split; [reflexivity|]. split; [exact H0|]. split; [eauto|]. exists (map fst l1). split; [exact (ranges_frame _ _ _ _ H1)|].
  rewrite <- (replace_ranges _ (rn_display rn)), H2. reflexivity.
Qed.

Lemma name_once {A} (l : list (A * string)) : no_dup (map (fun x => txt (snd x)) l) = true -> forall k k' n, In (k, n) l -> In (k', n) l -> k = k'.
Proof.
  intros H. apply no_dup_ok in H. induction l as [|[a m] l IH]; intros k k' n; [easy|]. cbn [map snd] in H. inversion H as [|? ? Hn Hl]; subst.
  assert (X : forall b, ~ In (b, m) l) by (intros b K; apply Hn; exact (in_map (fun x => txt (snd x)) l (b, m) K)).
  intros [E|E] [F|F]; [congruence|injection E as <- <-; destruct (X _ F)|injection F as <- <-; destruct (X _ E)|exact (IH Hl _ _ _ E F)].
Qed.
Definition kind_once := name_once kind_names eq_refl.
Definition layer_once := name_once layer_names eq_refl.
Lemma txt_once a : forall b, txt a = txt b -> a = b.
Proof.
  unfold txt. intros b H. rewrite <- (string_of_list_ascii_of_string a), <- (string_of_list_ascii_of_string b). f_equal.
  revert H. generalize (list_ascii_of_string a) as x, (list_ascii_of_string b) as y.
  induction x as [|c x IH]; intros [|d y] H; try discriminate; [reflexivity|]. cbn [map] in H. injection H as Hc Hx. f_equal; [|now apply IH].
  rewrite <- (Ascii.ascii_N_embedding c), <- (Ascii.ascii_N_embedding d). now f_equal.
Qed.
Lemma segment_once : said_once says_segment.
Proof.
  intros v [[a b k g la] t] [[a' b' k' g' la'] t'] H K. unfold says_segment in *. cbn [s_start s_end s_kind s_group s_layer] in *.
  destruct H as (H1 & H2 & (n & I & H3) & H4 & H5 & (m & J & H6)), K as (K1 & K2 & (n' & I' & K3) & K4 & K5 & (m' & J' & K6)).
  pose proof (proj1 text_once _ _ _ H3 K3) as E. apply txt_once in E. subst n'. pose proof (kind_once _ _ _ I I'). subst k'.
  pose proof (proj1 text_once _ _ _ H6 K6) as E. apply txt_once in E. subst m'. pose proof (layer_once _ _ _ J J'). subst la'.
  assert (g = g').
  { destruct g as [g|], g' as [g'|]; [f_equal; exact (proj1 number_once _ _ _ H5 K5)|..|reflexivity]; unfold number_of in *; congruence. }
  both. reflexivity.
Qed.
Lemma byte_once : said_once (fun (b : N) x => x = VNumber (dec b)).
Proof. intros v a b -> E. injection E. intros H. now apply dec_injective in H. Qed.
Lemma bytes_once v d l d' l' : says_bytes v d l -> says_bytes v d' l' -> d = d' /\ l = l'.
Proof. intros [A B] [A' B']. split; [exact (list_once _ _ _ _ byte_once A A')|exact (list_once _ _ _ _ segment_once B B')]. Qed.
Lemma annotated_once v d l o d' l' o' : says_annotated d l o v -> says_annotated d' l' o' v -> d = d' /\ l = l' /\ o = o'.
Proof.
  intros (_ & A & _ & B) (_ & A' & _ & B'). destruct (bytes_once _ _ _ _ _ A A') as [<- <-]. split; [reflexivity|]. split; [reflexivity|].
  refine (there_once _ _ _ _ _ B B'). split; [|intros a (w & E & _); discriminate].
  intros x [a b] [a' b'] (w & -> & P) (w' & E & Q). injection E as <-. cbn [fst snd] in *. destruct (bytes_once _ _ _ _ _ P Q) as [<- <-]. reflexivity.
Qed.
(** the text holds the bytes received *)
Theorem annotated_back env rn data key t env' rn' data' key' :
  render_annotated_bytes env rn data key = Ok t -> render_annotated_bytes env' rn' data' key' = Ok t -> data = data'.
Proof.
  intros H H'. destruct (annotated_text _ _ _ _ _ H) as (v & (_ & U & _) & shown & l & o & S & M), (annotated_text _ _ _ _ _ H') as (v' & (P & _) & shown' & l' & o' & S' & M').
  rewrite (U v' P) in S'. destruct (annotated_once _ _ _ _ _ _ _ S S') as (<- & _ & <-).
  destruct o as [[d0 l0]|]; [destruct M as [<- _], M' as [<- _]; reflexivity|destruct M as [<- _], M' as [<- _]; reflexivity].
Qed.

(** ** The older outputs *)
Lemma error_only : only_value (error_json_text (AError (MFrameError InvalidStartByte))) (VObject [(txt "error", VString (txt "Invalid start byte"))]).
Proof.
  set (v := VObject _). assert (P : json_text (error_json_text (AError (MFrameError InvalidStartByte))) v).
  { exists [], (error_json_text (AError (MFrameError InvalidStartByte))), []. split; [symmetry; now rewrite app_nil_r|]. split; [constructor|]. split; [constructor|].
    apply (IsObject ([] ++ quoted (txt "error") ++ [] ++ txt ":" ++ [0x20] ++ quoted (txt "Invalid start byte") ++ [])).
    apply LastMember; [constructor| |constructor|apply Forall_cons; [now left|apply Forall_nil]| |constructor].
    - vm_compute. repeat (apply CharsPlain; [lia|lia|lia|]). constructor.
    - apply IsString. vm_compute. repeat (apply CharsPlain; [lia|lia|lia|]). constructor. }
  split; [exact P|]. split; [intros v' K; exact (one_value _ _ _ K P)|]. apply DistinctObject; [apply no_dup_ok; reflexivity|].
  apply Forall_cons; [constructor; exact I|apply Forall_nil].
Qed.

Theorem segments_json_text cf display data t : bytes_ok data -> segments_text cf display data = Ok t ->
  exists v, only_value t v /\ says_segments cf display data v.
Proof.
  unfold segments_text. intros Hb H. pose proof (frame_ranges cf display data) as R. destruct (frame_told cf display data) as [l|e|p] eqn:E; try discriminate.
  - apply Ok_inj in H. subst t. eexists. split; [apply fine_only, fine_array; intros x _; apply segment_fine|].
    left. exists l. split; [exact E|]. apply list_map. intros x _. apply segment_said.
  - apply Ok_inj in H. subst t. cbn [ranges] in R. symmetry in R. destruct (annotate_errors cf data e Hb R) as [-> _].
    eexists. split; [exact error_only|]. right. split; [eauto|reflexivity].
Qed.
Theorem hexview_json_text env display data key t : bytes_ok data ->
  (forall k shown, key = Some k -> decrypted_hexview (env_config env) (env_aes env) data k = Ok (Some shown) -> bytes_ok shown) ->
  hexview_text env display data key = Ok t ->
  exists v, only_value t v /\
    (says_segments (env_config env) display data v \/
     exists k shown, key = Some k /\ decrypted_hexview (env_config env) (env_aes env) data k = Ok (Some shown) /\
       ((exists l0 l, annotate_frame (env_config env) shown = Ok l0 /\ replace_encrypted (env_config env) l0 shown = Ok (map fst l) /\
           says_bytes v shown l /\ flag_of (field v "decrypted") true) \/
        ((exists e, annotate_frame (env_config env) shown = Err e) /\ text_of (field v "error") (txt "Invalid start byte")))).
Proof.
  unfold hexview_text. intros Hb Hd H.
  assert (P : segments_text (env_config env) display data = Ok t -> exists v, only_value t v /\ says_segments (env_config env) display data v) by now apply segments_json_text.
  destruct key as [k|]; [|destruct (P H) as (v & A & B); eauto].
  apply bind_ok in H as (shown & Hs & H). destruct shown as [shown|]; [|destruct (P H) as (v & A & B); eauto]. clear P.
  pose proof (frame_ranges (env_config env) display shown) as R. destruct (frame_told (env_config env) display shown) as [l0|e|p] eqn:E; try discriminate; cbn [ranges] in R; symmetry in R.
  - apply bind_ok in H as (l & Hl & H). apply map_err_ok in Hl. apply Ok_inj in H. subst t. eexists. split; [apply fine_only, hexview_fine|].
    right. exists k, shown. split; [reflexivity|]. split; [exact Hs|]. left. exists (map fst l0), l. split; [exact R|].
    split; [rewrite <- (replace_ranges _ display), Hl; reflexivity|]. apply hexview_said.
  - apply Ok_inj in H. subst t. destruct (annotate_errors _ _ e (Hd k shown eq_refl Hs) R) as [-> _]. eexists. split; [exact error_only|]. right. exists k, shown.
    split; [reflexivity|]. split; [exact Hs|]. right. split; [eauto|reflexivity].
Qed.

(** the older outputs of the text interface *)
Theorem older_segments env rn lr input key t : serialize_mbus_data env rn lr input (txt "annotated-legacy") key = Ok t ->
  exists v, only_value t v /\ says_segments (env_config env) (lr_display lr) (clean_and_convert input) v.
Proof. intros H. exact (segments_json_text (env_config env) (lr_display lr) (clean_and_convert input) t (clean_bytes input) H). Qed.
(** without a key the older views show the ranges of the bytes received *)
Lemma older_views env rn lr input key segs : annotate_frame (env_config env) (clean_and_convert input) = Ok segs ->
  exists t v l, serialize_mbus_data env rn lr input (txt "hexview-legacy") None = Ok t /\
    serialize_mbus_data env rn lr input (txt "annotated-legacy") key = Ok t /\
    only_value t v /\ list_of says_segment (Some v) l /\ map fst l = segs.
Proof.
  intros H. destruct (told_frame _ (lr_display lr) _ _ H) as (l & E & M).
  change (serialize_mbus_data env rn lr input (txt "hexview-legacy") None) with (segments_text (env_config env) (lr_display lr) (clean_and_convert input)).
  change (serialize_mbus_data env rn lr input (txt "annotated-legacy") key) with (segments_text (env_config env) (lr_display lr) (clean_and_convert input)).
  unfold segments_text. rewrite E. do 2 eexists. exists l. split; [reflexivity|]. split; [reflexivity|].
  split; [apply fine_only, fine_array; intros x _; apply segment_fine|]. split; [|exact M]. apply list_map. intros x _. apply segment_said.
Qed.
Theorem older_view env rn lr input key t :
  (forall k shown, key = Some k -> decrypted_hexview (env_config env) (env_aes env) (clean_and_convert input) k = Ok (Some shown) -> bytes_ok shown) ->
  serialize_mbus_data env rn lr input (txt "hexview-legacy") key = Ok t ->
  exists v, only_value t v /\
    (says_segments (env_config env) (lr_display lr) (clean_and_convert input) v \/
     exists k shown, key = Some k /\ decrypted_hexview (env_config env) (env_aes env) (clean_and_convert input) k = Ok (Some shown) /\
       ((exists l0 l, annotate_frame (env_config env) shown = Ok l0 /\ replace_encrypted (env_config env) l0 shown = Ok (map fst l) /\
           says_bytes v shown l /\ flag_of (field v "decrypted") true) \/
        ((exists e, annotate_frame (env_config env) shown = Err e) /\ text_of (field v "error") (txt "Invalid start byte")))).
Proof. intros H K. exact (hexview_json_text env (lr_display lr) (clean_and_convert input) key t (clean_bytes input) H K). Qed.
