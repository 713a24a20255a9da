(** The older JSON says who the meter is and what its records are: outputs of equal JSON agree in that. *)
From Coq Require Import List NArith ZArith Lia Bool String.
Import ListNotations.
From Verif Require Import Model.Base Model.Text Model.Core Model.F64 Model.Hex Model.Wired Model.Wireless Model.DataInfo Model.ValueInfo Model.UserData
  Model.Record Model.MbusData Model.Show Model.Output Model.Render Model.Json Model.Legacy Model.LegacyJson Model.Serialize
  Spec.CoreSpec Spec.TextSpec Spec.WiredSpec Spec.WirelessSpec Spec.AppSpec Spec.AnnotateSpec Spec.MbusSpec Spec.OutputSpec Spec.DetailSpec Spec.JsonSpec Spec.LegacyJsonSpec
  Proof.BaseFacts Proof.AppFacts Proof.CoreFacts Proof.TextFacts Proof.ShowFacts Proof.RenderFacts Proof.SerializeFacts Proof.JsonFacts Proof.JsonDocs Proof.JsonViewFacts Proof.JsonBack Proof.LegacyJsonFacts.
Open Scope N_scope.
Open Scope list_scope.

Lemma number_said_once : said_once is_number.
Proof. intros v a b -> E. injection E as E. now apply dec_injective in E. Qed.
Lemma dec_Z_injective a b : dec_Z a = dec_Z b -> a = b.
Proof.
  unfold dec_Z. destruct (dec_text (Z.abs_N a)) as (Da & Na & _), (dec_text (Z.abs_N b)) as (Db & Nb & _).
  destruct (Z.ltb_spec a 0), (Z.ltb_spec b 0); intros E.
  - injection E as E. apply dec_injective in E. lia.
  - exfalso. rewrite <- E in Db. inversion Db as [|? ? K]; subst. unfold digit_char in K. lia.
  - exfalso. rewrite E in Da. inversion Da as [|? ? K]; subst. unfold digit_char in K. lia.
  - apply dec_injective in E. lia.
Qed.
Lemma signed_once : said_once is_signed.
Proof. intros v a b -> E. injection E as E. now apply dec_Z_injective. Qed.
Lemma nothing_once {A} (is : A -> json -> Prop) o x y : said_once is -> (forall a, ~ is a VNull) -> or_nothing is o x -> or_nothing is o y -> x = y.
Proof.
  intros I N Hx Hy. destruct x as [a|], y as [b|]; cbn [or_nothing] in *.
  - f_equal. exact (proj1 (inside_once _ I) _ _ _ Hx Hy).
  - destruct Hx as (v & E & Hx). rewrite Hy in E. injection E as <-. destruct (N _ Hx).
  - destruct Hy as (v & E & Hy). rewrite Hx in E. injection E as <-. destruct (N _ Hy).
  - reflexivity.
Qed.
Lemma holds_both v name p q : holds v name p -> holds v name q -> exists w, p w /\ q w.
Proof. intros (w & -> & Hp) (w' & E & Hq). injection E as <-. eauto. Qed.
Lemma holds_name v name name' p q : holds v name p -> holds v name' q -> txt name = txt name'.
Proof. intros (w & -> & Hp) (w' & E & Hq). now injection E as E. Qed.
Lemma holds_named v name name' p : holds v name p -> v = VString name' -> False.
Proof. intros (w & -> & _). discriminate. Qed.
Ltac once_cases := first
  [ reflexivity
  | match goal with H : holds ?v ?n _, K : holds ?v ?n' _ |- _ => solve [exfalso; pose proof (holds_name _ _ _ _ _ H K) as X; vm_compute in X; discriminate X] end
  | match goal with H : holds ?v ?n _, K : named ?v _ |- _ => solve [destruct (holds_named _ _ _ _ H K)] end
  | match goal with H : holds ?v ?n _, K : ?v = VString _ |- _ => solve [destruct (holds_named _ _ _ _ H K)] end
  | match goal with H : named ?v _, K : named ?v _ |- _ => solve [exfalso; rewrite H in K; vm_compute in K; discriminate K] end
  | match goal with H : ?v = VString _, K : ?v = VString _ |- _ => solve [exfalso; rewrite H in K; vm_compute in K; discriminate K] end ].
Ltac meet := match goal with H : holds ?v ?n _, K : holds ?v ?n _ |- _ => destruct (holds_both _ _ _ _ H K) as (? & ? & ?); clear H K end.

Lemma function_once : said_once says_function.
Proof.
  intros v a b H K. destruct a, b; cbn [says_function] in H, K; first [once_cases|meet; unfold flagged in *; both; reflexivity].
Qed.
Lemma address_once : said_once says_address.
Proof.
  intros v a b H K. destruct a, b; cbn [says_address] in H, K; first [once_cases|meet; unfold flagged in *; both; first [reflexivity|f_equal; eapply number_said_once; eassumption]].
Qed.
Lemma device_written d v : says_device d v -> v = device_json d.
Proof.
  assert (N : forall d name, In (d, name) device_names -> device_json d = VString (txt name)).
  { intros d' name H. apply In_nth_error in H as (k & H).
    do 43 (destruct k as [|k]; [injection H as <- <-; reflexivity|]). destruct k; discriminate H. }
  intros H. destruct d; cbn [says_device] in H; try (destruct H as (w & -> & ->); reflexivity); destruct H as (name & I & ->); rewrite (N _ _ I); reflexivity.
Qed.
Lemma device_once : said_once says_device.
Proof.
  intros v a b H K. apply device_written in H. apply device_written in K. subst v.
  assert (T : forall d, match device_json d with VString t => nth_error device_names (place_of t device_names) = option_map (fun p => (d, snd p)) (nth_error device_names (place_of t device_names)) /\
     nth_error device_names (place_of t device_names) <> None | _ => True end).
  { destruct d; first [exact I|split; [vm_compute; reflexivity|vm_compute; discriminate]]. }
  pose proof (T a) as Ta. pose proof (T b) as Tb. clear T. destruct (device_json a) as [| | |t| |] eqn:Ea; rewrite <- K in Tb.
  4: try (destruct Ta as [Ta Na]; destruct Tb as [Tb _]; destruct (nth_error device_names (place_of t device_names)) as [[x y]|]; [|contradiction];
            cbn [option_map snd] in Ta, Tb; congruence).
  all: destruct a; cbn [device_json] in Ea; try discriminate Ea; destruct b; cbn [device_json] in K; try discriminate K; try (subst; discriminate K).
  all: rewrite <- Ea in K; unfold tagged, always in K; apply (f_equal (fun v => match v with VObject [(k, VNumber n)] => (k, n) | _ => ([], []) end)) in K;
    cbv beta iota in K; apply pair_equal_spec in K as [K1 K2]; try (vm_compute in K1; discriminate K1); f_equal; now apply dec_injective.
Qed.
Lemma code_once : said_once says_code.
Proof. intros v [a b c] [a' b' c'] H K. unfold says_code in *. rewrite H in K. injection K as -> -> ->. reflexivity. Qed.
Lemma numbered_once name : said_once (fun n w => number_of (field w name) n).
Proof. intros v a b H K. exact (proj1 number_once _ _ _ H K). Qed.
Ltac inner I := match goal with H : inside (_ ?a) ?o, K : inside (_ ?b) ?o |- _ => pose proof (proj1 (inside_once _ I) _ _ _ H K); clear H K end.
Lemma meter_id_once : said_once says_meter_id.
Proof.
  intros v [n c vr d g] [n' c' vr' d' g'] (H1 & H2 & H3 & H4 & H5) (K1 & K2 & K3 & K4 & K5).
  cbn [mi_manufacturer_code mi_identification_number mi_device_type mi_version mi_is_unique_globally] in *.
  pose proof (proj1 (inside_once _ code_once) _ _ _ H1 K1). pose proof (proj1 (inside_once _ (numbered_once "number")) _ _ _ H2 K2).
  pose proof (proj1 (inside_once _ device_once) _ _ _ H3 K3). clear H1 H2 H3 K1 K2 K3. both. reflexivity.
Qed.
Lemma function_null f : ~ says_function f VNull.
Proof. destruct f; cbn [says_function]; unfold named, holds; first [discriminate|intros (w & E & _); discriminate]. Qed.
Lemma link_once w f a f' a' : says_link f a w -> says_link f' a' w -> f = f' /\ a = a'.
Proof. intros (H1 & H2) (K1 & K2). split; [exact (proj1 (inside_once _ function_once) _ _ _ H1 K1)|exact (proj1 (inside_once _ address_once) _ _ _ H2 K2)]. Qed.
Lemma air_not_wired v name p w : holds v name p -> txt name <> txt "control_field" -> says_any_frame (inr w) v -> False.
Proof.
  intros (x & -> & _) N (H & _). unfold number_of, field in H. cbn [find fields_of] in H.
  destruct (text_eqb (txt name) (txt "control_field")) eqn:E; [|discriminate H].
  apply text_eqb_ok in E. now apply N.
Qed.
Lemma frame_shown_once v f f' : says_any_frame f v -> says_any_frame f' v -> frame_shown f f'.
Proof.
  intros H K.
  assert (W : forall w w', says_any_frame (inl w) v -> says_any_frame (inr w') v -> False).
  { intros w w' A B. destruct w; cbn [says_any_frame] in A; refine (air_not_wired _ _ _ _ A _ B); intros E; vm_compute in E; discriminate E. }
  destruct f as [w|w], f' as [w'|w'].
  - unfold frame_shown. destruct w, w'; cbn [says_any_frame frame_head] in *; try once_cases; destruct (holds_both _ _ _ _ H K) as (x & A & B).
    + f_equal. f_equal. exact (proj1 number_once _ _ _ A B).
    + destruct (link_once _ _ _ _ _ A B) as [-> ->]. reflexivity.
    + destruct (link_once _ _ _ _ _ A B) as [-> ->]. reflexivity.
    + destruct (link_once _ _ _ _ _ A B) as [-> ->]. reflexivity.
  - destruct (W _ _ H K).
  - destruct (W _ _ K H).
  - cbn [frame_shown]. destruct H as (H1 & H2 & H3 & H4), K as (K1 & K2 & K3 & K4).
    split; [exact (proj1 number_once _ _ _ H1 K1)|]. split; [exact (nothing_once _ _ _ _ function_once function_null H2 K2)|].
    split; [exact (proj1 (inside_once _ meter_id_once) _ _ _ H3 K3)|exact (proj1 text_once _ _ _ H4 K4)].
Qed.

(** ** The user data *)
Lemma words_fixed bits l ws : flag_words bits l ws -> ws = flat_map (fun '(i, word) => if N.testbit bits i then [txt word] else []) l.
Proof. induction 1 as [|i name rest ws E _ ->|i name rest ws E _ ->]; cbn [flat_map]; rewrite ?E; reflexivity. Qed.
Lemma strung_fixed sep l t : strung sep l t -> t = join sep l.
Proof. induction 1 as [|t|t u l r _ ->]; reflexivity. Qed.
Lemma flags_fixed bits o : says_flags bits o -> o = Some (VString (status_flags bits)).
Proof. intros (ws & t & W & S & ->). apply words_fixed in W. apply strung_fixed in S. subst. reflexivity. Qed.
Definition flag_texts : list (N * text) := map (fun b => (b, status_flags b)) (below 256).
Definition flags_back (t : text) : option N := option_map fst (find (fun p => text_eqb (snd p) t) flag_texts).
Lemma flags_read : forallb (fun b => match flags_back (status_flags b) with Some x => x =? b | None => false end) (below 256) = true.
Proof. vm_compute. reflexivity. Qed.
Lemma flags_once a b o : a < 256 -> b < 256 -> says_flags a o -> says_flags b o -> a = b.
Proof.
  intros Ha Hb H K. apply flags_fixed in H. apply flags_fixed in K. rewrite H in K. injection K as E.
  pose proof (sweep256 _ flags_read a Ha) as A. pose proof (sweep256 _ flags_read b Hb) as B. cbn beta in A, B. rewrite E in A.
  destruct (flags_back (status_flags b)); [|discriminate B]. apply N.eqb_eq in A, B. congruence.
Qed.
Definition small_status (u : user_data_block) : Prop :=
  match u with
  | FixedDataStructure _ _ st _ _ _ => st < 256
  | VariableLong _ h _ => sh_status (lh_short_tpl_header h) < 256
  | VariableShort _ h _ => sh_status h < 256
  | _ => True
  end.
Lemma short_once v h h' : sh_status h < 256 -> sh_status h' < 256 -> says_short_header h v -> says_short_header h' v -> h = h'.
Proof.
  intros L L' (H1 & H2 & H3) (K1 & K2 & K3). destruct h as [a s c], h' as [a' s' c']. cbn [sh_access_number sh_status sh_configuration_field] in *.
  rewrite (flags_once _ _ _ L L' H2 K2). rewrite (proj1 number_once _ _ _ H1 K1).
  rewrite (proj1 (inside_once _ (numbered_once "raw")) _ _ _ H3 K3). reflexivity.
Qed.
Lemma maker_once : said_once says_maker.
Proof.
  intros v a b H K. destruct a as [c|[]|], b as [c'|[]|]; cbn [says_maker] in H, K; try contradiction; try once_cases; meet.
  - f_equal. eapply code_once; eassumption.
  - meet. do 2 f_equal. eapply (numbered_once "code"); eassumption.
Qed.
Lemma inside2 {A} (is : A -> json -> Prop) o a b : inside (is a) o -> inside (is b) o -> exists w, is a w /\ is b w.
Proof. intros (w & -> & H) (w' & E & K). injection E as <-. eauto. Qed.
Lemma long_once v h h' : sh_status (lh_short_tpl_header h) < 256 -> sh_status (lh_short_tpl_header h') < 256 ->
  says_long_header h v -> says_long_header h' v -> h = h'.
Proof.
  intros L L' (H1 & H2 & H3 & H4 & H5 & H6) (K1 & K2 & K3 & K4 & K5 & K6).
  destruct h as [i m vr d s l], h' as [i' m' vr' d' s' l'].
  cbn [lh_identification_number lh_manufacturer lh_version lh_device_type lh_short_tpl_header lh_lsb_order] in *.
  pose proof (proj1 (inside_once _ (numbered_once "number")) _ _ _ H1 K1). pose proof (proj1 (inside_once _ maker_once) _ _ _ H2 K2).
  pose proof (proj1 (inside_once _ device_once) _ _ _ H4 K4).
  destruct (inside2 _ _ _ _ H5 K5) as (w & A & B). pose proof (short_once _ _ _ L L' A B). clear H1 H2 H4 H5 K1 K2 K4 K5 A B L L'. both. reflexivity.
Qed.
Lemma receiver_once : said_once says_receiver.
Proof.
  intros v [m a] [m' a'] (H1 & H2) (K1 & K2). cbn [ra_manufacturer ra_address] in *.
  rewrite (proj1 number_once _ _ _ H1 K1), (list_once _ _ _ _ number_said_once H2 K2). reflexivity.
Qed.
Lemma encryption_once : said_once says_encryption.
Proof.
  intros v [m a] [m' a'] (H1 & H2) (K1 & K2). cbn [ef_session_number ef_payload_crc] in *.
  rewrite (proj1 number_once _ _ _ H2 K2), (list_once _ _ _ _ number_said_once H1 K1). reflexivity.
Qed.
Lemma extended_once : said_once says_extended.
Proof.
  intros v [c a r e] [c' a' r' e'] (H1 & H2 & H3 & H4) (K1 & K2 & K3 & K4).
  cbn [ell_communication_control ell_access_number ell_receiver_address ell_encryption] in *.
  rewrite (proj1 number_once _ _ _ H1 K1), (proj1 number_once _ _ _ H2 K2).
  rewrite (nothing_once _ _ _ _ receiver_once (fun a (H : says_receiver a VNull) => ltac:(destruct H as (X & _); discriminate X)) H3 K3).
  rewrite (nothing_once _ _ _ _ encryption_once (fun a (H : says_encryption a VNull) => ltac:(destruct H as (_ & X); discriminate X)) H4 K4). reflexivity.
Qed.
Lemma extended_null e : ~ says_extended e VNull.
Proof. intros (X & _). discriminate X. Qed.
Lemma user_data_once v u u' : small_status u -> small_status u' -> says_user_data u v -> says_user_data u' v -> user_data_head u = user_data_head u'.
Proof.
  intros L L' H K. destruct u, u'; cbn [says_user_data user_data_head small_status] in *; try once_cases; destruct (holds_both _ _ _ _ H K) as (w & A & B).
  - destruct A as (b & code & E & -> & x & Ex & n & En & P), B as (b' & code' & E' & -> & x' & Ex' & n' & En' & P'). rewrite Ex in Ex'. injection Ex' as <-.
    destruct P as (y & -> & Hy), P' as (y' & Ey & Hy'). injection Ey as _ <-. pose proof (number_said_once _ _ _ Hy Hy'). subst b'. rewrite E in E'. injection E' as <-. reflexivity.
  - destruct A as (A1 & A2 & A3 & A4 & A5 & A6), B as (B1 & B2 & B3 & B4 & B5 & B6). pose proof (flags_once _ _ _ L L' A3 B3).
    pose proof (proj1 (inside_once _ (numbered_once "number")) _ _ _ A1 B1). pose proof (proj1 (inside_once _ (numbered_once "count")) _ _ _ A5 B5).
    pose proof (proj1 (inside_once _ (numbered_once "count")) _ _ _ A6 B6). clear A1 B1 A3 B3 A5 B5 A6 B6. both. reflexivity.
  - destruct A as (A1 & A2), B as (B1 & B2). rewrite (nothing_once _ _ _ _ extended_once extended_null A1 B1).
    destruct (inside2 _ _ _ _ A2 B2) as (y & C & D). rewrite (long_once _ _ _ L L' C D). reflexivity.
  - destruct A as (A1 & A2), B as (B1 & B2). rewrite (nothing_once _ _ _ _ extended_once extended_null A1 B1).
    destruct (inside2 _ _ _ _ A2 B2) as (y & C & D). rewrite (short_once _ _ _ L L' C D). reflexivity.
  - rewrite (nothing_once _ _ _ _ extended_once extended_null A B). reflexivity.
Qed.
Lemma meaning_small payload u : app_meaning payload u -> bytes_ok payload -> small_status u.
Proof.
  intros A. induction A; intros B; cbn [small_status]; try exact I.
  - destruct H0 as (_ & _ & _ & _ & -> & _). cbn [short_header sh_status]. bytes_split B. assumption.
  - bytes_split B. assumption.
  - cbn [short_header sh_status]. bytes_split B. assumption.
  - cbn [short_header sh_status]. bytes_split B. assumption.
  - apply bytes_ok_app in B as [_ B]. specialize (IHA B). destruct H; exact IHA.
  - cbn [short_header sh_status]. bytes_split B. assumption.
  - cbn [short_header sh_status]. bytes_split B. assumption.
Qed.

(** ** The summary *)
Lemma float_once number v x y : apart number -> is_float number x v -> is_float number y v -> x = y \/ (~ finite x /\ ~ finite y).
Proof.
  intros Ha [[Fx ->]|[Nx ->]] [[Fy E]|[Ny E]]; try discriminate E; [left|right; auto]. injection E as E. now apply Ha.
Qed.
Lemma maker_summary_once : said_once says_maker_summary.
Proof.
  intros v [c i] [c' i'] (H1 & H2) (K1 & K2). cbn [ms_code ms_info] in *. rewrite (proj1 text_once _ _ _ H1 K1). f_equal.
  destruct i as [[[a b] d]|], i' as [[[a' b'] d']|].
  - both. reflexivity.
  - destruct H2 as (X & _), K2 as (Y & _). unfold text_of in X. congruence.
  - destruct H2 as (X & _), K2 as (Y & _). unfold text_of in Y. congruence.
  - reflexivity.
Qed.
Lemma record_alike number v r r' : apart number -> says_record_summary number r v -> says_record_summary number r' v -> alike r r'.
Proof.
  intros Ha (H1 & H2 & H3 & H4 & H5 & H6 & H7 & H8) (K1 & K2 & K3 & K4 & K5 & K6 & K7 & K8).
  split; [exact (proj1 text_once _ _ _ H1 K1)|]. split.
  - destruct (rs_value r) as [x|], (rs_value r') as [x'|]; cbn [if_there] in H2, K2.
    + destruct (inside2 (is_float number) _ _ _ H2 K2) as (w & A & B). destruct (float_once _ _ _ _ Ha A B) as [->|[]]; [left; reflexivity|right; eauto 10].
    + destruct H2 as (w & E & _). congruence.
    + destruct K2 as (w & E & _). congruence.
    + left. reflexivity.
  - split; [exact (there_once _ _ _ _ (inside_once _ signed_once) H3 K3)|]. split; [exact (there_once _ _ _ _ text_once H4 K4)|]. split; [exact (there_once _ _ _ _ text_once H5 K5)|].
    split; [exact (proj1 text_once _ _ _ H6 K6)|]. split; [exact (proj1 text_once _ _ _ H7 K7)|exact (proj1 text_once _ _ _ H8 K8)].
Qed.
Lemma lists_both {A B} (is : A -> json -> Prop) (is' : A -> json -> Prop) (R : A -> A -> Prop) o (l k : list A) (_ : B) :
  (forall v a b, is a v -> is' b v -> R a b) -> list_of is o l -> list_of is' o k -> Forall2 R l k.
Proof.
  intros H (vs & -> & Hl) (ws & E & Hk). injection E as <-. revert k Hk. induction Hl as [|a v l vs Ha _ IH]; intros k Hk; inversion Hk; subst; constructor; eauto.
Qed.
Lemma summary_alike number v s s' : apart number -> says_summary number s v -> says_summary number s' v -> alike_summaries s s'.
Proof.
  intros Ha (H1 & H2 & H3 & H4 & H5 & H6 & H7 & H8 & H9 & H10 & H11 & H12 & H13 & H14) (K1 & K2 & K3 & K4 & K5 & K6 & K7 & K8 & K9 & K10 & K11 & K12 & K13 & K14).
  repeat match goal with |- _ /\ _ => split | |- alike_summaries _ _ => unfold alike_summaries end;
    try first [exact (proj1 text_once _ _ _ H1 K1)|eapply there_once; [exact text_once|eassumption|eassumption]|eapply there_once; [exact number_once|eassumption|eassumption]].
  - exact (there_once _ _ _ _ (inside_once _ maker_summary_once) H5 K5).
  - exact (proj1 flag_once _ _ _ H11 K11).
  - exact (proj1 flag_once _ _ _ H12 K12).
  - refine (lists_both _ _ alike _ _ _ tt _ H14 K14). intros w r r'. apply record_alike. exact Ha.
Qed.

(** ** All of it *)
Lemma records_shown_once number v l l' :
  or_nothing (fun rs w => list_of (says_data_record number) (Some w) rs) v l -> or_nothing (fun rs w => list_of (says_data_record number) (Some w) rs) v l' ->
  option_map (map (fun r => hex_string (dr_raw_bytes r))) l = option_map (map (fun r => hex_string (dr_raw_bytes r))) l'.
Proof.
  intros H K. destruct l as [l|], l' as [l'|]; cbn [or_nothing option_map] in *.
  - destruct (inside2 (fun rs w => list_of (says_data_record number) (Some w) rs) _ _ _ H K) as (w & A & B). f_equal.
    assert (F : Forall2 (fun r r' => hex_string (dr_raw_bytes r) = hex_string (dr_raw_bytes r')) l l').
    { refine (lists_both _ _ _ _ _ _ tt _ A B). intros x r r' (X & _) (Y & _). exact (proj1 text_once _ _ _ X Y). }
    clear -F. induction F as [|r r' l l' E _ IH]; [reflexivity|]. cbn [map]. now rewrite E, IH.
  - destruct H as (w & E & vs & Ev & _). rewrite K in E. congruence.
  - destruct K as (w & E & vs & Ev & _). rewrite H in E. congruence.
  - reflexivity.
Qed.
Lemma older_lossless env rn lr input input' key key' t o o' : apart (lr_number lr) -> numerals (lr_number lr) ->
  serialize_mbus_data env rn lr input (txt "json-legacy") key = Ok t -> serialize_mbus_data env rn lr input' (txt "json-legacy") key' = Ok t ->
  parse_frame_output env (lr_display lr) input key = Ok (Some o) -> parse_frame_output env (lr_display lr) input' key' = Ok (Some o') ->
  frame_shown (po_frame o) (po_frame o') /\ option_map user_data_head (po_user_data o) = option_map user_data_head (po_user_data o') /\
  option_map (map (fun r => hex_string (dr_raw_bytes r))) (po_records o) = option_map (map (fun r => hex_string (dr_raw_bytes r))) (po_records o') /\
  alike_summaries (po_summary o) (po_summary o').
Proof.
  intros Ha Hn T T' P P'.
  destruct (older_json_text _ _ _ _ _ _ Hn T) as [(E & _)|(o1 & v & E & V & S)]; [congruence|]. rewrite P in E. apply Ok_inj in E. injection E as <-.
  destruct (older_json_text _ _ _ _ _ _ Hn T') as [(E & _)|(o1 & v' & E & V' & S')]; [congruence|]. rewrite P' in E. apply Ok_inj in E. injection E as <-.
  assert (v' = v) by (apply (proj2 V), (proj1 V')). subst v'.
  destruct S as (S1 & S2 & S3 & S4), S' as (R1 & R2 & R3 & R4).
  split; [destruct (inside2 says_any_frame _ _ _ S1 R1) as (w & A & B); exact (frame_shown_once _ _ _ A B)|]. split.
  { destruct (output_payload _ _ _ _ _ (clean_bytes input) P) as (p & Bp & Ap), (output_payload _ _ _ _ _ (clean_bytes input') P') as (p' & Bp' & Ap').
    assert (Sm : forall u, po_user_data o = Some u -> small_status u).
    { intros u Eu. rewrite Eu in Ap. destruct p as [p|]; [|discriminate Ap]. exact (meaning_small _ _ Ap (Bp _ eq_refl)). }
    assert (Sm' : forall u, po_user_data o' = Some u -> small_status u).
    { intros u Eu. rewrite Eu in Ap'. destruct p' as [p'|]; [|discriminate Ap']. exact (meaning_small _ _ Ap' (Bp' _ eq_refl)). }
    clear Ap Ap'. destruct (po_user_data o) as [u|], (po_user_data o') as [u'|]; cbn [or_nothing option_map] in *.
    - destruct (inside2 says_user_data _ _ _ S2 R2) as (w & A & B). f_equal. exact (user_data_once _ _ _ (Sm _ eq_refl) (Sm' _ eq_refl) A B).
    - destruct S2 as (w & E & A). rewrite R2 in E. injection E as <-. destruct u; destruct A as (w & E & _); discriminate E.
    - destruct R2 as (w & E & A). rewrite S2 in E. injection E as <-. destruct u'; destruct A as (w & E & _); discriminate E.
    - reflexivity. }
  split; [exact (records_shown_once _ _ _ _ S3 R3)|].
  destruct (inside2 (says_summary (lr_number lr)) _ _ _ S4 R4) as (w & A & B). exact (summary_alike _ _ _ _ Ha A B).
Qed.
