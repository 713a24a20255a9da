(** What the older JSON output says. *)
From Coq Require Import List NArith ZArith Lia Bool String.
Import ListNotations.
From Verif Require Import Model.Base Model.Text Model.Core Model.F64 Model.Hex Model.Wired Model.Wireless Model.DataInfo Model.ValueInfo Model.UserData
  Model.Record Model.MbusData Model.Show Model.Output Model.Render Model.Json Model.Legacy Model.LegacyJson Model.Serialize
  Spec.CoreSpec Spec.TextSpec Spec.WiredSpec Spec.WirelessSpec Spec.AppSpec Spec.AnnotateSpec Spec.MbusSpec Spec.OutputSpec Spec.DetailSpec Spec.JsonSpec Spec.LegacyJsonSpec
  Proof.BaseFacts Proof.CoreFacts Proof.TextFacts Proof.ShowFacts Proof.WiredFacts Proof.WirelessFacts Proof.AppFacts Proof.MbusFacts Proof.FormatAFacts Proof.OutputFacts Proof.OutputFrames
  Proof.Utf8Facts Proof.RenderFacts Proof.SerializeFacts Proof.LegacyRecords Proof.JsonFacts Proof.JsonDocs Proof.JsonViewFacts.
Open Scope N_scope.
Open Scope list_scope.

(** ** A JSON value *)
Lemma fine_signed z : fine (VSigned z).
Proof.
  apply fine_number. destruct (dec_numeral (Z.abs_N z)) as (sign & w & f & e & E & S & W & F & X). unfold dec_Z. destruct (z <? 0)%Z.
  - destruct (dec_text (Z.abs_N z)) as (D & Ne & _). exists [45], w, f, e.
    destruct S as [->| ->].
    + cbn [app] in E. rewrite E. repeat split; auto.
    + exfalso. rewrite E in D. cbn [app] in D. inversion D as [|? ? K]; subst. unfold digit_char in K. lia.
  - exists sign, w, f, e. auto.
Qed.
Lemma fine_float number x : numerals number -> fine (float_json number x).
Proof. intros H. destruct x; cbn [float_json]; first [apply fine_null|apply fine_number, H; exact I]. Qed.
Lemma fine_tagged name v : fine v -> fine (tagged name v).
Proof. intros H. apply fine_object; [reflexivity|]. now apply fine_always. Qed.
Lemma fine_or {A} (f : A -> json) o : (forall a, fine (f a)) -> fine (or_null f o).
Proof. intros H. destruct o; [apply H|apply fine_null]. Qed.
Lemma fine_list l : Forall fine l -> fine (VArray l).
Proof. intros H. rewrite <- (map_id l). apply fine_array. rewrite Forall_forall in H. exact H. Qed.
Ltac fine_obj := apply fine_object; [first [vm_compute; reflexivity|names]|members_fine].

Lemma function_fine f : fine (function_json f).
Proof. destruct f; cbn [function_json]; first [apply fine_string|apply fine_tagged; fine_obj]. Qed.
Lemma address_fine a : fine (address_json a).
Proof. destruct a; cbn [address_json]; first [apply fine_string|apply fine_tagged; first [apply fine_int|fine_obj]]. Qed.
Lemma wired_fine w : fine (wired_json w).
Proof. destruct w; cbn [wired_json]; apply fine_tagged; fine_obj; auto using function_fine, address_fine. Qed.
Lemma code_fine c : fine (code_json c).
Proof. fine_obj. apply fine_array. intros t _. apply fine_string. Qed.
Lemma number_fine n : fine (number_json n).
Proof. fine_obj. Qed.
Lemma device_fine d : fine (device_json d).
Proof. destruct d; cbn [device_json]; first [apply fine_string|apply fine_tagged, fine_int]. Qed.
Lemma manufacturer_id_fine m : fine (manufacturer_id_json m).
Proof. fine_obj; auto using device_fine, number_fine, code_fine. Qed.
Lemma wireless_fine w : fine (wireless_json w).
Proof. fine_obj; auto using manufacturer_id_fine. apply fine_or, function_fine. Qed.
Lemma any_frame_fine f : fine (any_frame_json f).
Proof. destruct f; [apply wired_fine|apply wireless_fine]. Qed.
Lemma short_header_fine h : fine (short_header_json h).
Proof. fine_obj. fine_obj. Qed.
Lemma application_error_fine e : fine (application_error_json e).
Proof.
  destruct e; cbn [application_error_json]; first [apply fine_string|apply fine_tagged; fine_obj]. apply fine_array. intros b _. apply fine_int.
Qed.
Lemma long_header_fine h : fine (long_header_json h).
Proof.
  fine_obj; auto using device_fine, number_fine, short_header_fine.
  destruct (lh_manufacturer h); [apply fine_tagged, code_fine|apply fine_tagged, application_error_fine|apply fine_null].
Qed.
Lemma extended_fine e : fine (extended_json e).
Proof.
  fine_obj; apply fine_or; intros x; fine_obj; apply fine_array; intros b _; apply fine_int.
Qed.
Lemma subcode_fine s : fine (subcode_json s).
Proof. destruct s; cbn [subcode_json]; apply fine_tagged, fine_int. Qed.
Lemma user_data_fine u : fine (user_data_json u).
Proof.
  destruct u; cbn [user_data_json]; apply fine_tagged; fine_obj;
    auto using subcode_fine, number_fine, long_header_fine, short_header_fine; try (apply fine_or, extended_fine); fine_obj.
Qed.
Lemma dib_fine d : fine (dib_json d).
Proof. fine_obj; [fine_obj|]. apply fine_or. intros l. apply fine_array. intros b _. apply fine_int. Qed.
Lemma vib_fine v : fine (vib_json v).
Proof.
  fine_obj; [|fine_obj|]; apply fine_or; intros l; apply fine_array; intros b _; [apply fine_string|fine_obj].
Qed.
Lemma coding_fine c : fine (coding_json c).
Proof. destruct c; cbn [coding_json]; first [apply fine_string|apply fine_tagged, fine_string]. Qed.
Lemma data_information_fine d : fine (data_information_json d).
Proof.
  fine_obj; auto using coding_fine. destruct (di_extension d); [|apply fine_null]. split; constructor; constructor.
Qed.
Lemma value_information_fine v : fine (value_information_json v).
Proof.
  fine_obj; try apply fine_signed; apply fine_array; intros x _; [apply fine_string|]. fine_obj. apply fine_signed.
Qed.
Lemma single_fine {A} (f : A -> json) x : (forall a, fine (f a)) -> fine (single_json f x).
Proof.
  intros H. destruct x; cbn [single_json]; apply fine_tagged; [apply H|..]; apply fine_list; constructor.
Qed.
Lemma data_type_fine number d : numerals number -> fine (data_type_json number d).
Proof.
  intros H. destruct d; cbn [data_type_json]; apply fine_tagged; try apply fine_string; try (now apply fine_float);
    apply fine_list; repeat apply Forall_cons; try apply Forall_nil; apply single_fine; intros a; first [apply fine_int|apply fine_string].
Qed.
Lemma record_header_fine h : fine (record_header_json h).
Proof.
  fine_obj; fine_obj; try apply fine_or; auto using dib_fine, vib_fine, data_information_fine, value_information_fine.
Qed.
Lemma data_record_fine number r : numerals number -> fine (data_record_json number r).
Proof.
  intros H. fine_obj; [|apply record_header_fine]. fine_obj. apply fine_or. intros d. now apply data_type_fine.
Qed.
Lemma manufacturer_summary_fine m : fine (manufacturer_summary_json m).
Proof.
  unfold manufacturer_summary_json. destruct (ms_info m) as [[[a b] c]|].
  - apply fine_object; [vm_compute; reflexivity|]. members_fine.
  - apply fine_object; [vm_compute; reflexivity|]. rewrite app_nil_r. members_fine.
Qed.
Lemma record_summary_fine number r : numerals number -> fine (record_summary_json number r).
Proof.
  intros H. apply fine_object; [names|members_fine]; [apply fine_signed|now apply fine_float].
Qed.
Lemma summary_fine number s : numerals number -> fine (summary_json number s).
Proof.
  intros H. apply fine_object; [names|members_fine]; auto using manufacturer_summary_fine. apply fine_array. intros r _. now apply record_summary_fine.
Qed.
Lemma older_fine number o : numerals number -> fine (older_json number o).
Proof.
  intros H. apply fine_object; [vm_compute; reflexivity|members_fine]; auto using any_frame_fine.
  - apply fine_or. intros l. apply fine_array. intros r _. now apply data_record_fine.
  - now apply summary_fine.
  - apply fine_or, user_data_fine.
Qed.

(** ** What it says *)
Lemma or_said {A} (is : A -> json -> Prop) f o : (forall a, is a (f a)) -> or_nothing is (Some (or_null f o)) o.
Proof. intros H. destruct o; [eexists; split; [reflexivity|apply H]|reflexivity]. Qed.
Lemma in_said {A} (is : A -> json -> Prop) (f : A -> json) a : is a (f a) -> inside (is a) (Some (f a)).
Proof. intros H. eexists. split; [reflexivity|exact H]. Qed.
Lemma inside_some (is : json -> Prop) v : is v -> inside is (Some v).
Proof. intros H. eexists. split; [reflexivity|exact H]. Qed.
Lemma holds_tagged (inner : json -> Prop) name v : inner v -> holds (tagged name v) name inner.
Proof. intros H. eexists. split; [reflexivity|exact H]. Qed.
Lemma float_said number x : is_float number x (float_json number x).
Proof. destruct x; cbn [float_json]; first [left; split; [exact I|reflexivity]|right; split; [intros []|reflexivity]]. Qed.
Lemma function_said f : says_function f (function_json f).
Proof. destruct f; cbn [says_function function_json]; first [reflexivity|apply holds_tagged; first [reflexivity|split; reflexivity]]. Qed.
Lemma address_said a : says_address a (address_json a).
Proof. destruct a; cbn [says_address address_json]; first [reflexivity|apply holds_tagged; reflexivity]. Qed.
Fixpoint place_of {A} (t : text) (l : list (A * string)) : nat :=
  match l with [] => O | (_, name) :: l' => if text_eqb (txt name) t then O else S (place_of t l') end.
Lemma device_listed d : (forall c, d <> DevReservedSensor c /\ d <> DevReservedSwitch c /\ d <> DevReservedCustomer c /\ d <> DevReservedEnvironmental c /\ d <> DevReservedSystem c /\ d <> DevReserved c) ->
  exists name, In (d, name) device_names /\ named (VString (debug_device_type d)) name.
Proof.
  intros H. destruct d; try (exfalso; destruct (H code) as (? & ? & ? & ? & ? & ?); congruence);
    (eexists; split; [|reflexivity]);
    match goal with |- In (?d, _) _ => let k := eval vm_compute in (place_of (debug_device_type d) device_names) in apply (nth_error_In device_names k); reflexivity end.
Qed.
Lemma device_said d : says_device d (device_json d).
Proof. destruct d; cbn [says_device device_json]; first [apply holds_tagged; reflexivity|apply device_listed; intros c; repeat split; discriminate]. Qed.
Lemma code_said c : says_code c (code_json c).
Proof. reflexivity. Qed.
Lemma link_said f a : says_link f a (VObject (always "address" (address_json a) ++ always "function" (function_json f))).
Proof. split; apply inside_some; [apply function_said|apply address_said]. Qed.
Lemma any_frame_said f : says_any_frame f (any_frame_json f).
Proof.
  destruct f as [[]|w]; cbn [says_any_frame any_frame_json wired_json]; try (apply holds_tagged; first [reflexivity|apply link_said]).
  split; [reflexivity|]. split; [apply (or_said says_function), function_said|]. split; [|reflexivity]. apply inside_some.
  split; [apply inside_some, code_said|]. split; [apply inside_some; reflexivity|]. split; [apply inside_some, device_said|]. split; reflexivity.
Qed.
Lemma join_strung sep l : strung sep l (join sep l).
Proof.
  induction l as [|t l IH]; [constructor|]. destruct l as [|u l]; [constructor|]. change (join sep (t :: u :: l)) with (t ++ sep ++ join sep (u :: l)). now constructor.
Qed.
Lemma words_said bits l : flag_words bits l (flat_map (fun '(i, word) => if N.testbit bits i then [txt word] else []) l).
Proof.
  induction l as [|[i w] l IH]; cbn [flat_map]; [constructor|]. destruct (N.testbit bits i) eqn:E; cbn [app]; now constructor.
Qed.
Lemma flags_said bits : says_flags bits (Some (VString (status_flags bits))).
Proof. do 2 eexists. split; [apply words_said|]. split; [apply join_strung|reflexivity]. Qed.
Lemma short_header_said h : says_short_header h (short_header_json h).
Proof. split; [reflexivity|]. split; [apply flags_said|]. apply inside_some. reflexivity. Qed.
Lemma extended_said e : says_extended e (extended_json e).
Proof.
  split; [reflexivity|]. split; [reflexivity|]. split.
  - apply (or_said says_receiver). intros r. split; [reflexivity|]. apply list_map. reflexivity.
  - apply (or_said says_encryption). intros r. split; [|reflexivity]. apply list_map. reflexivity.
Qed.
Definition maker_known (m : outcome application_layer_error manufacturer_code) : Prop :=
  match m with Ok _ | Err (InvalidManufacturerCode _) => True | _ => False end.
Lemma long_header_said h : maker_known (lh_manufacturer h) -> says_long_header h (long_header_json h).
Proof.
  intros H. split; [apply inside_some; reflexivity|]. split.
  { apply inside_some. destruct (lh_manufacturer h) as [c|[]|]; cbn in H |- *; try contradiction; apply holds_tagged; [apply code_said|].
    apply holds_tagged. reflexivity. }
  split; [reflexivity|]. split; [apply inside_some, device_said|]. split; [apply inside_some, short_header_said|reflexivity].
Qed.
Definition block_known (u : user_data_block) : Prop :=
  match u with
  | ResetAtApplicationLevel s => exists b code, nth_error reset_codes (N.to_nat (b mod 16)) = Some code /\ s = code b
  | VariableLong _ h _ => maker_known (lh_manufacturer h)
  | _ => True
  end.
Lemma meaning_known payload u : app_meaning payload u -> block_known u.
Proof.
  intros [].
  - cbn. eauto.
  - destruct H0 as (_ & M & _). cbn. destruct M as [(? & ? & ? & _ & _ & _ & _ & ->)|(_ & ->)]; exact I.
  - exact I.
  - exact I.
  - exact I.
  - exact I.
  - destruct H0; exact I.
  - exact I.
  - exact I.
Qed.
Lemma subcode_said b code : nth_error reset_codes (N.to_nat (b mod 16)) = Some code -> says_subcode b (subcode_json (code b)).
Proof.
  intros H. assert (L : b mod 16 < 16) by (apply N.mod_lt; lia).
  assert (K : forall k, k < 16 -> N.to_nat k = N.to_nat (b mod 16) -> exists name, nth_error subcode_names (N.to_nat k) = Some name /\
     holds (subcode_json (code b)) name (is_number b)).
  { intros k Hk E. rewrite <- E in H. clear E. revert H. 
    assert (C : k = 0 \/ k = 1 \/ k = 2 \/ k = 3 \/ k = 4 \/ k = 5 \/ k = 6 \/ k = 7 \/ k = 8 \/ k = 9 \/ k = 10 \/ k = 11 \/ k = 12 \/ k = 13 \/ k = 14 \/ k = 15) by lia.
    decompose [or] C; subst k; intros H; cbn in H; injection H as <-; eexists; (split; [reflexivity|apply holds_tagged; reflexivity]). }
  exact (K (b mod 16) L eq_refl).
Qed.
Lemma user_data_said u : block_known u -> says_user_data u (user_data_json u).
Proof.
  intros H. destruct u; cbn [says_user_data user_data_json]; apply holds_tagged.
  - destruct H as (b & code & E & ->). exists b, code. split; [exact E|]. split; [reflexivity|]. apply inside_some. now apply subcode_said.
  - split; [apply inside_some; reflexivity|]. split; [reflexivity|]. split; [apply flags_said|]. split; [reflexivity|].
    split; apply inside_some; reflexivity.
  - split; [apply (or_said says_extended), extended_said|]. apply inside_some. now apply long_header_said.
  - split; [apply (or_said says_extended), extended_said|]. apply inside_some, short_header_said.
  - apply (or_said says_extended), extended_said.
Qed.
Lemma raw_header_said h : says_raw_header h (raw_header_json h).
Proof.
  split.
  - apply inside_some. split; [apply inside_some; reflexivity|]. apply (or_said numbers_in). intros l. apply list_map. reflexivity.
  - change (field (raw_header_json h) "value_information_block") with (Some (or_null vib_json (rh_vib h))). apply or_said. intros b.
    split; [apply inside_some; reflexivity|]. split.
    + change (field (vib_json b) "value_information_extension")
        with (Some (or_null (fun l => VArray (map (fun b => VObject (always "data" (VInt b))) l)) (vib_vifes b))). apply or_said.
      intros l. apply list_map. reflexivity.
    + change (field (vib_json b) "plaintext_vife") with (Some (or_null (fun l => VArray (map (fun c => VString [c]) l)) (vib_plaintext b))). apply or_said.
      intros l. apply list_map. reflexivity.
Qed.
Lemma coding_said c : says_coding c (coding_json c).
Proof.
  destruct c; try (left; eexists; split; [cbn [coding_names In]; tauto|reflexivity]); [..|idtac].
  all: right; destruct s; do 2 eexists; (split; [reflexivity|]); (split; [cbn [special_names In]; tauto|apply holds_tagged; reflexivity]).
Qed.
Lemma information_said d : says_information d (data_information_json d).
Proof.
  do 4 (split; [reflexivity|]). split; [destruct d as [? ? ? []]; reflexivity|]. split; [apply inside_some, coding_said|reflexivity].
Qed.
Lemma unit_said u : says_unit u (unit_json u).
Proof.
  split; [|apply inside_some; reflexivity]. destruct u as [[] e]; eexists; (split; [cbn [unit_names In u_name]; tauto|reflexivity]).
Qed.
Lemma label_said l : exists name, In (l, name) label_names /\ named (VString (label_identifier l)) name.
Proof.
  destruct l; (eexists; split; [|reflexivity]);
    match goal with |- In (?l, _) _ => let k := eval vm_compute in (place_of (label_identifier l) label_names) in apply (nth_error_In label_names k); reflexivity end.
Qed.
Lemma quantity_said x : says_quantity x (value_information_json x).
Proof.
  split; [apply inside_some; reflexivity|]. split; [apply inside_some; reflexivity|]. split; [apply list_map; intros l _; apply label_said|].
  apply list_map. intros u _. apply unit_said.
Qed.
Lemma single_said {A} (is : A -> json -> Prop) f x : (forall a, is a (f a)) -> says_single is x (single_json f x).
Proof. intros H. destruct x; cbn [says_single single_json]; apply holds_tagged; [apply H|reflexivity..]. Qed.
Lemma month_said m : says_month m (month_json m).
Proof. destruct m; eexists; (split; [cbn [month_names In]; tauto|reflexivity]). Qed.
Lemma data_value_said number d : says_data_value number d (data_type_json number d).
Proof.
  destruct d; cbn [says_data_value data_type_json]; apply holds_tagged; try apply float_said.
  - eexists. split; [apply decode_text_reads|reflexivity].
  - eexists. split; [reflexivity|]. repeat apply Forall2_cons; try apply Forall2_nil; apply single_said; first [reflexivity|apply month_said].
  - eexists. split; [reflexivity|]. repeat apply Forall2_cons; try apply Forall2_nil; apply single_said; first [reflexivity|apply month_said].
  - eexists. split; [reflexivity|]. repeat apply Forall2_cons; try apply Forall2_nil; apply single_said; first [reflexivity|apply month_said].
  - eexists. split; [reflexivity|]. repeat apply Forall2_cons; try apply Forall2_nil; apply single_said; first [reflexivity|apply month_said].
  - reflexivity.
Qed.
Lemma data_record_said number r : says_data_record number r (data_record_json number r).
Proof.
  split; [reflexivity|]. split.
  - apply inside_some. split; [|reflexivity]. apply (or_said (says_data_value number)), data_value_said.
  - apply inside_some. split; [apply inside_some, raw_header_said|]. apply inside_some.
    split; [apply (or_said says_information), information_said|apply (or_said says_quantity), quantity_said].
Qed.
Lemma maker_summary_said m : says_maker_summary m (manufacturer_summary_json m).
Proof.
  unfold says_maker_summary, manufacturer_summary_json. destruct (ms_info m) as [[[a b] c]|]; repeat split; reflexivity.
Qed.
Lemma record_summary_said number r : says_record_summary number r (record_summary_json number r).
Proof.
  destruct r as [di va ex un qu inf hh dh].
  assert (F : forall x, inside (is_float number x) (Some (float_json number x))) by (intros x; apply inside_some, float_said).
  assert (G : forall z, inside (is_signed z) (Some (VSigned z))) by (intros z; apply inside_some; reflexivity).
  unfold says_record_summary. destruct va, ex, un, qu; (repeat match goal with |- _ /\ _ => split end); first [reflexivity|apply F|apply G].
Qed.
Lemma skip_some {A} n (f : A -> json) o rest name : text_eqb (txt n) (txt name) = false ->
  field (VObject (if_some n f o ++ rest)) name = field (VObject rest) name.
Proof. intros E. destruct o as [a|]; [|reflexivity]. unfold field. cbn [fields_of if_some always app find]. rewrite E. reflexivity. Qed.
Lemma skip_always n v rest name : text_eqb (txt n) (txt name) = false -> field (VObject (always n v ++ rest)) name = field (VObject rest) name.
Proof. intros E. unfold field. cbn [fields_of always app find]. rewrite E. reflexivity. Qed.
Lemma skip_last {A} n (f : A -> json) o name : text_eqb (txt n) (txt name) = false -> field (VObject (if_some n f o)) name = None.
Proof. intros E. destruct o as [a|]; [|reflexivity]. unfold field. cbn [fields_of if_some always app find]. rewrite E. reflexivity. Qed.
Ltac reach := repeat first [rewrite skip_some by (vm_compute; reflexivity)|rewrite skip_always by (vm_compute; reflexivity)|rewrite skip_last by (vm_compute; reflexivity)].
Lemma summary_said number s : says_summary number s (summary_json number s).
Proof.
  destruct s as [ty fu ad idn ma ac st se ve de en dc ep rs].
  unfold says_summary, summary_json. cbn [fs_frame_type fs_function fs_address fs_identification_number fs_manufacturer fs_access_number fs_status fs_security_mode fs_version fs_device_type fs_encrypted fs_decrypted fs_encrypted_payload_hex fs_records].
  split; [reach; reflexivity|]. split; [reach; destruct fu; [reflexivity|]; cbn [if_some app]; reach; reflexivity|].
  split; [reach; destruct ad; [reflexivity|]; cbn [if_some app]; reach; reflexivity|].
  split; [reach; destruct idn; [reflexivity|]; cbn [if_some app]; reach; reflexivity|].
  split; [reach; destruct ma; [apply inside_some, maker_summary_said|]; cbn [if_some app]; reach; reflexivity|].
  split; [reach; destruct ac; [reflexivity|]; cbn [if_some app]; reach; reflexivity|].
  split; [reach; destruct st; [reflexivity|]; cbn [if_some app]; reach; reflexivity|].
  split; [reach; destruct se; [reflexivity|]; cbn [if_some app]; reach; reflexivity|].
  split; [reach; destruct ve; [reflexivity|]; cbn [if_some app]; reach; reflexivity|].
  split; [reach; destruct de; [reflexivity|]; cbn [if_some app]; reach; reflexivity|].
  split; [reach; reflexivity|]. split; [reach; reflexivity|].
  split; [reach; destruct ep; [reflexivity|]; cbn [if_some app]; reach; reflexivity|].
  reach. apply list_map. intros r _. apply record_summary_said.
Qed.
Lemma older_said number o : (forall u, po_user_data o = Some u -> block_known u) -> says_older number o (older_json number o).
Proof.
  intros K. split; [apply inside_some, any_frame_said|]. split.
  { change (field (older_json number o) "user_data") with (Some (or_null user_data_json (po_user_data o))).
    destruct (po_user_data o) as [u|]; [|reflexivity]. apply inside_some, user_data_said, K. reflexivity. }
  split; [|apply inside_some, summary_said].
  change (field (older_json number o) "data_records") with (Some (or_null (fun l => VArray (map (data_record_json number) l)) (po_records o))).
  apply or_said. intros l. apply list_map. intros r _. apply data_record_said.
Qed.

(** ** Where it comes from *)
Lemma parsed_parts cf fr u s records o : build_parsed cf fr u s records = Ok o -> po_frame o = fr /\ po_user_data o = u.
Proof.
  unfold build_parsed. destruct records as [r|]; intros H; [|apply Ok_inj in H; now subst o].
  destruct (records_to_vec cf (rs_data r) (rs_header r)) as [[l|e|p]|]; try discriminate H. apply Ok_inj in H. now subst o.
Qed.
Lemma application_read {F} (fr : F) p m : bytes_ok p -> with_application (E := mbus_error) fr p = Ok m ->
  md_frame m = fr /\ application_of (Some p) (md_user_data m).
Proof.
  intros B H. unfold with_application in H. destruct (user_data_try_from p) as [u|e|q] eqn:E; try discriminate H; apply Ok_inj in H; subst m; cbn [md_frame md_user_data application_of].
  - split; [reflexivity|]. now apply dispatch_exact.
  - split; [reflexivity|]. intros x A. apply dispatch_exact in A; [congruence|exact B].
Qed.
Lemma output_split env display data key o : parse_frame_bytes env display data key = Ok (Some o) ->
  (exists m, mbus_wired_try_from (env_config env) data = Ok m /\ po_frame o = inl (md_frame m) /\ po_user_data o = md_user_data m) \/
  ((exists e, mbus_wired_try_from (env_config env) data = Err e) /\ exists s out m, strip_format_a_crcs data (repeat 0 512) = Ok (s, out) /\
     mbus_wireless_try_from (match s with Some d => d | None => data end) = Ok m /\ po_frame o = inr (md_frame m) /\ po_user_data o = md_user_data m).
Proof.
  intros H. unfold parse_frame_bytes in H. destruct (mbus_wired_try_from (env_config env) data) as [m|e|p]; try discriminate H.
  - left. exists m. split; [reflexivity|]. apply bind_ok in H as ([r d] & _ & H). apply bind_ok in H as (s & _ & H). apply bind_ok in H as (o' & Ho & H).
    apply Ok_inj in H. injection H as ->. exact (parsed_parts _ _ _ _ _ _ Ho).
  - right. split; [eauto|]. apply bind_ok in H as ([s out] & Es & H). rewrite Es.
    destruct (mbus_wireless_try_from match s with Some d => d | None => data end) as [m|e'|p] eqn:E; try discriminate H.
    exists s, out, m. split; [reflexivity|]. split; [exact E|]. apply bind_ok in H as ([r d] & _ & H). apply bind_ok in H as (s' & _ & H). apply bind_ok in H as (o' & Ho & H).
    apply Ok_inj in H. injection H as ->. exact (parsed_parts _ _ _ _ _ _ Ho).
Qed.
Lemma wired_app cf data m : bytes_ok data -> mbus_wired_try_from cf data = Ok m ->
  wired_meaning data (md_frame m) /\ application_of (wired_payload (md_frame m)) (md_user_data m).
Proof.
  intros B H. destruct (wired_data_ok cf data m B H) as (W & L). split; [exact W|].
  unfold mbus_wired_try_from in H. apply bind_ok in H as (a & Ha & H).
  destruct a as [c|f ad|f ad p|f ad p]; try (apply Ok_inj in H; subst m; reflexivity).
  apply map_err_ok in Ha. apply wired_ok_iff in Ha.
  apply application_read in H; [|eapply wired_payload_ok; eassumption]. destruct H as (-> & A). exact A.
Qed.
Lemma wireless_app data m : bytes_ok data -> mbus_wireless_try_from data = Ok m ->
  wireless_meaning data (md_frame m) /\ application_of (Some (wf_data (md_frame m))) (md_user_data m).
Proof.
  intros B H. destruct (proj1 (wireless_data data B) m H) as (W & _). split; [exact W|].
  unfold mbus_wireless_try_from in H. apply bind_ok in H as (a & Ha & H). apply map_err_ok in Ha. apply wireless_ok_iff in Ha; [|exact B].
  apply application_read in H; [|eapply wireless_payload_ok; eassumption]. destruct H as (-> & A). exact A.
Qed.
Lemma output_payload env display data key o : bytes_ok data -> parse_frame_bytes env display data key = Ok (Some o) ->
  exists payload, (forall p, payload = Some p -> bytes_ok p) /\ application_of payload (po_user_data o).
Proof.
  intros B H. destruct (output_split _ _ _ _ _ H) as [(m & E & _ & ->)|(_ & s & out & m & Es & E & _ & ->)].
  - destruct (wired_app _ _ _ B E) as (W & A). exists (wired_payload (md_frame m)). split; [|exact A].
    intros p Ep. destruct (md_frame m); try discriminate Ep. injection Ep as ->. eapply wired_payload_ok; eassumption.
  - pose proof (normalized_bytes _ _ B (strip_normalized _ _ _ _ B Es)) as Bw. destruct (wireless_app _ _ Bw E) as (W & A). eexists. split; [|exact A].
    intros p Ep. injection Ep as <-. eapply wireless_payload_ok; eassumption.
Qed.
Lemma output_known env display data key o : bytes_ok data -> parse_frame_bytes env display data key = Ok (Some o) ->
  forall u, po_user_data o = Some u -> block_known u.
Proof.
  intros B H u E. destruct (output_payload _ _ _ _ _ B H) as ([p|] & _ & A); rewrite E in A; [now apply meaning_known in A|discriminate A].
Qed.
Lemma older_json_text env rn lr input key t : numerals (lr_number lr) -> serialize_mbus_data env rn lr input (txt "json-legacy") key = Ok t ->
  (parse_frame_output env (lr_display lr) input key = Ok None /\ t = txt "{}") \/
  (exists o v, parse_frame_output env (lr_display lr) input key = Ok (Some o) /\ only_value t v /\ says_older (lr_number lr) o v).
Proof.
  intros Hn H. change (parse_to_json env lr input key = Ok t) in H. unfold parse_to_json in H. apply bind_ok in H as ([o|] & E & H); apply Ok_inj in H; subst t.
  - right. exists o, (older_json (lr_number lr) o). split; [exact E|]. split; [now apply fine_only, older_fine|].
    apply older_said. exact (output_known _ _ _ _ _ (clean_bytes input) E).
  - left. split; [exact E|reflexivity].
Qed.
Lemma older_source env display data key f payload o : bytes_ok data -> any_frame data f payload ->
  parse_frame_bytes env display data key = Ok (Some o) -> po_frame o = f /\ application_of payload (po_user_data o).
Proof.
  intros B A H. destruct (output_split _ _ _ _ _ H) as [(m & E & -> & ->)|((e & Ee) & s & out & m & Es & E & -> & ->)].
  - destruct (wired_app _ _ _ B E) as (W & Ap). destruct A as [f0 a p W'|w W' Nl|w fr Nw R Wm].
    + destruct (wired_data_total (env_config env) data _ B W') as (m' & E' & F). assert (m' = m) by congruence. subst m'. rewrite F in *. split; [reflexivity|exact Ap].
    + destruct (wired_data_total (env_config env) data _ B W') as (m' & E' & F). assert (m' = m) by congruence. subst m'. rewrite F in *. split; [reflexivity|].
      destruct w; try exact Ap. destruct (Nl _ _ _ eq_refl).
    + exfalso. pose proof (wireless_len _ _ Wm) as L. pose proof (received_len _ _ R) as L'.
      destruct (not_wired_error (env_config env) data Nw) as [e' Ee]; [lia|]. unfold mbus_wired_try_from in E. rewrite Ee in E. discriminate E.
  - destruct A as [f0 a p W'|w W' Nl|w fr Nw R Wm].
    + destruct (wired_data_total (env_config env) data _ B W') as (m' & E' & F). congruence.
    + destruct (wired_data_total (env_config env) data _ B W') as (m' & E' & F). congruence.
    + pose proof (received_bytes _ _ B R) as Bw. destruct (received_frame data w fr B Bw R Wm) as (r & out' & Es' & Er).
      rewrite Es in Es'. apply Ok_inj in Es'. injection Es' as <- _. rewrite Er in E. destruct (wireless_app _ _ Bw E) as (W & Ap).
      assert (md_frame m = fr) by (eapply wireless_meaning_unique; eassumption). subst fr. split; [reflexivity|exact Ap].
Qed.
