(** The words, units and numbers shown with records whose value information field has extensions. *)
From Coq Require Import List NArith ZArith QArith Lia Bool String.
Import ListNotations.
From Verif Require Import Model.Base Model.Text Model.Core Model.DataInfo Model.ValueInfo Model.Record Model.Show Model.Output
  Spec.TextSpec Spec.RecordSpec Spec.FloatSpec Spec.VifSpec Spec.VifeSpec Spec.OutputSpec Spec.DetailSpec Spec.QuantitySpec
  Proof.BaseFacts Proof.TextFacts Proof.ShowFacts Proof.CoreFacts Proof.HeaderFacts Proof.RecordFacts Proof.VifFacts Proof.VifeFacts
  Proof.RscadaRecords Proof.OutputRecords Proof.OutputValues Proof.DetailRecords Proof.AnnotateProps.
Open Scope N_scope.
Open Scope list_scope.

(** ** the header *)
Lemma plain_vif main alternate bytes c more : quantity main alternate bytes c more -> Forall (fun b => b < 256) bytes ->
  contains_ascii (hd 0 bytes) = false.
Proof.
  intros Q B. destruct Q as [b r n more Hp Nd|b c more Hi|b c more Hi]; cbn [hd]; try reflexivity.
  inversion B; subst. pose proof (primary_code _ _ _ Hp) as K. unfold contains_ascii.
  destruct (code_split b H1) as [E|E]; apply orb_false_iff; split; apply N.eqb_neq; lia.
Qed.
Lemma chained_bytes bytes : chained bytes -> Forall (fun b => b < 256) bytes.
Proof.
  induction bytes as [|b [|b' l] IH]; intros H; [contradiction|constructor; [cbn in H; lia|constructor]|].
  destruct H as [H1 H2]. constructor; [lia|auto].
Qed.
Lemma described cf dif difes bytes more rest hdr d r :
  bytes_ok ((dif :: difes) ++ bytes ++ rest) -> dif_chain dif (dif :: difes) -> describes bytes more d -> len bytes <= 11 ->
  data_record_parse cf ((dif :: difes) ++ bytes ++ rest) hdr = Ok r ->
  header_of cf ((dif :: difes) ++ bytes) rest (dr_header r) dif (hd 0 bytes) /\
  rh_vib (drh_raw (dr_header r)) = Some (block bytes) /\
  ph_value_information (drh_processed (dr_header r)) = Some (meaning d).
Proof.
  intros B C (c & Ch & Q & M) L H. pose proof (chained_bytes _ Ch) as Fb.
  pose proof H as P. apply record_split in P as (p & rr & di0 & _ & _ & Hh & _).
  pose proof Hh as Hh'. apply header_dib in Hh' as (di' & _ & Hb & _).
  destruct (dif_chain_block _ _ _ _ B C Hb) as [E1 E2].
  assert (V : rh_vib (drh_raw (dr_header r)) = Some (block bytes) /\ dib_get_size (rh_dib (drh_raw (dr_header r))) = len (dif :: difes)).
  { pose proof Hh as H2. unfold header_try_from in H2. apply bind_ok in H2 as (raw & Hr & H2). apply bind_ok in H2 as (pr & _ & H2). apply Ok_inj in H2.
    rewrite <- H2 in *. cbn [drh_raw] in *. unfold raw_header_try_from, from_die in Hr. rewrite Hb in Hr. cbn [map_err bind] in Hr.
    assert (Sp : is_special_function (dib_dif (rh_dib raw)) = false).
    { rewrite E1. unfold is_special_function. rewrite land_15. apply N.eqb_neq. apply C. }
    rewrite Sp in Hr. cbn [negb] in Hr. apply bind_ok in Hr as (rst & Hg & Hr). apply ok_or_ok in Hg.
    assert (Sz : dib_get_size (rh_dib raw) = len (dif :: difes)).
    { unfold dib_get_size. rewrite len_cons. rewrite <- E2. destruct (dib_difes (rh_dib raw)); cbn; lia. }
    rewrite Sz, get_from_app in Hg. injection Hg as <-. apply bind_ok in Hr as (v & Hv & Hr). apply map_err_ok in Hv.
    rewrite (block_read cf bytes rest Ch L (plain_vif _ _ _ _ _ Q Fb)) in Hv. apply Ok_inj in Hv. subst v.
    apply Ok_inj in Hr. rewrite <- Hr in Sz |- *. split; [reflexivity|exact Sz]. }
  destruct V as [V Sz]. split; [|split; [exact V|]].
  - split; [rewrite <- app_assoc; exact B|]. split; [rewrite <- app_assoc; exact Hh|]. split; [|split; [exact E1|exists (block bytes); auto]].
    unfold header_get_size. rewrite V, Sz. rewrite len_app. f_equal. destruct bytes as [|b [|b' l]]; [contradiction| |]; unfold vib_get_size; cbn [block hd tl vib_vifes vib_plaintext]; rewrite ?len_cons; change (len (@nil N)) with 0; lia.
  - eapply header_meaning; [exact Hh|exact V| | |exact M]; cbn [block vib_vif vib_vifes]; rewrite ?vifes_list'; destruct bytes as [|b l]; try contradiction; cbn [hd tl]; rewrite ?vifes_list'; assumption.
Qed.

(** ** the words *)
Fixpoint index_of (t : text) (l : list (value_label * text)) : nat :=
  match l with [] => O | (x, _) :: l' => if text_eqb (label_identifier x) t then O else S (index_of t l') end.
Lemma words_named : map (fun e => (fst e, quantity_name (fst e))) quantity_words = quantity_words.
Proof. vm_compute. reflexivity. Qed.
Definition worded_label (l : value_label) : Prop := In (l, quantity_name l) quantity_words.
Lemma labels_worded labels idx : labels = map (fun i => nth i (map fst quantity_words) LEnergy) idx ->
  forallb (fun i => Nat.ltb i (length (map fst quantity_words))) idx = true -> Forall worded_label labels.
Proof.
  intros -> H. rewrite forallb_forall in H. apply Forall_forall. intros l Hl. apply in_map_iff in Hl as (i & <- & Hi).
  specialize (H i Hi). apply Nat.ltb_lt in H. unfold worded_label. rewrite <- words_named at 3.
  assert (K : In (nth i (map fst quantity_words) LEnergy) (map fst quantity_words)) by (apply nth_In; exact H).
  apply in_map_iff in K as (e & E & He). apply in_map_iff. exists e. split; [now rewrite E|exact He].
Qed.
Ltac worded := match goal with |- Forall worded_label ?labels =>
  let idx := eval vm_compute in (map (fun l => index_of (label_identifier l) quantity_words) labels) in
  apply (labels_worded labels idx); vm_compute; reflexivity end.

(** ** the units *)
Definition named (u : unit_name) : bool := match u with UHCA | UReserved | UWithoutUnits | UHCAUnit | UAmericanGallon => false | _ => true end.
Definition small (u : unit_) : bool := named (u_name u) && existsb (Z.eqb (u_exponent u)) (map fst raised).
Lemma named_word u : named u = true -> In (u, show_unit_name u) unit_words.
Proof. destruct u; intros H; try discriminate H; cbn [unit_words In show_unit_name]; repeat (first [left; reflexivity|right]). Qed.
Lemma named_unit u : small u = true -> named_term u (show_unit u).
Proof.
  intros H. unfold small in H. apply andb_true_iff in H as [H1 H2]. apply named_word in H1.
  destruct u as [n e]. cbn [u_name u_exponent] in *. cbn [raised map fst existsb] in H2. unfold named_term. exists (show_unit_name n). cbn [u_name u_exponent].
  repeat (apply orb_true_iff in H2 as [H2|H2]; [apply Z.eqb_eq in H2; subst e; eexists; (split; [exact H1|]); (split; [cbn [raised In]; repeat (first [left; reflexivity|right])|]);
    unfold show_unit; cbn [u_name u_exponent]; cbn; rewrite ?app_nil_r; reflexivity|]). discriminate H2.
Qed.
Lemma ucum_in u : match ucum_symbol u with Some s => In (u, s) ucum_symbols | None => forall s, ~ In (u, s) ucum_symbols end.
Proof.
  destruct u; cbn [ucum_symbol]; first [solve [cbn [ucum_symbols In]; repeat (first [left; reflexivity|right])]
   | intros s H; cbn [ucum_symbols In] in H; repeat (destruct H as [H|H]; [discriminate H|]); exact H].
Qed.
Lemma component u : match ucum_component u with Some t => coded u /\ ucum_term u t | None => ~ coded u end.
Proof.
  unfold ucum_component. pose proof (ucum_in (u_name u)) as H. destruct (ucum_symbol (u_name u)) as [s|].
  - split; [exists s; exact H|]. destruct (Z.eqb_spec (u_exponent u) 1) as [E|E]; [now constructor|]. constructor; [exact H|exact E|apply dec_Z_text].
  - intros [s K]. exact (H s K).
Qed.
Lemma all_components us : match all_some (map ucum_component us) with
  | Some ts => Forall coded us /\ Forall2 ucum_term us ts
  | None => ~ Forall coded us end.
Proof.
  induction us as [|u us IH]; cbn [map all_some]; [split; constructor|].
  pose proof (component u) as C. destruct (ucum_component u) as [t|].
  - destruct C as [C1 C2]. destruct (all_some (map ucum_component us)) as [ts|].
    + destruct IH. split; constructor; assumption.
    + intros F. inversion F; subst. contradiction.
  - intros F. inversion F; subst. contradiction.
Qed.
Lemma product us ts : us <> [] -> Forall2 ucum_term us ts -> ucum_text us (join (txt ".") ts).
Proof.
  intros N F. induction F as [|u t us ts H F IH]; [contradiction|]. destruct F as [|u' t' us' ts' H' F].
  - cbn [join]. now constructor.
  - change (join (txt ".") (t :: t' :: ts')) with (t ++ txt "." ++ join (txt ".") (t' :: ts')). constructor; [discriminate|exact H|]. apply IH. discriminate.
Qed.
Lemma units_shown us : us <> [] -> Forall (fun u => small u = true) us -> unit_shown us (unit_output us).
Proof.
  intros N S. unfold unit_output. pose proof (all_components us) as C. destruct (all_some (map ucum_component us)) as [ts|].
  - destruct C as [C1 C2]. split; [intros _; now apply product|intros K; contradiction].
  - split; [intros K; contradiction|]. intros _. exists (map show_unit us). split; [|reflexivity].
    clear N C. induction S as [|u us Hu S IH]; constructor; [now apply named_unit|exact IH].
Qed.

(** ** what the tables say *)
Definition showable (c : contribution) : Prop := Forall worded_label (c_labels c) /\ Forall (fun u => small u = true) (c_units c).
Lemma table_showable (table : list (N * contribution)) code c :
  Forall worded_label (flat_map (fun e => c_labels (snd e)) table) -> forallb (fun e => forallb small (c_units (snd e))) table = true ->
  In (code, c) table -> showable c.
Proof.
  intros W S H. split.
  - apply Forall_forall. intros l Hl. rewrite Forall_forall in W. apply W. apply in_flat_map. exists (code, c). auto.
  - rewrite forallb_forall in S. specialize (S _ H). cbn [snd] in S. apply Forall_forall. rewrite forallb_forall in S. exact S.
Qed.
Lemma main_showable code c : In (code, c) main_kept -> showable c.
Proof. apply table_showable; [worded|vm_compute; reflexivity]. Qed.
Lemma alternate_showable code c : In (code, c) alternate_kept -> showable c.
Proof. apply table_showable; [worded|vm_compute; reflexivity]. Qed.
Lemma combinable_showable code c : In (code, c) combinable_kept -> showable c.
Proof. apply table_showable; [worded|vm_compute; reflexivity]. Qed.
Lemma more_showable code c : In (code, c) combinable_more -> showable c.
Proof. apply table_showable; [worded|vm_compute; reflexivity]. Qed.
Lemma primary_showable vif r n : primary vif r n -> Forall worded_label [vr_label r] /\ Forall (fun u => small u = true) (vr_units r).
Proof.
  intros (H & _). split.
  - assert (W : Forall worded_label (map vr_label primary_rows)) by worded. rewrite Forall_forall in W.
    constructor; [apply W; now apply in_map|constructor].
  - assert (S : forallb (fun r => forallb small (vr_units r)) primary_rows = true) by (vm_compute; reflexivity).
    rewrite forallb_forall in S. specialize (S _ H). apply Forall_forall. rewrite forallb_forall in S. exact S.
Qed.
Lemma also_showable c a : showable c -> showable a -> showable (also c a).
Proof. intros [A B] [C D]. split; cbn [also c_labels c_units]; apply Forall_app; auto. Qed.
Lemma describes_showable bytes more d : describes bytes more d -> showable d.
Proof.
  intros (c & _ & Q & M). assert (Sc : showable c).
  { destruct Q as [b r n more Hp Nd|b c more Hi|b c more Hi]; [|eapply main_showable; exact Hi|eapply alternate_showable; exact Hi].
    exact (primary_showable _ _ _ Hp). }
  clear Q. induction M as [c|c b more a d Hb Hi M IH|c b more a d Hi M IH]; [exact Sc| |]; apply IH; apply also_showable; auto.
  - eapply combinable_showable. exact Hi.
  - eapply more_showable. exact Hi.
Qed.

Lemma extended_quantity cf dif difes bytes more rest hdr d r i :
  bytes_ok ((dif :: difes) ++ bytes ++ rest) -> dif_chain dif (dif :: difes) -> describes bytes more d -> len bytes <= 11 ->
  data_record_parse cf ((dif :: difes) ++ bytes ++ rest) hdr = Ok r ->
  let o := record_output i r in
  Forall2 (fun l t => In (l, t) quantity_words) (c_labels d) (ro_quantities o) /\
  (c_units d = [] -> ro_unit o = None) /\
  (c_units d <> [] -> exists t, ro_unit o = Some t /\ unit_shown (c_units d) t).
Proof.
  intros B C D L H. cbv zeta. destruct (described _ _ _ _ _ _ _ _ _ B C D L H) as (_ & _ & V).
  destruct (describes_showable _ _ _ D) as [W U]. unfold record_output. rewrite V. cbn [ro_quantities ro_unit meaning vi_labels vi_units].
  split; [|split].
  - clear - W. induction W as [|l ls Hl W IH]; constructor; [exact Hl|exact IH].
  - intros ->. reflexivity.
  - intros N. exists (unit_output (c_units d)). split; [|now apply units_shown]. destruct (c_units d); [contradiction|reflexivity].
Qed.

(** ** the number *)
Lemma code_kept (table : list (N * contribution)) bound code c :
  forallb (fun e => fst e <? bound) table = true -> In (code, c) table -> code < bound.
Proof. intros F H. rewrite forallb_forall in F. specialize (F _ H). now apply N.ltb_lt in F. Qed.
Lemma addition_tail e l o : ~ additive e -> addition (e :: l) o -> addition l o.
Proof.
  intros N H. inversion H as [F Eo|pre e' post E A F Eo]; subst.
  - constructor. now inversion F.
  - destruct pre as [|x pre]; [injection E as <- <-; contradiction|]. injection E as <- ->. econstructor; [reflexivity|exact A|exact F].
Qed.
Lemma extended_addition bytes more d o : describes bytes more d -> ~ maximum_power bytes -> addition (tl bytes) o -> addition more o.
Proof.
  intros (c & Ch & Q & _) N. destruct Q as [b r n more Hp Nd|b c more Hi|b c more Hi]; cbn [tl].
  - auto.
  - apply addition_tail. assert (K : code_of b < 0x78) by (eapply code_kept; [|exact Hi]; vm_compute; reflexivity). unfold additive, code_of in *. lia.
  - apply addition_tail. intros A. apply N. exists b, more. auto.
Qed.
Lemma extended_number cf dif difes bytes more rest hdr d r i z :
  bytes_ok ((dif :: difes) ++ bytes ++ rest) -> dif_chain dif (dif :: difes) -> describes bytes more d -> len bytes <= 11 -> ~ maximum_power bytes ->
  data_record_parse cf ((dif :: difes) ++ bytes ++ rest) hdr = Ok r ->
  shows_number (record_output i r) (dr_header r) z -> denotes (record_output i r) z (c_scale d) more.
Proof.
  intros B C D L N H (v & b & offset & t & Hv & Hb & Ha & Hk & Ht & Hd). destruct (described _ _ _ _ _ _ _ _ _ B C D L H) as (_ & V1 & V2).
  rewrite V2 in Hv. injection Hv as <-. rewrite V1 in Hb. injection Hb as <-. cbn [block vib_vifes] in Ha. rewrite vifes_list' in Ha.
  exists offset, t. split; [eapply extended_addition; eassumption|auto].
Qed.
Lemma extended_integers cf dif difes bytes more rest hdr d w r i :
  bytes_ok ((dif :: difes) ++ bytes ++ rest) -> dif_chain dif (dif :: difes) -> describes bytes more d -> len bytes <= 11 ->
  ~ maximum_power bytes -> ~ date_vif (hd 0 bytes) -> integer_width (dif mod 16) = Some w ->
  data_record_parse cf ((dif :: difes) ++ bytes ++ rest) hdr = Ok r ->
  exists body rest', rest = body ++ rest' /\ len body = w /\ denotes (record_output i r) (twos_complement body) (c_scale d) more.
Proof.
  intros B C D L N Nd W H. destruct (described _ _ _ _ _ _ _ _ _ B C D L H) as (Hh & _ & _). pose proof H as H'. rewrite app_assoc in H'.
  destruct (integer_shown _ _ _ _ _ _ _ _ _ i Hh Nd W H') as (body & rest' & E & Lb & S). exists body, rest'. split; [exact E|]. split; [exact Lb|].
  eapply extended_number; eassumption.
Qed.
Lemma extended_decimals cf dif difes bytes more rest hdr d w r i :
  bytes_ok ((dif :: difes) ++ bytes ++ rest) -> dif_chain dif (dif :: difes) -> describes bytes more d -> len bytes <= 11 ->
  ~ maximum_power bytes -> ~ date_vif (hd 0 bytes) -> bcd_width (dif mod 16) = Some w ->
  data_record_parse cf ((dif :: difes) ++ bytes ++ rest) hdr = Ok r ->
  exists body rest', rest = body ++ rest' /\ len body = w /\ all_decimal body /\
    denotes (record_output i r) (Z.of_N (FloatSpec.decimal (nibbles (ordered (lsb_first hdr) body)))) (c_scale d) more.
Proof.
  intros B C D L N Nd W H. destruct (described _ _ _ _ _ _ _ _ _ B C D L H) as (Hh & _ & _). pose proof H as H'. rewrite app_assoc in H'.
  destruct (bcd_shown _ _ _ _ _ _ _ _ _ i Hh Nd W H') as (body & rest' & E & Lb & A & S). exists body, rest'. split; [exact E|]. split; [exact Lb|].
  split; [exact A|]. eapply extended_number; eassumption.
Qed.

(** ** examples *)
Definition ex_field : list N := [0xFB; 0x83; 0xFC; 0x82; 0xA3; 0xF4; 0x7A].
Lemma ex_described : describes ex_field [0xFC; 0x82; 0xA3; 0xF4; 0x7A] kvarh_combined.
Proof. exists kvarh. destruct combined_example as (A & B & C & _). auto. Qed.
Lemma extended_example : exists r,
  bytes_ok ([0x02] ++ ex_field ++ [0x05; 0x00]) /\ dif_chain 0x02 [0x02] /\ describes ex_field [0xFC; 0x82; 0xA3; 0xF4; 0x7A] kvarh_combined /\
  len ex_field <= 11 /\ ~ maximum_power ex_field /\ ~ date_vif (hd 0 ex_field) /\
  data_record_parse debug ([0x02] ++ ex_field ++ [0x05; 0x00]) None = Ok r /\
  ro_quantities (record_output 0 r) = [txt "Reactive energy"; txt "At phase L2"] /\
  ro_unit (record_output 0 r) = Some (txt "W (reactive)hday" ++ [0x207B; 0xB9]) /\
  vo_value (ro_value (record_output 0 r)) = Some (JString (txt "500.1")).
Proof.
  eexists. split; [repeat constructor|]. split; [split; [discriminate|exists []; split; [reflexivity|left; split; [reflexivity|reflexivity]]]|].
  split; [exact ex_described|]. split; [vm_compute; discriminate|].
  split; [intros (e & more & E & [A _]); unfold ex_field in E; injection E as <- _; vm_compute in A; contradiction A; reflexivity|].
  split; [intros [K|K]; discriminate K|]. split; [vm_compute; reflexivity|]. repeat split; vm_compute; reflexivity.
Qed.
Lemma extended_decimals_example : exists r,
  bytes_ok ([0x0A] ++ ex_field ++ [0x05; 0x12]) /\ dif_chain 0x0A [0x0A] /\ describes ex_field [0xFC; 0x82; 0xA3; 0xF4; 0x7A] kvarh_combined /\
  ~ maximum_power ex_field /\ bcd_width (0x0A mod 16) = Some 2 /\
  data_record_parse debug ([0x0A] ++ ex_field ++ [0x05; 0x12]) None = Ok r /\
  vo_value (ro_value (record_output 0 r)) = Some (JString (txt "120500.1")).
Proof.
  destruct extended_example as (_ & _ & _ & D & _ & M & _).
  eexists. split; [repeat constructor|]. split; [split; [discriminate|exists []; split; [reflexivity|left; split; [reflexivity|reflexivity]]]|].
  split; [exact D|]. split; [exact M|]. split; [reflexivity|]. split; vm_compute; reflexivity.
Qed.
Lemma ucum_example : unit_shown [{| u_name := UMeter; u_exponent := 3%Z |}; {| u_name := UDay; u_exponent := (-1)%Z |}] (txt "m3.d-1").
Proof. exact (units_shown [{| u_name := UMeter; u_exponent := 3%Z |}; {| u_name := UDay; u_exponent := (-1)%Z |}] ltac:(discriminate) ltac:(repeat constructor)). Qed.
Lemma maximum_power_refuted cf : exists r,
  describes [0xFB; 0x78] [] (says [LCumulativeMaximumOfActivePower] [(UWatt, 1%Z)] (-3)) /\
  data_record_parse cf ([0x04] ++ [0xFB; 0x78] ++ [1; 0; 0; 0]) None = Ok r /\
  dr_raw_bytes r = [0x04; 0xFB; 0x78; 1; 0; 0; 0] /\
  vo_value (ro_value (record_output 0 r)) = Some (JString (txt "0.002")).
Proof.
  eexists. split; [|split; [destruct cf as [[] []]; vm_compute; reflexivity|split; vm_compute; reflexivity]].
  eexists. split; [repeat split; lia|]. split; [constructor; in_table|constructor].
Qed.
