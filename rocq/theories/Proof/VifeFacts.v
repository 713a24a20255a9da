(** The extension tables and the combinable extensions. *)
From Coq Require Import List NArith ZArith Lia Bool.
Import ListNotations.
From Verif Require Import Model.Base Model.Core Model.DataInfo Model.ValueInfo Model.Record
  Spec.VifSpec Spec.VifeSpec Spec.RecordSpec Proof.BaseFacts Proof.CoreFacts Proof.VifFacts Proof.RecordFacts Proof.HeaderProps.
Open Scope N_scope.
Open Scope list_scope.

(** ** statements in sequence add up *)
Fixpoint ops_sum (ops : list vi_op) : option contribution :=
  match ops with
  | [] => Some (says [] [] 0)
  | op :: ops =>
      match ops_sum ops with
      | None => None
      | Some c =>
          match op with
          | PushUnit n e => Some (also (says [] [(n, e)] 0) c)
          | PushLabel l => Some (also (says [l] [] 0) c)
          | AddScale z => Some (also (says [] [] z) c)
          | AddOffset z => Some (also {| c_labels := []; c_units := []; c_scale := 0; c_offset := z |} c)
          | SetScale _ => None
          end
      end
  end.
Definition bounded (c : contribution) : outcome data_information_error value_information :=
  if fits c then Ok (meaning c) else Panic PCapacity.
Lemma also_assoc a b c : also (also a b) c = also a (also b c).
Proof. unfold also. cbn. f_equal; try apply app_assoc_reverse; lia. Qed.
Lemma also_none a : also a (says [] [] 0) = a.
Proof. destruct a. unfold also. cbn. rewrite !app_nil_r, !Z.add_0_r. reflexivity. Qed.
Lemma fits_spec c : fits c = true <-> len (c_labels c) <= 10 /\ len (c_units c) <= 10.
Proof. unfold fits. rewrite andb_true_iff, !N.leb_le. reflexivity. Qed.
Lemma len_one {A} (x : A) : len [x] = 1. Proof. reflexivity. Qed.
Lemma len_none {A} : len (@nil A) = 0. Proof. reflexivity. Qed.
Lemma fits_also a b : fits (also a b) = true -> fits a = true.
Proof. rewrite !fits_spec. cbn. rewrite !len_app. lia. Qed.
Lemma bounded_grows a b : fits a = false -> bounded (also a b) = Panic PCapacity.
Proof. intros H. unfold bounded. destruct (fits (also a b)) eqn:E; [|reflexivity]. apply fits_also in E. congruence. Qed.
Lemma runs_sum : forall ops a c, ops_sum ops = Some c -> fits a = true -> vi_runs ops (meaning a) = bounded (also a c).
Proof.
  induction ops as [|op ops IH]; cbn [ops_sum vi_runs]; intros a c H Fa.
  { injection H as <-. rewrite also_none. unfold bounded. now rewrite Fa. }
  destruct (ops_sum ops) as [c'|]; [|discriminate H].
  assert (Step : forall d, op <> SetScale 0 -> vi_run op (meaning a) = bounded (also a d) -> c = also d c' ->
    bind (vi_run op (meaning a)) (fun s' => vi_runs ops s') = bounded (also a c)).
  { intros d _ R ->. rewrite R. rewrite <- also_assoc. unfold bounded at 1. destruct (fits (also a d)) eqn:E; cbn [bind].
    - now apply IH.
    - symmetry. now apply bounded_grows. }
  apply fits_spec in Fa as Fa'. destruct Fa' as [F1 F2].
  destruct op; try discriminate H; injection H as <-; (eapply Step; [discriminate| |reflexivity]); unfold vi_run, bounded, meaning.
  - cbn [vi_units]. destruct (N.ltb_spec (len (c_units a)) 10) as [L|L]; unfold fits; cbn [also says c_units c_labels c_scale c_offset unit_of map]; rewrite !len_app, len_one, len_none.
    + rewrite !(proj2 (N.leb_le _ _)) by lia. cbn [andb]. rewrite app_nil_r, !Z.add_0_r. reflexivity.
    + rewrite (proj2 (N.leb_gt (len (c_units a) + _) 10)) by lia. now rewrite andb_false_r.
  - cbn [vi_labels]. destruct (N.ltb_spec (len (c_labels a)) 10) as [L|L]; unfold fits; cbn [also says c_units c_labels c_scale c_offset unit_of map]; rewrite !len_app, len_one, len_none.
    + rewrite !(proj2 (N.leb_le _ _)) by lia. cbn [andb]. rewrite app_nil_r, !Z.add_0_r. reflexivity.
    + rewrite (proj2 (N.leb_gt (len (c_labels a) + _) 10)) by lia. reflexivity.
  - unfold fits; cbn [also says c_units c_labels c_scale c_offset unit_of map]. rewrite !app_nil_r. unfold fits in Fa. rewrite Fa. now rewrite Z.add_0_r.
  - unfold fits; cbn [also says c_units c_labels c_scale c_offset unit_of map]. rewrite !app_nil_r. unfold fits in Fa. rewrite Fa. now rewrite Z.add_0_r.
Qed.

(** ** the tables *)
Lemma code_split b : b < 256 -> b = code_of b \/ b = code_of b + 128.
Proof. intros H. unfold code_of. pose proof (N.div_mod b 128 ltac:(lia)). assert (b / 128 < 2) by (apply N.div_lt_upper_bound; lia). lia. Qed.
Lemma table_all (table : list (N * contribution)) (P : N -> contribution -> Prop) :
  Forall (fun '(code, a) => P code a /\ P (code + 128) a) table ->
  forall b a, b < 256 -> In (code_of b, a) table -> P b a.
Proof.
  intros F b a Hb Hi. rewrite Forall_forall in F. destruct (F _ Hi) as [F1 F2]. destruct (code_split b Hb) as [E|E]; rewrite E; assumption.
Qed.
Ltac each := lazymatch goal with |- Forall _ ?t => let t' := eval vm_compute in t in change t with t' end;
  repeat (apply Forall_cons; [split; reflexivity|]); apply Forall_nil.
Lemma combinable_ops b a : b < 256 -> In (code_of b, a) combinable_kept -> ops_sum (orth_ops b) = Some a.
Proof. revert b a. refine (table_all _ (fun b a => ops_sum (orth_ops b) = Some a) _). each. Qed.
Lemma more_ops b a : b < 256 -> In (code_of b, a) combinable_more -> ops_sum (orth_extension_ops b) = Some a.
Proof. revert b a. refine (table_all _ (fun b a => ops_sum (orth_extension_ops b) = Some a) _). each. Qed.
Lemma main_meaning second b a : b < 256 -> In (code_of b, a) main_kept ->
  vi_runs (main_ops b second) vi_init = Ok (meaning a) /\ fits a = true.
Proof. revert b a. refine (table_all _ (fun b a => vi_runs (main_ops b second) vi_init = Ok (meaning a) /\ fits a = true) _).
  lazymatch goal with |- Forall _ ?t => let t' := eval vm_compute in t in change t with t' end.
  repeat (apply Forall_cons; [split; split; reflexivity|]); apply Forall_nil. Qed.
Lemma alternate_meaning b a : b < 256 -> In (code_of b, a) alternate_kept ->
  vi_runs (alternate_ops b) vi_init = Ok (meaning a) /\ fits a = true.
Proof. revert b a. refine (table_all _ (fun b a => vi_runs (alternate_ops b) vi_init = Ok (meaning a) /\ fits a = true) _).
  lazymatch goal with |- Forall _ ?t => let t' := eval vm_compute in t in change t with t' end.
  repeat (apply Forall_cons; [split; split; reflexivity|]); apply Forall_nil. Qed.
Lemma more_code_fc a : ~ In (code_of 0xFC, a) combinable_more.
Proof. vm_compute. intros H. repeat (destruct H as [H|H]; [discriminate H|]). exact H. Qed.

Lemma consume_combined c more d : combined combinable_kept c more d -> Forall (fun b => b < 256) more -> fits c = true ->
  consume_orthogonal more false (meaning c) = bounded d.
Proof.
  induction 1 as [c|c b more a d Nb Hi H IH|c b more a d Hi H IH]; intros B F.
  - cbn. unfold bounded. now rewrite F.
  - inversion B as [|? ? Hb B']; subst. cbn [consume_orthogonal]. destruct (N.eqb_spec b 0xFC); [contradiction|].
    rewrite (runs_sum _ _ _ (combinable_ops _ _ Hb Hi) F). unfold bounded at 1. destruct (fits (also c a)) eqn:E; cbn [bind].
    + now apply IH.
    + clear - H E. revert E. induction H; intros E.
      * unfold bounded. now rewrite E.
      * apply IHcombined. destruct (fits _) eqn:K; [|reflexivity]. apply fits_also in K. congruence.
      * apply IHcombined. destruct (fits _) eqn:K; [|reflexivity]. apply fits_also in K. congruence.
  - inversion B as [|? ? _ B1]; subst. inversion B1 as [|? ? Hb B']; subst. cbn [consume_orthogonal].
    change (0xFC =? 0xFC) with true. cbv iota. destruct (N.eqb_spec b 0xFC) as [->|_]; [exfalso; eapply more_code_fc; exact Hi|].
    rewrite (runs_sum _ _ _ (more_ops _ _ Hb Hi) F). unfold bounded at 1. destruct (fits (also c a)) eqn:E; cbn [bind].
    + now apply IH.
    + clear - H E. revert E. induction H; intros E.
      * unfold bounded. now rewrite E.
      * apply IHcombined. destruct (fits _) eqn:K; [|reflexivity]. apply fits_also in K. congruence.
      * apply IHcombined. destruct (fits _) eqn:K; [|reflexivity]. apply fits_also in K. congruence.
Qed.

(** ** blocks *)
Definition block (bytes : list N) : value_information_block :=
  {| vib_vif := hd 0 bytes; vib_vifes := match tl bytes with [] => None | l => Some l end; vib_plaintext := None |}.
Lemma primary_runs b r n : b < 256 -> primary (code_of b) r n -> ~ duration r ->
  exists ops, primary_ops b = Some ops /\ vi_runs ops vi_init =
    Ok (meaning {| c_labels := [vr_label r]; c_units := vr_units r; c_scale := primary_scale r n; c_offset := 0 |}).
Proof.
  intros Hb Hp Nd. assert (E : code_of b = vr_first r + n) by apply Hp.
  destruct (code_split b Hb) as [Eb|Eb]; rewrite Eb, E; clear Eb E Hb; revert Nd; generalize dependent (code_of b); intros vif Hp; revert vif r n Hp;
    refine (rows_all _ _); unfold duration;
    repeat constructor; intros K; (eexists; split; [vm_compute; reflexivity|]);
    first [vm_compute; reflexivity | exfalso; apply K; cbn; auto].
Qed.
Lemma coding_primary (E : Type) b : b < 256 -> code_of b < 0x7B -> value_information_coding_from (E := E) b = Ok VPrimary.
Proof.
  intros Hb Hc. unfold value_information_coding_from. destruct (code_split b Hb) as [K|K].
  - rewrite (proj2 (N.leb_le b 0x7B)) by lia. reflexivity.
  - rewrite (proj2 (N.leb_le 0x80 b)), (proj2 (N.leb_le b 0xFA)) by lia. cbn [andb]. now rewrite orb_true_r.
Qed.
Lemma vifes_list l : match match l with [] => None | x => Some x end with Some v => v | None => @nil N end = l.
Proof. now destruct l. Qed.
Lemma vifes_list' l : match match l with [] => None | n :: l0 => Some (n :: l0) end with Some v => v | None => @nil N end = l.
Proof. now destruct l. Qed.
Lemma primary_code vif r n : primary vif r n -> vif < 0x7B.
Proof. intros H. assert (E : vif = vr_first r + n) by apply H. rewrite E. clear E. revert vif r n H. refine (rows_all _ _). repeat constructor. Qed.
Lemma get_from_1 (b : N) more : get_from (b :: more) 1 = Some more.
Proof. exact (get_from_app [b] more). Qed.
Lemma block_meaning bytes c more d :
  Forall (fun b => b < 256) bytes -> quantity main_kept alternate_kept bytes c more -> combined combinable_kept c more d ->
  value_information_try_from (block bytes) = bounded d.
Proof.
  intros B Q C. unfold value_information_try_from. cbv zeta. destruct Q as [b r n more Hp Nd|b c more Hi|b c more Hi]; cbn [block vib_vif vib_vifes hd tl];
    rewrite ?vifes_list, ?vifes_list'; inversion B as [|? ? Hb B1]; subst.
  - rewrite (coding_primary _ _ Hb (primary_code _ _ _ Hp)). cbn [bind].
    destruct (primary_runs _ _ _ Hb Hp Nd) as (ops & E1 & E2). rewrite E1. cbn [ok_or bind]. rewrite E2. cbn [bind]. apply consume_combined; [exact C|exact B1|].
    revert Hp. clear. generalize (code_of b). intros v Hp. revert v r n Hp. refine (rows_all _ _). repeat constructor.
  - inversion B1 as [|? ? Hb' B2]; subst. change (value_information_coding_from 0xFD) with (@Ok data_information_error _ VMainVIFExtension). cbn [bind].
    change (get (b :: more) 0) with (Some b). cbn [ok_or bind].
    destruct (main_meaning (get (b :: more) 1) b c Hb' Hi) as [-> F]. cbn [bind].
    rewrite get_from_1. now apply consume_combined.
  - inversion B1 as [|? ? Hb' B2]; subst. change (value_information_coding_from 0xFB) with (@Ok data_information_error _ VAlternateVIFExtension). cbn [bind].
    change (get (b :: more) 0) with (Some b). cbn [ok_or bind].
    destruct (alternate_meaning b c Hb' Hi) as [-> F]. cbn [bind]. rewrite get_from_1. now apply consume_combined.
Qed.

(** ** from bytes *)
Lemma chain_bytes l : chained l -> Forall (fun b => b < 256) l.
Proof.
  induction l as [|b l IH]; intros H; [constructor|]. destruct l as [|b' l].
  - change (b < 128) in H. constructor; [lia|constructor].
  - destruct H as [Hb H]. constructor; [lia|auto].
Qed.
Lemma vife_loop_chain : forall l acc rest, chained l -> len acc + len l <= 10 -> vife_loop (l ++ rest) acc = Ok (acc ++ l).
Proof.
  induction l as [|b l IH]; intros acc rest H L; [contradiction|]. rewrite len_cons in L. cbn [app vife_loop]. unfold MAX_VIFE_RECORDS.
  rewrite (proj2 (N.ltb_lt _ _)) by lia. destruct l as [|b' l].
  - cbn [chained] in H. rewrite has_extension_spec by lia. rewrite (proj2 (N.leb_gt _ _)) by lia. reflexivity.
  - destruct H as [Hb H]. rewrite has_extension_spec by lia. rewrite (proj2 (N.leb_le _ _)) by lia. cbn [negb].
    rewrite len_app, len_one. rewrite (proj2 (N.ltb_ge _ _)) by lia. rewrite IH; [now rewrite <- app_assoc|exact H|].
    rewrite len_app, len_one. lia.
Qed.
Lemma block_read cf bytes rest : chained bytes -> len bytes <= 11 -> contains_ascii (hd 0 bytes) = false ->
  vib_try_from cf (bytes ++ rest) = Ok (block bytes).
Proof.
  intros H L A. destruct bytes as [|vif l]; [contradiction|]. cbn [hd] in A. unfold vib_try_from. cbn [app].
  change (get (vif :: l ++ rest) 0) with (Some vif). cbn [ok_or bind]. rewrite A, !andb_false_r. cbn [bind].
  rewrite len_cons in L. destruct l as [|b l].
  - cbn [chained] in H. rewrite has_extension_spec by lia. rewrite (proj2 (N.leb_gt _ _)) by lia. reflexivity.
  - destruct H as [Hv H]. rewrite has_extension_spec by lia. rewrite (proj2 (N.leb_le _ _)) by lia.
    change (skipn (N.to_nat 1) (vif :: (b :: l) ++ rest)) with ((b :: l) ++ rest). rewrite vife_loop_chain; [|exact H|unfold len at 1; cbn [length]; lia].
    reflexivity.
Qed.
Lemma block_size bytes : bytes <> [] -> vib_get_size (block bytes) = len bytes.
Proof. destruct bytes as [|v [|b l]]; intros H; [congruence|reflexivity|]. unfold vib_get_size, block. cbn [vib_vifes vib_plaintext tl]. rewrite !len_cons. lia. Qed.
Lemma quantity_head main alternate bytes c more : quantity main alternate bytes c more -> Forall (fun b => b < 256) bytes -> contains_ascii (hd 0 bytes) = false.
Proof.
  intros [b r n m Hp _|b d m _|b d m _] B; [|reflexivity|reflexivity]. inversion B as [|? ? Hb _]; subst. cbn [hd].
  pose proof (primary_code _ _ _ Hp). unfold contains_ascii. destruct (code_split b Hb);
    rewrite (proj2 (N.eqb_neq b 0x7C)), (proj2 (N.eqb_neq b 0xFC)) by lia; reflexivity.
Qed.
Lemma bytes_meaning cf bytes rest c more d :
  chained bytes -> len bytes <= 11 -> quantity main_kept alternate_kept bytes c more -> combined combinable_kept c more d ->
  information cf bytes rest (if fits d then Ok (meaning d) else Panic PCapacity).
Proof.
  intros H L Q C. pose proof (chain_bytes _ H) as B. exists (block bytes). split; [|split].
  - apply block_read; [exact H|exact L|]. eapply quantity_head; eassumption.
  - apply block_size. intros ->. exact H.
  - exact (block_meaning _ _ _ _ B Q C).
Qed.

(** record headers *)
Lemma text_ignored v : value_information_try_from v =
  value_information_try_from (block (vib_vif v :: match vib_vifes v with Some l => l | None => [] end)).
Proof. destruct v as [vif [[|b l]|] t]; reflexivity. Qed.
Lemma header_meaning cf data h v c more d :
  header_try_from cf data = Ok h -> rh_vib (drh_raw h) = Some v ->
  let bytes := vib_vif v :: match vib_vifes v with Some l => l | None => [] end in
  Forall (fun b => b < 256) bytes ->
  quantity main_kept alternate_kept bytes c more -> combined combinable_kept c more d ->
  ph_value_information (drh_processed h) = Some (meaning d).
Proof.
  intros H Hv bytes B Q C. unfold header_try_from in H. bind_inv H. bind_inv H. apply Ok_inj in H; subst h; cbn [drh_raw drh_processed] in *.
  unfold processed_header_try_from in Ha0. rewrite Hv in Ha0. bind_inv Ha0. bind_inv Ha0. apply Ok_inj in Ha0; subst a0; cbn.
  rewrite text_ignored in Ha1. pose proof (block_meaning _ _ _ _ B Q C) as K. unfold bytes in K. rewrite K in Ha1. unfold bounded in Ha1. destruct (fits d); [|discriminate Ha1].
  cbn in Ha1. apply Ok_inj in Ha1. now subst.
Qed.

(** ** departures *)
Lemma departs bytes c : chained bytes -> len bytes <= 11 -> contains_ascii (hd 0 bytes) = false ->
  value_information_try_from (block bytes) <> Ok (meaning c) -> departs_from bytes c.
Proof. intros H L A K cf rest b Hb. rewrite (block_read cf bytes rest H L A) in Hb. apply Ok_inj in Hb. now subst b. Qed.
Ltac departing := lazymatch goal with |- Forall _ ?t => let t' := eval vm_compute in t in change t with t' end;
  repeat (apply Forall_cons; [intros D; vm_compute in D; first [exfalso; repeat (destruct D as [D|D]; [discriminate D|]); exact D | apply departs;
    [repeat split; lia | vm_compute; discriminate | reflexivity | intros D'; vm_compute in D'; discriminate D']]|]); apply Forall_nil.
Lemma main_departures code c : In (code, c) main_table -> In code main_departs -> departs_from [0xFD; code] c.
Proof.
  intros H. pattern code, c. revert H. assert (F : Forall (fun '(code, c) => In code main_departs -> departs_from [0xFD; code] c) main_table) by departing.
  rewrite Forall_forall in F. exact (F (code, c)).
Qed.
Lemma alternate_departures code c : In (code, c) alternate_table -> In code alternate_departs -> departs_from [0xFB; code] c.
Proof.
  intros H. pattern code, c. revert H. assert (F : Forall (fun '(code, c) => In code alternate_departs -> departs_from [0xFB; code] c) alternate_table) by departing.
  rewrite Forall_forall in F. exact (F (code, c)).
Qed.
Lemma combinable_departures code a : In (code, a) combinable_table -> In code combinable_departs -> departs_from [0x93; code] (also cubic_metres a).
Proof.
  intros H. pattern code, a. revert H. assert (F : Forall (fun '(code, a) => In code combinable_departs -> departs_from [0x93; code] (also cubic_metres a)) combinable_table) by departing.
  rewrite Forall_forall in F. exact (F (code, a)).
Qed.
Ltac member := (left; reflexivity) + (right; member).
Lemma displaced n : 1 <= n <= 5 -> tariff_code (0x30 + n) /\ exists c v, In (0x3A + n, c) main_table /\
  (forall cf rest b, vib_try_from cf ([0xFD; 0x30 + n] ++ rest) = Ok b -> value_information_try_from b = Ok v) /\ vi_labels v = c_labels c.
Proof.
  intros H. assert (E : n = 1 \/ n = 2 \/ n = 3 \/ n = 4 \/ n = 5) by lia. split; [unfold tariff_code; lia|].
  assert (R : forall code v, code < 128 -> value_information_try_from (block [0xFD; code]) = Ok v ->
    forall cf rest b, vib_try_from cf ([0xFD; code] ++ rest) = Ok b -> value_information_try_from b = Ok v).
  { intros code v Hc Hv cf rest b Hb. rewrite (block_read cf [0xFD; code] rest) in Hb; [|split; [lia|exact Hc]|vm_compute; discriminate|reflexivity]. apply Ok_inj in Hb. now subst b. }
  destruct E as [E|[E|[E|[E|E]]]]; subst n;
    (eexists; eexists; split; [|split; [apply R; [reflexivity|vm_compute; reflexivity]|]];
     [lazymatch goal with |- In _ ?t => let t' := eval vm_compute in t in change t with t' end;
      lazymatch goal with |- In (?k, _) _ => let k' := eval vm_compute in k in change k with k' end;
      member | reflexivity]).
Qed.
Lemma every_code b vif : In vif [0xFD; 0xFB] -> b < 128 ->
  exists v, value_information_try_from (block [vif; b]) = Ok v /\ vi_labels v <> [].
Proof.
  intros Hv Hb.
  assert (F : forallb (fun vif => forallb (fun b => match value_information_try_from (block [vif; b]) with Ok v => match vi_labels v with [] => false | _ => true end | _ => false end)
    (map N.of_nat (seq 0 128))) [0xFD; 0xFB] = true) by (vm_compute; reflexivity).
  rewrite forallb_forall in F. specialize (F _ Hv). rewrite forallb_forall in F.
  assert (I : In b (map N.of_nat (seq 0 128))) by (apply in_map_iff; exists (N.to_nat b); split; [lia|apply in_seq; lia]).
  specialize (F _ I). cbv beta in F. destruct (value_information_try_from (block [vif; b])) as [v| |]; try discriminate F. exists v. split; [reflexivity|].
  intros K. rewrite K in F. discriminate F.
Qed.
Lemma every_code_read b vif cf rest : In vif [0xFD; 0xFB] -> b < 128 ->
  exists v, information cf [vif; b] rest (Ok v) /\ vi_labels v <> [].
Proof.
  intros Hv Hb. destruct (every_code b vif Hv Hb) as (v & V & L). exists v. split; [|exact L].
  exists (block [vif; b]). split; [|split; [reflexivity|exact V]]. apply block_read; [|vm_compute; discriminate|].
  - split; [|exact Hb]. destruct Hv as [<-|[<-|[]]]; lia.
  - destruct Hv as [<-|[<-|[]]]; reflexivity.
Qed.
Lemma information_block cf bytes rest o : chained bytes -> len bytes <= 11 -> contains_ascii (hd 0 bytes) = false ->
  value_information_try_from (block bytes) = o -> information cf bytes rest o.
Proof. intros H L A E. exists (block bytes). split; [now apply block_read|split; [|exact E]]. apply block_size. intros ->. exact H. Qed.
Lemma second_level cf rest : exists v, information cf [0xFD; 0xFD; 0x02] rest (Ok v) /\ vi_labels v = [LRemainingBatteryLifeTime; LReservedForObjectActions].
Proof. eexists. split; [apply information_block; [repeat split; lia|vm_compute; discriminate|reflexivity|vm_compute; reflexivity]|reflexivity]. Qed.
Lemma maker_extensions cf rest : exists v w, information cf [0x93; 0x7F] rest (Ok v) /\ information cf [0x93; 0xFF; 0x20] rest (Ok w) /\ vi_units v <> vi_units w.
Proof.
  eexists; eexists. split; [apply information_block; [repeat split; lia|vm_compute; discriminate|reflexivity|vm_compute; reflexivity]|].
  split; [apply information_block; [repeat split; lia|vm_compute; discriminate|reflexivity|vm_compute; reflexivity]|]. discriminate.
Qed.
Lemma constant_one cf rest : exists a v, In (0x7B, a) combinable_table /\ c_offset a = 0%Z /\
  information cf [0x13] rest (Ok v) /\ information cf [0x93; 0x7B] rest (Ok v).
Proof.
  exists (says [] [] 0). eexists. split; [|split; [reflexivity|split; (apply information_block; [repeat split; lia|vm_compute; discriminate|reflexivity|vm_compute; reflexivity])]].
  lazymatch goal with |- In _ ?t => let t' := eval vm_compute in t in change t with t' end. member.
Qed.
Ltac in_table := lazymatch goal with |- In _ ?t => let t' := eval vm_compute in t in change t with t' end;
      lazymatch goal with |- In (?k, _) _ => let k' := eval vm_compute in k in change k with k' end; member.
Definition kvarh : contribution := says [LReactiveEnergy] [(UReactiveWatt, 1%Z); (UHour, 1%Z)] 4.
Lemma quantity_example : quantity main_kept alternate_kept [0xFB; 0x03] kvarh [] /\ chained [0xFB; 0x03] /\
  quantity main_kept alternate_kept [0xFD; 0x48] (says [LVoltage] [(UVolt, 1%Z)] (-1)) [].
Proof. split; [|split; [repeat split; lia|]]; constructor; in_table. Qed.
Definition kvarh_combined : contribution :=
  {| c_labels := [LReactiveEnergy; LAtPhaseL2]; c_units := c_units kvarh ++ [{| u_name := UDay; u_exponent := (-1)%Z |}]; c_scale := 2; c_offset := (-1)%Z |}.
Lemma combined_example : chained [0xFB; 0x83; 0xFC; 0x82; 0xA3; 0xF4; 0x7A] /\
  quantity main_kept alternate_kept [0xFB; 0x83; 0xFC; 0x82; 0xA3; 0xF4; 0x7A] kvarh [0xFC; 0x82; 0xA3; 0xF4; 0x7A] /\
  combined combinable_kept kvarh [0xFC; 0x82; 0xA3; 0xF4; 0x7A] kvarh_combined /\ fits kvarh_combined = true.
Proof.
  split; [repeat split; lia|]. split; [constructor; in_table|]. split; [|reflexivity].
  eapply combined_more; [in_table|]. eapply combined_one; [discriminate|in_table|]. eapply combined_one; [discriminate|in_table|].
  eapply combined_one; [discriminate|in_table|]. apply combined_none.
Qed.
Lemma quantity_fits bytes c more : Forall (fun b => b < 256) bytes -> quantity main_kept alternate_kept bytes c more -> fits c = true.
Proof.
  intros B Q. destruct Q as [b r n m Hp _|b d m Hi|b d m Hi]; inversion B as [|? ? Hb B1]; subst.
  - revert Hp. clear. generalize (code_of b). intros v Hp. revert v r n Hp. refine (rows_all _ _). repeat constructor.
  - inversion B1 as [|? ? K B2]; subst. exact (proj2 (main_meaning None b _ K Hi)).
  - inversion B1 as [|? ? K B2]; subst. exact (proj2 (alternate_meaning b _ K Hi)).
Qed.
Lemma quantity_alone cf bytes rest c :
  chained bytes -> len bytes <= 11 -> quantity main_kept alternate_kept bytes c [] -> information cf bytes rest (Ok (meaning c)).
Proof.
  intros H L Q. pose proof (bytes_meaning cf bytes rest c [] c H L Q (combined_none _ c)) as I.
  now rewrite (quantity_fits _ _ _ (chain_bytes _ H) Q) in I.
Qed.
