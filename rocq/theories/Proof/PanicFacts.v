(** When record parsing panics. *)
From Verif Require Import Proof.BaseFacts Proof.CoreFacts Model.Core Model.F64 Model.DataInfo Model.ValueInfo
  Model.Record Spec.RecordSpec Proof.RecordFacts Proof.IterFacts Proof.HeaderFacts Proof.HeaderProps.

(** *** Capacity of labels and units *)
Definition cost_ok (l u : N) (ops : list vi_op) : bool :=
  (len (labels_of ops) <=? l) && (len (units_of ops) <=? u).

Lemma cost_ok_spec l u ops : cost_ok l u ops = true -> len (labels_of ops) <= l /\ len (units_of ops) <= u.
Proof. unfold cost_ok; lia. Qed.

Lemma orth_cost v : v < 256 -> cost_ok 1 2 (orth_ops v) = true.
Proof. exact (sweep256 (fun v => cost_ok 1 2 (orth_ops v)) eq_refl v). Qed.
Lemma orth_ext_cost v : v < 256 -> cost_ok 1 2 (orth_extension_ops v) = true.
Proof. exact (sweep256 (fun v => cost_ok 1 2 (orth_extension_ops v)) eq_refl v). Qed.
Lemma primary_cost v : v < 256 ->
  match primary_ops v with Some ops => cost_ok 1 2 ops | None => true end = true.
Proof. exact (sweep256 (fun v => match primary_ops v with Some ops => cost_ok 1 2 ops | None => true end) eq_refl v). Qed.
Lemma alternate_cost v : v < 256 -> cost_ok 1 2 (alternate_ops v) = true.
Proof. exact (sweep256 (fun v => cost_ok 1 2 (alternate_ops v)) eq_refl v). Qed.
Lemma main_cost v w : v < 256 -> cost_ok 2 2 (main_ops v w) = true.
Proof.
  intros H. destruct w as [w|].
  2:{ exact (sweep256 (fun v => cost_ok 2 2 (main_ops v None)) eq_refl v H). }
  destruct (N.eqb_spec (N.land v 0x7F) 0x7D) as [E|E].
  - unfold main_ops. rewrite E. cbn [N.leb N.eqb N.compare Pos.compare Pos.compare_cont Pos.eqb andb].
    repeat match goal with |- context [if ?b then _ else _] => destruct b end; reflexivity.
  - assert (G : main_ops v (Some w) = main_ops v None).
    { unfold main_ops. destruct (N.eqb_spec (N.land v 0x7F) 0x7D); [contradiction|]. reflexivity. }
    rewrite G. exact (sweep256 (fun v => cost_ok 2 2 (main_ops v None)) eq_refl v H).
Qed.

Lemma runs_cost l u ops s :
  cost_ok l u ops = true -> len (vi_labels s) + l <= 10 -> len (vi_units s) + u <= 10 ->
  exists s', vi_runs ops s = Ok s' /\ len (vi_labels s') <= len (vi_labels s) + l /\
             len (vi_units s') <= len (vi_units s) + u.
Proof.
  intros Hc Hl Hu; apply cost_ok_spec in Hc; destruct Hc.
  exists (vi_effect ops s); split; [apply vi_runs_enough; lia|].
  unfold vi_effect; cbn [vi_labels vi_units]; rewrite !len_app; lia.
Qed.

Lemma consume_enough vs ext s :
  bytes_ok vs -> len (vi_labels s) + len vs <= 10 -> len (vi_units s) + 2 * len vs <= 10 ->
  is_ok (consume_orthogonal vs ext s).
Proof.
  intros Hb; revert ext s; induction vs as [|v vs IH]; intros ext s Hl Hu; cbn [consume_orthogonal];
    [eexists; reflexivity|].
  apply bytes_ok_cons in Hb; destruct Hb as [Hv Hb]. rewrite len_cons in *.
  destruct (v =? 0xFC); [apply IH; auto; lia|].
  destruct ext.
  - destruct (runs_cost 1 2 (orth_extension_ops v) s) as (s' & -> & ? & ?);
      [apply orth_ext_cost; assumption|lia|lia|]. cbn [bind]. apply IH; auto; lia.
  - destruct (runs_cost 1 2 (orth_ops v) s) as (s' & -> & ? & ?);
      [apply orth_cost; assumption|lia|lia|]. cbn [bind]. apply IH; auto; lia.
Qed.

Lemma coding_from_panic {E} vif :
  vif < 256 -> is_panic (value_information_coding_from (E := E) vif) -> vif = 0x7D.
Proof.
  intros Hv [p H]. unfold value_information_coding_from in H.
  destruct ((vif <=? 0x7B) || ((0x80 <=? vif) && (vif <=? 0xFA))) eqn:E0; [discriminate|].
  destruct (N.eqb_spec vif 0x7C); [discriminate|]. destruct (N.eqb_spec vif 0xFC); [discriminate|].
  cbn [orb] in H.
  destruct (N.eqb_spec vif 0xFD); [discriminate|]. destruct (N.eqb_spec vif 0xFB); [discriminate|].
  destruct (N.eqb_spec vif 0x7E); [discriminate|]. destruct (N.eqb_spec vif 0xFE); [discriminate|].
  destruct (N.eqb_spec vif 0x7F); [discriminate|]. destruct (N.eqb_spec vif 0xFF); [discriminate|]. lia.
Qed.

Lemma ok_not_panic {E A} (x : outcome E A) : is_ok x -> ~ is_panic x.
Proof. intros [a ->] [p H]; discriminate. Qed.

Definition vifes_of (b : value_information_block) : list N :=
  match vib_vifes b with Some l => l | None => [] end.

Lemma tail_bytes (vs : list N) : bytes_ok vs ->
  bytes_ok (match get_from vs 1 with Some l => l | None => [] end).
Proof.
  intros Hb. destruct vs as [|v vs]; [constructor|].
  change (v :: vs) with ([v] ++ vs). rewrite (get_from_app_n [v] vs) by reflexivity.
  apply bytes_ok_cons in Hb; tauto.
Qed.

Lemma tail_len (vs : list N) v : get vs 0 = Some v ->
  len (match get_from vs 1 with Some l => l | None => [] end) + 1 = len vs.
Proof.
  destruct vs as [|w vs]; [discriminate|]. intros _.
  change (w :: vs) with ([w] ++ vs). rewrite (get_from_app_n [w] vs) by reflexivity.
  rewrite len_app. change (len [w]) with 1. lia.
Qed.

Lemma get_byte vs v : bytes_ok vs -> get vs 0 = Some v -> v < 256.
Proof. destruct vs as [|w vs]; [discriminate|]. intros Hb H; injection H as <-. apply bytes_ok_cons in Hb; apply Hb. Qed.

Lemma value_information_panic b :
  bytes_ok (vib_vif b :: vifes_of b) -> is_panic (value_information_try_from b) ->
  vib_vif b = 0x7D \/ 5 <= len (vifes_of b).
Proof.
  intros Hb Hp. apply bytes_ok_cons in Hb; destruct Hb as [Hv Hb].
  destruct (N.lt_ge_cases (len (vifes_of b)) 5) as [Hl|]; [left|right; assumption].
  unfold value_information_try_from in Hp. fold (vifes_of b) in Hp.
  apply is_panic_bind in Hp; destruct Hp as [Hp|(c & _ & Hp)]; [eapply coding_from_panic; eassumption|].
  exfalso. destruct c; cbv zeta in Hp.
  - pose proof (primary_cost _ Hv) as Hc. destruct (primary_ops (vib_vif b)) as [ops|].
    2:{ cbn [ok_or bind] in Hp; panic_steps Hp. }
    cbn [ok_or bind] in Hp.
    destruct (runs_cost 1 2 ops vi_init Hc) as (s' & E & ? & ?); [discriminate|discriminate|].
    rewrite E in Hp; cbn [bind] in Hp. cbn [vi_init vi_labels vi_units] in *.
    change (len (@nil value_label)) with 0 in *; change (len (@nil unit_)) with 0 in *.
    eapply ok_not_panic; [|exact Hp]. apply consume_enough; auto; lia.
  - cbn [vi_runs vi_run vi_init vi_labels] in Hp. change (len (@nil value_label)) with 0 in Hp.
    cbn [N.ltb N.compare bind] in Hp.
    eapply ok_not_panic; [|exact Hp]. apply consume_enough; auto; cbn; rewrite ?len_cons, ?len_nil; try lia.
  - apply is_panic_bind in Hp; destruct Hp as [Hp|(f & Hf & Hp)]; [destruct (is_panic_ok_or _ _ Hp)|].
    apply ok_or_ok in Hf.
    destruct (runs_cost 2 2 (main_ops f (get (vifes_of b) 1)) vi_init) as (s' & E & ? & ?);
      [apply main_cost; eapply get_byte; eassumption|discriminate|discriminate|].
    rewrite E in Hp; cbn [bind] in Hp. cbn [vi_init vi_labels vi_units] in *.
    change (len (@nil value_label)) with 0 in *; change (len (@nil unit_)) with 0 in *.
    pose proof (tail_len _ _ Hf).
    eapply ok_not_panic; [|exact Hp]. apply consume_enough; [apply tail_bytes; assumption|lia|lia].
  - apply is_panic_bind in Hp; destruct Hp as [Hp|(f & Hf & Hp)]; [destruct (is_panic_ok_or _ _ Hp)|].
    apply ok_or_ok in Hf.
    destruct (runs_cost 1 2 (alternate_ops f) vi_init) as (s' & E & ? & ?);
      [apply alternate_cost; eapply get_byte; eassumption|discriminate|discriminate|].
    rewrite E in Hp; cbn [bind] in Hp. cbn [vi_init vi_labels vi_units] in *.
    change (len (@nil value_label)) with 0 in *; change (len (@nil unit_)) with 0 in *.
    pose proof (tail_len _ _ Hf).
    eapply ok_not_panic; [|exact Hp]. apply consume_enough; [apply tail_bytes; assumption|lia|lia].
  - destruct Hp as [p Hp]; discriminate.
Qed.

(** *** The VIF block *)
Lemma vife_loop_panic data acc :
  len acc <= 10 -> is_panic (vife_loop data acc) ->
  exists m b r, data = m ++ b :: r /\ len acc + len m = 10 /\
    Forall (fun x => has_extension x = true) m.
Proof.
  revert acc; induction data as [|x data IH]; intros acc Hl Hp; cbn [vife_loop] in Hp.
  - destruct (is_panic_Ok _ Hp).
  - unfold MAX_VIFE_RECORDS in *. destruct (N.ltb_spec (len acc) 10) as [H|H].
    + cbv zeta in Hp. destruct (has_extension x) eqn:Ex; cbn [negb] in Hp; [|destruct (is_panic_Ok _ Hp)].
      destruct (10 <? len (acc ++ [x])) eqn:El; [destruct (is_panic_Err _ Hp)|].
      destruct (IH (acc ++ [x])) as (m & b & r & -> & Hm & Hf); [lia|assumption|].
      exists (x :: m), b, r. rewrite len_app, len_cons, len_nil in Hm. repeat split; auto.
      rewrite len_cons; lia.
    + exists [], x, data; repeat split; auto. rewrite len_nil; lia.
Qed.

Lemma extract_panic data :
  is_panic (extract_plaintext_vife data) -> exists chars t, data = len chars :: chars ++ t /\ 9 < len chars.
Proof.
  unfold extract_plaintext_vife; intros Hp.
  apply is_panic_bind in Hp; destruct Hp as [Hp|(n & Hn & Hp)]; [destruct (is_panic_ok_or _ _ Hp)|].
  apply is_panic_bind in Hp; destruct Hp as [Hp|(items & Hi & Hp)]; [destruct (is_panic_ok_or _ _ Hp)|].
  apply ok_or_ok in Hn, Hi. destruct (N.ltb_spec 9 (len items)); [|destruct (is_panic_Ok _ Hp)].
  destruct data as [|x data]; [discriminate|]. injection Hn as ->.
  apply get_range_split in Hi. destruct Hi as (q & r & E & Hq & Hl).
  destruct q as [|y [|z q]]; [rewrite len_nil in Hq; lia| |rewrite !len_cons in Hq; lia].
  cbn [app] in E; injection E as <- ->. exists items, r; split; [|assumption]. f_equal; lia.
Qed.

Lemma first_five (m : list N) b r :
  len m = 10 -> Forall (fun x => has_extension x = true) m -> bytes_ok m ->
  exists v1 v2 v3 v4 v5 t, m ++ b :: r = v1 :: v2 :: v3 :: v4 :: v5 :: t /\ Forall extends [v1; v2; v3; v4].
Proof.
  intros Hl Hf Hb.
  destruct m as [|v1 [|v2 [|v3 [|v4 [|v5 m]]]]]; try (unfold len in Hl; cbn in Hl; lia).
  exists v1, v2, v3, v4, v5, (m ++ b :: r); split; [reflexivity|].
  apply (ext_Forall (v1 :: v2 :: v3 :: v4 :: v5 :: m) Hb) in Hf.
  repeat match goal with H : Forall _ (_ :: _) |- _ => inversion H; clear H; subst end.
  repeat constructor; assumption.
Qed.

Lemma ext_bytes b : b < 256 -> has_extension b = true <-> extends b.
Proof. intros H; rewrite has_extension_spec by assumption; unfold extends; lia. Qed.

Lemma ascii_cases vif : contains_ascii vif = true <-> vif = 0x7C \/ vif = 0xFC.
Proof. unfold contains_ascii; rewrite orb_true_iff, !N.eqb_eq; reflexivity. Qed.

Definition vif_cause (cf : config) (data : list N) : Prop :=
  (exists vif text v1 v2 v3 v4 v5 t, data = vif :: text ++ v1 :: v2 :: v3 :: v4 :: v5 :: t /\ extends vif /\
    (text = [] \/ plaintext_before_extension cf = true /\ vif = 0xFC /\ counted text) /\
    Forall extends [v1; v2; v3; v4]) \/
  (exists vif vifes chars t, data = vif :: vifes ++ len chars :: chars ++ t /\
    (if plaintext_before_extension cf then (vif = 0x7C \/ vif = 0xFC) /\ vifes = []
     else vif = 0xFC /\ chain vifes) /\ 9 < len chars).

Lemma vib_panic cf data :
  bytes_ok data -> is_panic (vib_try_from cf data) -> vif_cause cf data.
Proof.
  intros Hb Hp. unfold vib_try_from in Hp.
  apply is_panic_bind in Hp; destruct Hp as [Hp|(vif & Hv & Hp)]; [destruct (is_panic_ok_or _ _ Hp)|].
  apply ok_or_ok in Hv. destruct data as [|w data]; [discriminate|]. injection Hv as ->.
  pose proof Hb as Hb'; apply bytes_ok_cons in Hb'; destruct Hb' as [Hvif Hd].
  cbv zeta in Hp. rewrite negb_involutive in Hp.
  destruct (plaintext_before_extension cf) eqn:P; cbn [andb negb] in Hp.
  - apply is_panic_bind in Hp; destruct Hp as [Hp|(pt & Hpt & Hp)].
    + destruct (contains_ascii vif) eqn:C; [|destruct (is_panic_Ok _ Hp)].
      apply ascii_cases in C. change (get_from (vif :: data) 1) with (get_from ([vif] ++ data) 1) in Hp.
      rewrite (get_from_app_n [vif] data) in Hp by reflexivity. cbn [ok_or bind] in Hp.
      apply is_panic_bind in Hp; destruct Hp as [Hp|(? & _ & Hp)]; [|destruct (is_panic_Ok _ Hp)].
      apply extract_panic in Hp; destruct Hp as (chars & t & -> & Hl).
      right. exists vif, [], chars, t; rewrite P; repeat split; auto.
    + apply is_panic_bind in Hp; destruct Hp as [Hp|([vs pt'] & _ & Hp)]; [|destruct (is_panic_Ok _ Hp)].
      destruct (has_extension vif) eqn:E; [|destruct (is_panic_Ok _ Hp)].
      apply is_panic_bind in Hp; destruct Hp as [Hp|(? & _ & Hp)]; [|destruct (is_panic_Ok _ Hp)].
      assert (exists text rest, data = text ++ rest /\
                (text = [] \/ vif = 0xFC /\ counted text) /\
                skipn (N.to_nat match pt with Some chars => 2 + len chars | None => 1 end) (vif :: data) = rest)
        as (text & rest & -> & Ht & Hs).
      { destruct (contains_ascii vif) eqn:C.
        - apply ascii_cases in C. destruct C as [->| ->]; [discriminate|].
          change (get_from (0xFC :: data) 1) with (get_from ([0xFC] ++ data) 1) in Hpt.
          rewrite (get_from_app_n [0xFC] data) in Hpt by reflexivity. cbn [ok_or bind] in Hpt.
          bind_inv Hpt. apply extract_ok in Ha. destruct Ha as (r & -> & _).
          apply Ok_inj in Hpt; subst pt. exists (len a :: a), r; repeat split.
          + right; split; [reflexivity|]. exists a; reflexivity.
          + change (0xFC :: len a :: a ++ r) with ((0xFC :: len a :: a) ++ r).
            replace (N.to_nat (2 + len a)) with (length (0xFC :: len a :: a))
              by (cbn [length]; unfold len; lia).
            rewrite skipn_app, skipn_all, Nat.sub_diag; reflexivity.
        - apply Ok_inj in Hpt; subst pt. exists [], data; repeat split; auto. }
      rewrite Hs in Hp. apply vife_loop_panic in Hp; [|unfold len; cbn; lia].
      destruct Hp as (m & b & r & -> & Hm & Hf).
      assert (Hbm : bytes_ok m) by (apply bytes_ok_app in Hd; destruct Hd as [_ Hd]; apply bytes_ok_app in Hd; tauto).
      change (len (@nil N)) with 0 in Hm.
      destruct (first_five m b r) as (v1 & v2 & v3 & v4 & v5 & t & -> & H4); [lia|assumption|assumption|].
      left. exists vif, text, v1, v2, v3, v4, v5, t. apply ext_bytes in E; [|assumption]. tauto.
  - cbn [bind] in Hp.
    apply is_panic_bind in Hp; destruct Hp as [Hp|([vs pt'] & _ & Hp)]; [|destruct (is_panic_Ok _ Hp)].
    destruct (has_extension vif) eqn:E; [|destruct (is_panic_Ok _ Hp)].
    change (skipn (N.to_nat 1) (vif :: data)) with data in Hp.
    apply is_panic_bind in Hp; destruct Hp as [Hp|(vs & Hvs & Hp)].
    + apply vife_loop_panic in Hp; [|unfold len; cbn; lia].
      destruct Hp as (m & b & r & -> & Hm & Hf).
      assert (Hbm : bytes_ok m) by (apply bytes_ok_app in Hd; tauto).
      change (len (@nil N)) with 0 in Hm.
      destruct (first_five m b r) as (v1 & v2 & v3 & v4 & v5 & t & -> & H4); [lia|assumption|assumption|].
      left. exists vif, [], v1, v2, v3, v4, v5, t. apply ext_bytes in E; [|assumption]. cbn [app]; tauto.
    + destruct (contains_ascii vif) eqn:C; [|destruct (is_panic_Ok _ Hp)].
      apply ascii_cases in C. destruct C as [->| ->]; [discriminate|].
      apply vife_loop_ok in Hvs. destruct Hvs as (p & r & -> & E1 & _ & Hc). cbn [app] in E1; subst vs.
      change (get_from (0xFC :: p ++ r) (1 + len p)) with (get_from ((0xFC :: p) ++ r) (1 + len p)) in Hp.
      rewrite (get_from_app_n (0xFC :: p) r) in Hp by (rewrite len_cons; lia). cbn [ok_or bind] in Hp.
      apply is_panic_bind in Hp; destruct Hp as [Hp|(? & _ & Hp)]; [|destruct (is_panic_Ok _ Hp)].
      apply extract_panic in Hp; destruct Hp as (chars & t & -> & Hl).
      right. exists 0xFC, p, chars, t; rewrite P; repeat split; auto.
      destruct Hc as [Hc|[Hc _]]; [|discriminate].
      apply xchain_chain; [|assumption]. apply bytes_ok_app in Hd; tauto.
Qed.

(** *** Data *)
Lemma integer_loop_shift l acc s : snd (integer_loop l acc s) = s + 8 * len l.
Proof.
  revert acc s; induction l as [|b l IH]; intros acc s; cbn [integer_loop].
  - change (len (@nil N)) with 0; cbn [snd]; lia.
  - rewrite IH, len_cons; lia.
Qed.

Lemma integer_panic cf input n :
  is_panic (integer_to_value cf input n) -> n = 0 /\ overflow_checks cf = true.
Proof.
  unfold integer_to_value. destruct (N.ltb_spec (len input) n) as [|Hl]; [intros Hp; destruct (is_panic_Err _ Hp)|].
  unfold integer_to_value_internal. intros Hp.
  set (f := firstn _ _) in Hp. pose proof (integer_loop_shift f 0 0) as Hs.
  destruct (integer_loop f 0 0) as [bits shift]; cbn [snd] in Hs.
  apply is_panic_bind in Hp; destruct Hp as [Hp|(? & _ & Hp)]; [|destruct (is_panic_Ok _ Hp)].
  destruct (N.leb_spec 1 shift) as [|Hsh]; [destruct (is_panic_Ok _ Hp)|].
  destruct (overflow_checks cf) eqn:O; [|destruct (is_panic_Ok _ Hp)]. split; [|reflexivity].
  assert (len f = 0) by lia. subst f. unfold len in *. rewrite firstn_length in H.
  destruct (N.ltb_spec 8 n); lia.
Qed.

Lemma bcd_loop_no_panic data n lsb todo i v w : ~ is_panic (bcd_value_loop data n lsb todo i v w).
Proof.
  revert i v w; induction todo as [|todo IH]; intros i v w Hp; cbn [bcd_value_loop] in Hp.
  - destruct (is_panic_Ok _ Hp).
  - apply is_panic_bind in Hp; destruct Hp as [Hp|(? & _ & Hp)]; [destruct (is_panic_ok_or _ _ Hp)|].
    cbv zeta in Hp. match type of Hp with is_panic (if ?b then _ else _) => destruct b end.
    + destruct (is_panic_Err _ Hp).
    + exact (IH _ _ _ Hp).
Qed.

Lemma bcd_no_panic data n s lsb : ~ is_panic (bcd_to_value_internal data n s lsb).
Proof.
  unfold bcd_to_value_internal; intros Hp. destruct (_ <? _); [destruct (is_panic_Err _ Hp)|].
  apply is_panic_bind in Hp; destruct Hp as [Hp|(? & _ & Hp)]; [destruct (bcd_loop_no_panic _ _ _ _ _ _ _ Hp)|].
  destruct (is_panic_Ok _ Hp).
Qed.

Lemma variable_panic cf input lsb :
  is_panic (parse_variable_length cf input lsb) ->
  overflow_checks cf = true /\ exists t, input = 0xE0 :: t.
Proof.
  unfold parse_variable_length; intros Hp.
  apply is_panic_bind in Hp; destruct Hp as [Hp|(n & Hn & Hp)]; [destruct (is_panic_ok_or _ _ Hp)|].
  apply ok_or_ok in Hn. destruct input as [|x t]; [discriminate|]. injection Hn as ->.
  cbv zeta in Hp.
  destruct (n <=? 0xBF) eqn:?; [panic_steps Hp|].
  destruct ((0xC0 <=? n) && (n <=? 0xC9)) eqn:?.
  { panic_steps Hp. destruct (bcd_no_panic _ _ _ _ Hp). }
  destruct ((0xD0 <=? n) && (n <=? 0xD9)) eqn:?.
  { panic_steps Hp. destruct (bcd_no_panic _ _ _ _ Hp). }
  destruct ((0xE0 <=? n) && (n <=? 0xEF)) eqn:?.
  { panic_steps Hp. apply integer_panic in Hp. split; [tauto|].
    exists t. f_equal. lia. }
  destruct ((0xF0 <=? n) && (n <=? 0xF4)) eqn:?.
  { panic_steps Hp. apply integer_panic in Hp. lia. }
  destruct (n =? 0xF5) eqn:?.
  { panic_steps Hp. apply integer_panic in Hp. lia. }
  destruct (n =? 0xF6) eqn:?.
  { panic_steps Hp. apply integer_panic in Hp. lia. }
  destruct (is_panic_Err _ Hp).
Qed.

Lemma coding_panic cf c input hdr :
  is_panic (coding_parse cf c input hdr) ->
  c = CVariableLength /\ overflow_checks cf = true /\ exists t, input = 0xE0 :: t.
Proof.
  intros Hp. destruct c as [ | | | | | | | | | | | | | | |s| | | | ]; cbn [coding_parse] in Hp;
    try (apply integer_panic in Hp; destruct Hp; discriminate);
    try (destruct (bcd_no_panic _ _ _ _ Hp));
    try (apply variable_panic in Hp; auto; fail);
    try (destruct s); panic_steps Hp.
Qed.

(** *** The record *)
Lemma app_inj_length {A} (a b c d : list A) : a ++ b = c ++ d -> length a = length c -> a = c /\ b = d.
Proof.
  revert c; induction a as [|x a IH]; intros [|y c] H Hl; cbn in *; try discriminate; auto.
  injection H as -> H. destruct (IH c H) as [-> ->]; auto.
Qed.

Lemma dib_chain data b d r :
  bytes_ok data -> data = d ++ r -> len d = dib_get_size b ->
  is_special_function (dib_dif b) = false ->
  dib_try_from data = Ok b -> dif_chain (dib_dif b) d.
Proof.
  intros Hb E Hl Hs H. apply dib_accepts in H; [|assumption].
  split.
  { intros C. apply special_is_15 in C. congruence. }
  destruct H as [(dif & rest & E2 & Hd & ->)|(dif & difes & rest & E2 & Hd & Hc & Hn & ->)];
    unfold dib_get_size in Hl; cbn [dib_dif dib_difes] in *.
  - exists []. split; [|left; auto].
    destruct d as [|x [|y d]]; [rewrite len_nil in Hl; lia| |rewrite !len_cons in Hl; lia].
    rewrite E in E2; cbn in E2; injection E2 as -> _; reflexivity.
  - exists difes. split; [|right; auto].
    rewrite E in E2. change (dif :: difes ++ rest) with ((dif :: difes) ++ rest) in E2.
    apply app_inj_length in E2; [tauto|]. unfold len in *; cbn [length]; lia.
Qed.

Lemma shape_chain cf v r : vib_shape cf v r -> r <> [] -> bytes_ok (vib_bytes cf v) ->
  vif_chain cf (vib_vif v) (vib_bytes cf v).
Proof.
  intros [H1 H2] Hr Hb. unfold vib_bytes in *.
  apply bytes_ok_cons in Hb; destruct Hb as [Hv Hb].
  assert (Hvs : bytes_ok (vife_bytes (vib_vifes v)))
    by (destruct (plaintext_before_extension cf); apply bytes_ok_app in Hb; tauto).
  exists (vife_bytes (vib_vifes v)), (plain_bytes (vib_plaintext v)). split; [|split; [|reflexivity]].
  - destruct (vib_vifes v) as [l|]; cbn [vife_bytes] in *.
    + right. destruct H1 as (He & _ & _ & Hc). rewrite <- ext_bytes by assumption. split; [assumption|].
      destruct Hc as [Hc|[Hc _]]; [|contradiction]. apply xchain_chain; assumption.
    + left. destruct H1 as [He|[? _]]; [|contradiction]. split; [|reflexivity].
      rewrite has_extension_spec in He by assumption. lia.
  - destruct (vib_plaintext v) as [t|]; cbn [plain_bytes]; [right|left; reflexivity].
    split; [apply ascii_cases; tauto|]. exists t; reflexivity.
Qed.

Lemma record_panic cf data hdr :
  bytes_ok data -> is_panic (data_record_parse cf data hdr) -> panic_cause cf data.
Proof.
  intros Hb Hp. unfold data_record_parse in Hp.
  apply is_panic_bind in Hp; destruct Hp as [Hp|(h & Hh & Hp)].
  - unfold header_try_from in Hp.
    apply is_panic_bind in Hp; destruct Hp as [Hp|(raw & Hraw & Hp)].
    + unfold raw_header_try_from, from_die in Hp.
      apply is_panic_bind in Hp; destruct Hp as [Hp|(b & Hd & Hp)].
      { apply (proj1 (is_panic_map_err _ _)) in Hp. destruct (dib_no_panic _ Hp). }
      apply map_err_ok in Hd. cbv zeta in Hp.
      destruct (is_special_function (dib_dif b)) eqn:S; cbn [negb] in Hp; [destruct (is_panic_Ok _ Hp)|].
      pose proof (dib_split _ _ Hd) as (d & r & E & Hl & _ & _ & _).
      rewrite E, (get_from_app_n d r) in Hp by assumption. cbn [ok_or bind] in Hp.
      apply is_panic_bind in Hp; destruct Hp as [Hp|(? & _ & Hp)]; [|destruct (is_panic_Ok _ Hp)].
      apply (proj1 (is_panic_map_err _ _)) in Hp.
      pose proof (dib_chain data b d r Hb E Hl S Hd) as Hc.
      rewrite E in Hb; apply bytes_ok_app in Hb; destruct Hb as [_ Hb].
      apply vib_panic in Hp; [|assumption]. subst data.
      destruct Hp as [(vif & text & v1 & v2 & v3 & v4 & v5 & t & -> & ? & ? & ?)|(vif & vifes & chars & t & -> & ? & ?)].
      * eapply pc_vifes; eassumption.
      * eapply pc_text; eassumption.
    + apply is_panic_bind in Hp; destruct Hp as [Hp|(? & _ & Hp)]; [|destruct (is_panic_Ok _ Hp)].
      pose proof (raw_header_split _ _ _ Hraw) as (d & r & E & Hl & _ & Hdib & Hv).
      unfold processed_header_try_from, from_die in Hp.
      assert (Hdi : ~ is_panic (data_information_try_from (rh_dib raw))).
      { intros [p Hq]. destruct (data_information_fields (rh_dib raw)) as (di & Hdi & _).
        - specialize (Hdib r). rewrite <- E in Hdib. apply dib_accepts in Hdib; [|assumption].
          destruct Hdib as [(dif & rest & E2 & _ & ->)|(dif & difes & rest & E2 & _ & _ & _ & ->)];
            cbn [dib_dif dib_difes]; rewrite E2 in Hb; apply bytes_ok_cons in Hb; apply bytes_ok_cons; split;
            try tauto; [constructor|]. destruct Hb as [_ Hb]; apply bytes_ok_app in Hb; tauto.
        - specialize (Hdib r). rewrite <- E in Hdib. apply dib_accepts in Hdib; [|assumption].
          destruct Hdib as [(dif & rest & E2 & _ & ->)|(dif & difes & rest & E2 & _ & _ & ? & ->)];
            cbn [dib_difes]; auto.
        - congruence. }
      destruct Hv as [[Hs Hv]|[Hs (v & r2 & Hv & Er & Hsh)]]; rewrite Hv in Hp.
      * rewrite Hs in Hp.
        apply is_panic_bind in Hp; destruct Hp as [Hp|(? & _ & Hp)]; [|destruct (is_panic_Ok _ Hp)].
        apply (proj1 (is_panic_map_err _ _)) in Hp. contradiction.
      * apply is_panic_bind in Hp; destruct Hp as [Hp|(? & _ & Hp)].
        2:{ apply is_panic_bind in Hp; destruct Hp as [Hp|(? & _ & Hp)]; [|destruct (is_panic_Ok _ Hp)].
            apply (proj1 (is_panic_map_err _ _)) in Hp. contradiction. }
        apply (proj1 (is_panic_map_err _ _)) in Hp.
        pose proof (dib_chain data (rh_dib raw) d r Hb E Hl Hs) as Hc.
        rewrite E in Hc at 1. specialize (Hc (Hdib r)).
        rewrite E, Er in Hb. apply bytes_ok_app in Hb; destruct Hb as [_ Hb].
        apply bytes_ok_app in Hb; destruct Hb as [Hb _].
        assert (Hvb : bytes_ok (vib_vif v :: vifes_of v)).
        { unfold vib_bytes in Hb. apply bytes_ok_cons in Hb; destruct Hb as [Hb1 Hb2].
          apply bytes_ok_cons; split; [assumption|]. unfold vifes_of. fold (vife_bytes (vib_vifes v)).
          destruct (plaintext_before_extension cf); apply bytes_ok_app in Hb2; tauto. }
        pose proof (value_information_panic v Hvb Hp) as [H7|H5].
        -- rewrite E, Er. unfold vib_bytes. rewrite H7. cbn [app]. eapply pc_vif; eassumption.
        -- destruct Hsh as [Hs1 Hs2]. unfold vifes_of in H5, Hvb.
           destruct (vib_vifes v) as [l|] eqn:El; [|unfold len in H5; cbn in H5; lia].
           destruct Hs1 as (He & Hl10 & _ & Hch).
           apply bytes_ok_cons in Hvb; destruct Hvb as [Hvif Hlb].
           destruct l as [|v1 [|v2 [|v3 [|v4 [|v5 l]]]]]; try (unfold len in H5; cbn in H5; lia).
           assert (H4 : Forall extends [v1; v2; v3; v4]).
           { assert (Hx : exists m z, v1 :: v2 :: v3 :: v4 :: v5 :: l = m ++ z /\ len z <= 1 /\
                       Forall (fun x => has_extension x = true) m).
             { destruct Hch as [(m & b & Em & Hm & _)|(_ & Hm & _)].
               - exists m, [b]; repeat split; auto. unfold len; cbn; lia.
               - exists (v1 :: v2 :: v3 :: v4 :: v5 :: l), []; rewrite app_nil_r; repeat split; auto. }
             destruct Hx as (m & z & Em & Hz & Hm).
             assert (Hmb : bytes_ok m) by (rewrite Em in Hlb; apply bytes_ok_app in Hlb; tauto).
             apply ext_Forall in Hm; [|assumption].
             assert (Hlm : 4 <= len m).
             { assert (Hq : len (v1 :: v2 :: v3 :: v4 :: v5 :: l) = len m + len z) by (rewrite Em, len_app; reflexivity).
               lia. }
             destruct m as [|w1 [|w2 [|w3 [|w4 m]]]]; try (unfold len in Hlm; cbn in Hlm; lia).
             cbn [app] in Em. injection Em as -> -> -> -> _.
             repeat match goal with H : Forall _ (_ :: _) |- _ => inversion H; clear H; subst end.
             repeat constructor; assumption. }
           apply ext_bytes in He; [|assumption].
           rewrite E, Er. unfold vib_bytes. rewrite El. cbn [vife_bytes].
           destruct (plaintext_before_extension cf) eqn:P.
           ++ rewrite <- app_comm_cons, <- app_assoc. cbn [app].
              eapply pc_vifes; try eassumption.
              destruct (vib_plaintext v) as [t|]; [right|left; reflexivity].
              split; [assumption|]. destruct Hs2 as (Ha & _ & _). apply ascii_cases in Ha.
              split; [|exists t; reflexivity]. unfold extends in He; lia.
           ++ rewrite <- app_comm_cons. cbn [app].
              apply (pc_vifes cf (dib_dif (rh_dib raw)) d (vib_vif v) [] v1 v2 v3 v4 v5); auto.
  - cbv zeta in Hp. destruct (len data <? header_get_size h); [destruct (is_panic_Err _ Hp)|].
    apply is_panic_bind in Hp; destruct Hp as [Hp|(? & _ & Hp)].
    2:{ panic_steps Hp. }
    destruct (ph_data_information (drh_processed h)) as [di|] eqn:Edi.
    2:{ panic_steps Hp. }
    apply is_panic_bind in Hp; destruct Hp as [Hp|(rest & Hrest & Hp)]; [destruct (is_panic_ok_or _ _ Hp)|].
    apply ok_or_ok in Hrest. apply coding_panic in Hp. destruct Hp as (Hc & Ho & t & ->).
    pose proof (header_coding cf data h di Hb Hh Edi) as Hsel. rewrite Hc in Hsel. cbv zeta in Hsel.
    unfold header_try_from in Hh. bind_inv Hh. bind_inv Hh. apply Ok_inj in Hh; subst h.
    cbn [drh_raw drh_processed] in *.
    pose proof (raw_header_split _ _ _ Ha) as (d & r & E & Hl & _ & Hdib & Hv).
    assert (H13 : forall dif, CVariableLength = data_field_coding_of dif -> dif mod 16 = 13).
    { intros dif. unfold data_field_coding_of; cbv zeta. rewrite land_15.
      repeat match goal with |- context [?x =? ?y] => destruct (N.eqb_spec x y); try discriminate end; auto. }
    destruct Hv as [[Hs Hv]|[Hs (v & r2 & Hv & Er & Hsh)]]; rewrite Hv in Hsel.
    + apply H13 in Hsel. apply special_is_15 in Hs. lia.
    + assert (Hsel' : CVariableLength = data_field_coding_of (dib_dif (rh_dib a))).
      { unfold selected in Hsel. destruct (_ =? 0x6C); [discriminate|]. destruct (_ =? 0x6D); [|assumption].
        destruct (data_field_coding_of (dib_dif (rh_dib a))); discriminate. }
      apply H13 in Hsel'.
      assert (Er2 : r2 = 0xE0 :: t).
      { unfold header_get_size in Hrest; cbn [drh_raw] in Hrest. rewrite Hv in Hrest.
        rewrite E, Er, app_assoc in Hrest.
        rewrite (get_from_app_n (d ++ vib_bytes cf v) r2) in Hrest.
        - injection Hrest as ->; reflexivity.
        - rewrite len_app, Hl, vib_bytes_len; reflexivity. }
      subst r2.
      pose proof (dib_chain data (rh_dib a) d r Hb E Hl Hs) as Hch.
      rewrite E in Hch at 1. specialize (Hch (Hdib r)).
      rewrite E, Er. eapply pc_lvar; try eassumption.
      apply shape_chain with (0xE0 :: t); [assumption|discriminate|].
      rewrite E, Er in Hb. apply bytes_ok_app in Hb; destruct Hb as [_ Hb]. apply bytes_ok_app in Hb; tauto.
Qed.

(** *** The iterator *)
Lemma iter_panic cf data hdr items p :
  bytes_ok data -> records_all cf data hdr = Some items -> In (Panic p) items ->
  exists pre suf, data = pre ++ suf /\ panic_cause cf suf.
Proof.
  intros Hb H Hi. apply records_all_iff in H. revert Hb Hi.
  induction H as [|b rest l Hs _ IH|b t r rest l Hs Hp Hd _ IH|b t e Hs Hp|b t q Hs Hp]; intros Hb Hi.
  - destruct Hi.
  - apply bytes_ok_cons in Hb; destruct Hb as [_ Hb]. destruct (IH Hb Hi) as (pre & suf & -> & Hc).
    exists (b :: pre), suf; auto.
  - rewrite Hd in Hb. apply bytes_ok_app in Hb; destruct Hb as [_ Hb].
    destruct Hi as [Hi|Hi]; [discriminate|]. destruct (IH Hb Hi) as (pre & suf & -> & Hc).
    exists (dr_raw_bytes r ++ pre), suf; split; [|assumption]. rewrite Hd, app_assoc; reflexivity.
  - destruct Hi as [Hi|[]]; discriminate.
  - exists [], (b :: t); split; [reflexivity|]. apply record_panic with hdr; [assumption|]. exists q; assumption.
Qed.
