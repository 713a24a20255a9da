(** Facts about DIF/VIF blocks and single records. *)
From Verif Require Import Proof.BaseFacts Model.Core Model.F64 Model.DataInfo Model.ValueInfo Model.Record
  Spec.RecordSpec.

Ltac bind_inv H :=
  let a := fresh "a" in let Ha := fresh "Ha" in
  apply bind_ok in H; destruct H as (a & Ha & H).

Lemma has_extension_spec b : b < 256 -> has_extension b = (128 <=? b).
Proof.
  intros H; apply Bool.eqb_prop.
  exact (sweep256 (fun b => Bool.eqb (has_extension b) (128 <=? b)) eq_refl b H).
Qed.

(** *** DIB *)

(** extension chains as the code sees them *)
Definition xchain (l : list N) : Prop :=
  exists m b, l = m ++ [b] /\ Forall (fun x => has_extension x = true) m /\ has_extension b = false.

Lemma xchain_chain l : bytes_ok l -> xchain l <-> chain l.
Proof.
  intros Hb; split; intros (m & b & -> & Hm & Hlast); exists m, b; split; [reflexivity| |reflexivity|];
    apply bytes_ok_app in Hb; destruct Hb as [Hb1 Hb2]; apply bytes_ok_cons in Hb2; destruct Hb2 as [Hb2 _];
    (split; [|rewrite ?has_extension_spec in * by assumption; lia]);
    revert Hm Hb1; clear; induction m as [|x m IH]; intros Hm Hb; constructor;
    inversion Hm; subst; apply bytes_ok_cons in Hb; destruct Hb; auto;
    unfold extends in *; rewrite ?has_extension_spec in * by assumption; lia.
Qed.

Lemma count_ext_app m l :
  Forall (fun x => has_extension x = true) m -> count_ext (m ++ l) = len m + count_ext l.
Proof.
  induction 1 as [|x m Hx _ IH]; [reflexivity|].
  cbn [app count_ext]; rewrite Hx, IH, len_cons; lia.
Qed.

Lemma count_ext_split l :
  exists m r, l = m ++ r /\ Forall (fun x => has_extension x = true) m /\ count_ext l = len m /\
              (r = [] \/ exists b r', r = b :: r' /\ has_extension b = false).
Proof.
  induction l as [|x l (m & r & -> & Hm & Hc & Hr)].
  - exists [], []; repeat split; auto.
  - cbn [count_ext]; destruct (has_extension x) eqn:E.
    + exists (x :: m), r; repeat split; auto.
      rewrite len_cons, Hc; lia.
    + exists [], (x :: m ++ r); repeat split; auto.
      right; eauto.
Qed.

Lemma dib_ext dif difes rest :
  has_extension dif = true -> xchain difes -> len difes <= 11 ->
  dib_try_from (dif :: difes ++ rest) = Ok {| dib_dif := dif; dib_difes := Some difes |}.
Proof.
  intros Hd (m & b & -> & Hm & Hb) Hl.
  cbn [dib_try_from]. rewrite <- app_assoc, count_ext_app by assumption.
  cbn [app count_ext]; rewrite Hb, Hd; cbn [andb].
  rewrite len_app, len_cons, len_nil in Hl.
  unfold MAXIMUM_DATA_INFORMATION_SIZE.
  destruct (N.ltb_spec 11 (len m + 0 + 1)) as [H|_]; [lia|].
  destruct (N.ltb_spec (len (m ++ b :: rest)) (len m + 0 + 1)) as [H|_];
    [rewrite len_app, len_cons in H; lia|].
  replace (m ++ b :: rest) with ((m ++ [b]) ++ rest) by (rewrite <- app_assoc; reflexivity).
  replace (len m + 0 + 1) with (len (m ++ [b])) by (rewrite len_app, len_cons, len_nil; lia).
  rewrite get_to_app; reflexivity.
Qed.

Lemma dib_plain dif rest :
  has_extension dif = false ->
  dib_try_from (dif :: rest) = Ok {| dib_dif := dif; dib_difes := None |}.
Proof. intros H; cbn [dib_try_from]; rewrite H; reflexivity. Qed.

Lemma dib_ok data b :
  dib_try_from data = Ok b ->
  (exists dif rest, data = dif :: rest /\ has_extension dif = false /\
                    b = {| dib_dif := dif; dib_difes := None |}) \/
  (exists dif difes rest, data = dif :: difes ++ rest /\ has_extension dif = true /\
                    xchain difes /\ len difes <= 11 /\
                    b = {| dib_dif := dif; dib_difes := Some difes |}).
Proof.
  destruct data as [|dif data]; [discriminate|]; cbn [dib_try_from].
  destruct (has_extension dif) eqn:E; cbn [andb]; intros H.
  2:{ left; apply Ok_inj in H; exists dif, data; auto. }
  right. unfold MAXIMUM_DATA_INFORMATION_SIZE in H.
  destruct (count_ext_split data) as (m & r & -> & Hm & Hc & Hr); rewrite Hc in H.
  destruct (N.ltb_spec 11 (len m + 1)) as [|Hl]; [discriminate|].
  destruct (N.ltb_spec (len (m ++ r)) (len m + 1)) as [|Hs]; [discriminate|].
  destruct Hr as [->|(b' & r' & -> & Hb')]; [rewrite len_app, len_nil in Hs; lia|].
  replace (m ++ b' :: r') with ((m ++ [b']) ++ r') in H by (rewrite <- app_assoc; reflexivity).
  replace (len m + 1) with (len (m ++ [b'])) in H by (rewrite len_app, len_cons, len_nil; lia).
  rewrite get_to_app in H; cbn in H; apply Ok_inj in H.
  exists dif, (m ++ [b']), r'. rewrite <- app_assoc. repeat split; auto.
  - exists m, b'; auto.
  - rewrite len_app, len_cons, len_nil; lia.
Qed.

Lemma dib_split data b :
  dib_try_from data = Ok b ->
  exists p r, data = p ++ r /\ len p = dib_get_size b /\ p <> [] /\
    (exists t, p = dib_dif b :: t) /\
    forall r', dib_try_from (p ++ r') = Ok b.
Proof.
  intros H; apply dib_ok in H;
    destruct H as [(dif & rest & -> & E & ->)|(dif & difes & rest & -> & E & Hx & Hl & ->)].
  - exists [dif], rest; repeat split; [discriminate|exists []; reflexivity|].
    intros r'; apply dib_plain, E.
  - exists (dif :: difes), rest; repeat split; [|discriminate|exists difes; reflexivity|].
    + unfold dib_get_size; cbn [dib_difes]; rewrite len_cons; lia.
    + intros r'; apply (dib_ext dif difes r'); assumption.
Qed.

Lemma dib_no_panic data : ~ is_panic (dib_try_from data).
Proof.
  intros Hp; destruct data as [|dif data]; cbn [dib_try_from] in Hp; panic_steps Hp.
Qed.

(** *** VIB *)

Lemma vife_loop_ok data acc vs :
  vife_loop data acc = Ok vs ->
  exists p r, data = p ++ r /\ vs = acc ++ p /\ (len p = 0 \/ len vs <= 10) /\
    (xchain p \/ (r = [] /\ Forall (fun x => has_extension x = true) p)).
Proof.
  revert acc; induction data as [|b data IH]; intros acc H; cbn [vife_loop] in H.
  - apply Ok_inj in H; subst vs. exists [], []; repeat split; auto using app_nil_r.
  - destruct (N.ltb_spec (len acc) MAX_VIFE_RECORDS) as [Hl|]; [|discriminate].
    unfold MAX_VIFE_RECORDS in *.
    destruct (has_extension b) eqn:E; cbn [negb] in H.
    + destruct (10 <? len (acc ++ [b])); [discriminate|].
      destruct (IH _ H) as (p & r & -> & -> & Hlen & Hc).
      exists (b :: p), r; repeat split.
      * rewrite <- app_assoc; reflexivity.
      * right. rewrite <- app_assoc in *; cbn [app] in *.
        destruct Hlen as [Hp|]; [|assumption].
        rewrite !len_app, !len_cons, Hp; lia.
      * destruct Hc as [(m & b' & -> & Hm & Hb')|[-> Hf]].
        -- left; exists (b :: m), b'; repeat split; auto.
        -- right; split; auto.
    + apply Ok_inj in H; subst vs. exists [b], data; repeat split.
      * right; rewrite len_app, len_cons, len_nil; lia.
      * left; exists [], b; repeat split; auto.
Qed.

Lemma vife_loop_chain m b acc r :
  Forall (fun x => has_extension x = true) m -> has_extension b = false ->
  len acc + len m < 10 ->
  vife_loop (m ++ b :: r) acc = Ok (acc ++ m ++ [b]).
Proof.
  intros Hm Hb; revert acc; induction Hm as [|x m Hx _ IH]; intros acc Hl.
  - cbn [app vife_loop]. rewrite len_nil in Hl.
    unfold MAX_VIFE_RECORDS. destruct (N.ltb_spec (len acc) 10); [|lia]. rewrite Hb; reflexivity.
  - cbn [app vife_loop]. rewrite len_cons in Hl.
    unfold MAX_VIFE_RECORDS. destruct (N.ltb_spec (len acc) 10); [|lia]. rewrite Hx; cbn [negb].
    destruct (N.ltb_spec 10 (len (acc ++ [x]))) as [H'|_];
      [rewrite len_app, len_cons, len_nil in H'; lia|].
    rewrite IH by (rewrite len_app, len_cons, len_nil; lia).
    rewrite <- app_assoc; reflexivity.
Qed.

Lemma vife_loop_xchain l r :
  xchain l -> len l <= 10 -> vife_loop (l ++ r) [] = Ok l.
Proof.
  intros (m & b & -> & Hm & Hb) Hl; rewrite <- app_assoc; cbn [app].
  rewrite vife_loop_chain; auto.
  rewrite len_app, len_cons, len_nil in Hl; rewrite len_nil; lia.
Qed.

Lemma extract_ok data p :
  extract_plaintext_vife data = Ok p ->
  exists r, data = len p :: p ++ r /\ len p <= 9.
Proof.
  unfold extract_plaintext_vife; intros H.
  bind_inv H; bind_inv H. apply ok_or_ok in Ha, Ha0.
  destruct data as [|n data]; [discriminate|]. change (get (n :: data) 0) with (Some n) in Ha.
  injection Ha as <-.
  destruct (N.ltb_spec 9 (len a0)); [discriminate|]. apply Ok_inj in H; subst a0.
  apply get_range_split in Ha0. destruct Ha0 as (q & r & E & Hq & Hp).
  destruct q as [|x q]; [rewrite len_nil in Hq; lia|].
  destruct q; [|rewrite !len_cons in Hq; lia].
  injection E as <- ->. exists r; split; [|assumption].
  f_equal; lia.
Qed.

Lemma extract_app p r :
  len p <= 9 -> extract_plaintext_vife (len p :: p ++ r) = Ok p.
Proof.
  intros H; unfold extract_plaintext_vife.
  change (get (len p :: p ++ r) 0) with (Some (len p)); cbn [ok_or bind].
  pose proof (get_range_app [len p] p r) as G.
  change ([len p] ++ p ++ r) with (len p :: p ++ r) in G.
  change (len [len p]) with 1 in G. rewrite N.add_comm, G; cbn [ok_or bind].
  destruct (N.ltb_spec 9 (len p)); [lia|reflexivity].
Qed.

(** the VIF chain is terminated, as the code sees it *)
Definition xterminated (v : value_information_block) : Prop :=
  (has_extension (vib_vif v) = false /\ vib_vifes v = None) \/
  (exists l, vib_vifes v = Some l /\ xchain l).

Definition plain_bytes (p : option (list N)) : list N :=
  match p with Some p => len p :: p | None => [] end.
Definition vife_bytes (v : option (list N)) : list N :=
  match v with Some v => v | None => [] end.

(** where the parts of a block sit *)
Definition vib_bytes (cf : config) (v : value_information_block) : list N :=
  vib_vif v ::
  if plaintext_before_extension cf
  then plain_bytes (vib_plaintext v) ++ vife_bytes (vib_vifes v)
  else vife_bytes (vib_vifes v) ++ plain_bytes (vib_plaintext v).

Lemma vib_bytes_len cf v : len (vib_bytes cf v) = vib_get_size v.
Proof.
  unfold vib_bytes, vib_get_size; rewrite len_cons.
  destruct (plaintext_before_extension cf), (vib_vifes v), (vib_plaintext v);
    cbn [plain_bytes vife_bytes]; rewrite len_app, ?len_cons, ?len_nil; lia || reflexivity.
Qed.

(** the shape of an accepted block *)
Definition vib_shape (cf : config) (v : value_information_block) (r : list N) : Prop :=
  match vib_vifes v with
  | Some l => has_extension (vib_vif v) = true /\ len l <= 10 /\ l <> [] /\
              (xchain l \/ (r = [] /\ Forall (fun x => has_extension x = true) l /\
                            (plaintext_before_extension cf = true \/ contains_ascii (vib_vif v) = false)))
  | None => has_extension (vib_vif v) = false \/
            (r = [] /\ (plaintext_before_extension cf = true \/ contains_ascii (vib_vif v) = false))
  end /\
  match vib_plaintext v with
  | Some p => contains_ascii (vib_vif v) = true /\ len p <= 9 /\
              (plaintext_before_extension cf = false -> has_extension (vib_vif v) = true)
  | None => contains_ascii (vib_vif v) = false \/
            (plaintext_before_extension cf = false /\ has_extension (vib_vif v) = false)
  end.

Definition opt_list (l : list N) : option (list N) := match l with [] => None | _ => Some l end.

Lemma vib_ok cf data v :
  vib_try_from cf data = Ok v ->
  exists r, data = vib_bytes cf v ++ r /\ vib_shape cf v r.
Proof.
  unfold vib_try_from; intros H. bind_inv H; apply ok_or_ok in Ha.
  destruct data as [|vif data]; [discriminate|].
  change (get (vif :: data) 0) with (Some vif) in Ha; injection Ha as <-.
  rewrite negb_involutive in H.
  destruct (plaintext_before_extension cf) eqn:P; cbn [negb andb] in H.
  - (* plaintext before extension *)
    bind_inv H. bind_inv H.
    assert (exists vs pt r, a0 = (vs, pt) /\ data = plain_bytes pt ++ vs ++ r /\
              match pt with Some p => contains_ascii vif = true /\ len p <= 9
                          | None => contains_ascii vif = false end /\
              (has_extension vif = false /\ vs = [] \/
               has_extension vif = true /\ len vs <= 10 /\
               (xchain vs \/ r = [] /\ Forall (fun x => has_extension x = true) vs)))
      as (vs & pt & r & -> & Hd & Hpt & Hvs).
    { assert (exists rest, data = plain_bytes a ++ rest /\
              match a with Some p => contains_ascii vif = true /\ len p <= 9
                         | None => contains_ascii vif = false end) as (rest & Hd & Hpt).
      { destruct (contains_ascii vif).
        - bind_inv Ha. bind_inv Ha. apply ok_or_ok in Ha1. apply Ok_inj in Ha; subst a.
          change (vif :: data) with ([vif] ++ data) in Ha1.
          rewrite (get_from_app [vif] data : get_from ([vif] ++ data) 1 = Some data) in Ha1.
          injection Ha1 as <-. apply extract_ok in Ha2. destruct Ha2 as (r & -> & ?).
          exists r; split; [reflexivity|auto].
        - apply Ok_inj in Ha; subst a. exists data; split; reflexivity. }
      destruct (has_extension vif).
      - bind_inv Ha0.
        assert (G : skipn (N.to_nat (match a with Some chars => 2 + len chars | None => 1 end)) (vif :: data)
                    = rest).
        { rewrite Hd. destruct a as [p|]; cbn [plain_bytes].
          - change (vif :: (len p :: p) ++ rest) with ((vif :: len p :: p) ++ rest).
            replace (N.to_nat (2 + len p)) with (length (vif :: len p :: p))
              by (cbn [length]; unfold len; lia).
            rewrite skipn_app, skipn_all, Nat.sub_diag; reflexivity.
          - reflexivity. }
        rewrite G in Ha1. apply Ok_inj in Ha0; subst a0.
        apply vife_loop_ok in Ha1. destruct Ha1 as (p & r & -> & -> & Hlen & Hc).
        exists p, a, r; repeat split; auto.
        right; repeat split; auto. cbn [app] in Hlen; destruct Hlen; lia.
      - apply Ok_inj in Ha0; subst a0. exists [], a, rest; repeat split; auto. }
    apply Ok_inj in H; subst v.
    exists r; split.
    + unfold vib_bytes; rewrite P; cbn [vib_vif vib_vifes vib_plaintext].
      destruct vs; cbn [vife_bytes]; rewrite Hd; cbn [app]; rewrite ?app_nil_r, <- ?app_assoc; reflexivity.
    + unfold vib_shape; rewrite P; cbn [vib_vif vib_vifes vib_plaintext]; split.
      * destruct vs as [|v vs].
        -- destruct Hvs as [[? _]|(? & _ & [(m & b & E & _)|[? _]])]; auto.
           destruct m; discriminate.
        -- destruct Hvs as [[_ ?]|(? & ? & Hc)]; [discriminate|].
           repeat split; auto; [discriminate|]. destruct Hc as [|[]]; auto.
      * destruct pt; [destruct Hpt; repeat split; auto; discriminate|auto].
  - (* standard *)
    cbn [bind] in H. bind_inv H.
    assert (exists vs pt r, a = (vs, pt) /\ data = vs ++ plain_bytes pt ++ r /\
              (has_extension vif = false /\ vs = [] /\ pt = None \/
               has_extension vif = true /\ len vs <= 10 /\
               (contains_ascii vif = true /\ (exists p, pt = Some p /\ len p <= 9) /\ xchain vs \/
                contains_ascii vif = false /\ pt = None /\
               (xchain vs \/ r = [] /\ Forall (fun x => has_extension x = true) vs))))
      as (vs & pt & r & -> & Hd & Hvs).
    { destruct (has_extension vif) eqn:E.
      2:{ apply Ok_inj in Ha; subst a. exists [], None, data; repeat split; auto. }
      bind_inv Ha. change (skipn (N.to_nat 1) (vif :: data)) with data in Ha0.
      apply vife_loop_ok in Ha0. destruct Ha0 as (vs & r & -> & E1 & Hlen & Hc).
      cbn [app] in E1; subst a0.
      assert (Hl10 : len vs <= 10) by (destruct Hlen; lia).
      destruct (contains_ascii vif) eqn:C.
      - bind_inv Ha. bind_inv Ha. apply ok_or_ok in Ha0. apply Ok_inj in Ha; subst a.
        change (vif :: vs ++ r) with ((vif :: vs) ++ r) in Ha0.
        replace (1 + len vs) with (len (vif :: vs)) in Ha0 by (rewrite len_cons; lia).
        rewrite get_from_app in Ha0. injection Ha0 as <-.
        apply extract_ok in Ha1. destruct Ha1 as (r' & -> & ?).
        exists vs, (Some a1), r'; repeat split.
        right; repeat split; auto. left; repeat split; eauto.
        destruct Hc as [|[? _]]; [assumption|discriminate].
      - apply Ok_inj in Ha; subst a. exists vs, None, r; repeat split; auto.
        right; repeat split; auto. }
    apply Ok_inj in H; subst v.
    exists r; split.
    + unfold vib_bytes; rewrite P; cbn [vib_vif vib_vifes vib_plaintext].
      destruct vs; cbn [vife_bytes]; rewrite Hd; cbn [app]; rewrite <- ?app_assoc; reflexivity.
    + unfold vib_shape; rewrite P; cbn [vib_vif vib_vifes vib_plaintext]; split.
      * destruct vs as [|v vs].
        -- destruct Hvs as [[? _]|(? & _ & [(_ & _ & m & b & E & _)|(? & ? & [(m & b & E & _)|[? _]])])]; auto;
           destruct m; discriminate.
        -- destruct Hvs as [(_ & ? & _)|(? & ? & [(? & ? & ?)|(? & ? & Hc)])]; [discriminate| |];
           repeat split; auto; try discriminate. destruct Hc as [|[]]; auto.
      * destruct Hvs as [(? & _ & ->)|(? & ? & [(? & (p & -> & ?) & ?)|(? & -> & Hc)])]; auto.
Qed.

Lemma vib_terminated cf v r r' :
  vib_shape cf v r -> xterminated v ->
  vib_try_from cf (vib_bytes cf v ++ r') = Ok v.
Proof.
  destruct v as [vif vifes pt]; unfold vib_shape, xterminated, vib_bytes;
    cbn [vib_vif vib_vifes vib_plaintext].
  intros [Hv Hp] Ht. unfold vib_try_from. cbn [app].
  match goal with |- context [get (vif :: ?l) 0] => set (data := l) end.
  change (get (vif :: data) 0) with (Some vif); cbn [ok_or bind]. rewrite negb_involutive.
  change (get_from (vif :: data) 1) with (get_from ([vif] ++ data) (len [vif])).
  rewrite get_from_app; cbn [ok_or bind].
  destruct (plaintext_before_extension cf) eqn:P; cbn [negb andb].
  - assert (HP : (if contains_ascii vif
                  then p <- extract_plaintext_vife data ;; Ok (Some p) else Ok None)
                 = Ok (E := data_information_error) pt).
    { destruct pt as [p|].
      - destruct Hp as (-> & Hp & _). subst data. cbn [plain_bytes]. rewrite <- app_assoc.
        change ((len p :: p) ++ vife_bytes vifes ++ r') with (len p :: p ++ vife_bytes vifes ++ r').
        rewrite extract_app by assumption. reflexivity.
      - destruct Hp as [->|[? _]]; [reflexivity|discriminate]. }
    rewrite HP; cbn [bind].
    assert (G : skipn (N.to_nat (match pt with Some chars => 2 + len chars | None => 1 end)) (vif :: data)
                = vife_bytes vifes ++ r').
    { subst data. rewrite <- app_assoc. destruct pt as [p|]; cbn [plain_bytes]; [|reflexivity].
      change (vif :: (len p :: p) ++ vife_bytes vifes ++ r')
        with ((vif :: len p :: p) ++ vife_bytes vifes ++ r').
      replace (N.to_nat (2 + len p)) with (length (vif :: len p :: p))
        by (cbn [length]; unfold len; lia).
      rewrite skipn_app, skipn_all, Nat.sub_diag; reflexivity. }
    rewrite G.
    destruct Ht as [[Hx ->]|(l & -> & Hl)].
    + rewrite Hx; reflexivity.
    + destruct Hv as (Hx & Hlen & Hne & _). rewrite Hx; cbn [vife_bytes].
      rewrite vife_loop_xchain by assumption; cbn [bind].
      destruct l; [congruence|reflexivity].
  - cbn [bind].
    destruct Ht as [[Hx ->]|(l & -> & Hl)].
    + rewrite Hx; cbn [bind]. destruct pt as [p|]; [|reflexivity].
      destruct Hp as (_ & _ & Hp). rewrite Hx in Hp; specialize (Hp eq_refl); discriminate.
    + destruct Hv as (Hx & Hlen & Hne & _). rewrite Hx.
      change (skipn (N.to_nat 1) (vif :: data)) with data.
      assert (G : data = l ++ plain_bytes pt ++ r')
        by (subst data; cbn [vife_bytes]; rewrite <- app_assoc; reflexivity).
      clearbody data; subst data.
      rewrite vife_loop_xchain by assumption; cbn [bind].
      assert (HP : (if contains_ascii vif
                    then d <- ok_or (get_from (vif :: l ++ plain_bytes pt ++ r') (1 + len l)) DataTooShort ;;
                         p <- extract_plaintext_vife d ;; Ok (l, Some p)
                    else Ok (l, None)) = Ok (E := data_information_error) (l, pt)).
      { destruct pt as [p|].
        - destruct Hp as (-> & Hp & _).
          change (vif :: l ++ plain_bytes (Some p) ++ r') with ((vif :: l) ++ len p :: p ++ r').
          replace (1 + len l) with (len (vif :: l)) by (rewrite len_cons; lia).
          rewrite get_from_app; cbn [ok_or bind]. rewrite extract_app by assumption. reflexivity.
        - destruct Hp as [->|[_ ?]]; [reflexivity|congruence]. }
      rewrite HP; cbn [bind]. destruct l; [congruence|reflexivity].
Qed.

Lemma xterminated_spec cf v r :
  vib_shape cf v r -> bytes_ok (vib_bytes cf v) ->
  xterminated v <-> vif_terminated v.
Proof.
  intros _ Hb.
  assert (Hvif : vib_vif v < 256) by (apply bytes_ok_cons in Hb; tauto).
  assert (Hvs : bytes_ok (vife_bytes (vib_vifes v))).
  { apply bytes_ok_cons in Hb; destruct Hb as [_ Hb].
    destruct (plaintext_before_extension cf); apply bytes_ok_app in Hb; tauto. }
  unfold xterminated, vif_terminated. rewrite has_extension_spec by assumption.
  split; (intros [[H1 H2]|(l & Hl & Hx)]; [left; split; [lia|assumption]|right; exists l; split; [assumption|]]);
    rewrite Hl in Hvs; apply (xchain_chain l Hvs); assumption.
Qed.

(** *** Headers *)

Lemma get_from_app_n {A} (l m : list A) n : len l = n -> get_from (l ++ m) n = Some m.
Proof. intros <-; apply get_from_app. Qed.
Lemma get_to_app_n {A} (l m : list A) n : len l = n -> get_to (l ++ m) n = Some l.
Proof. intros <-; apply get_to_app. Qed.

Lemma raw_header_split cf data h :
  raw_header_try_from cf data = Ok h ->
  exists d r, data = d ++ r /\ len d = dib_get_size (rh_dib h) /\ (exists t, d = dib_dif (rh_dib h) :: t) /\
    (forall r', dib_try_from (d ++ r') = Ok (rh_dib h)) /\
    (is_special_function (dib_dif (rh_dib h)) = true /\ rh_vib h = None \/
     is_special_function (dib_dif (rh_dib h)) = false /\
     exists v r2, rh_vib h = Some v /\ r = vib_bytes cf v ++ r2 /\ vib_shape cf v r2).
Proof.
  unfold raw_header_try_from, from_die; intros H. bind_inv H.
  apply map_err_ok in Ha. destruct (dib_split _ _ Ha) as (p & r & -> & Hp & _ & Ht & Hloc).
  destruct (is_special_function (dib_dif a)) eqn:S; cbn [negb] in H.
  - apply Ok_inj in H; subst h; cbn. exists p, r; repeat split; auto.
  - bind_inv H. apply ok_or_ok in Ha0. rewrite (get_from_app_n _ _ _ Hp) in Ha0; injection Ha0 as <-.
    bind_inv H. apply map_err_ok in Ha0. apply Ok_inj in H; subst h; cbn.
    apply vib_ok in Ha0. destruct Ha0 as (r2 & -> & Hs).
    exists p, (vib_bytes cf a0 ++ r2); repeat split; auto.
    right; split; [assumption|]. exists a0, r2; auto.
Qed.

Lemma header_split cf data h :
  header_try_from cf data = Ok h ->
  exists p r, data = p ++ r /\ len p = header_get_size h /\
    (exists t, p = dib_dif (rh_dib (drh_raw h)) :: t) /\
    (bytes_ok data -> (forall v, rh_vib (drh_raw h) = Some v -> vif_terminated v) ->
     forall r', header_try_from cf (p ++ r') = Ok h).
Proof.
  unfold header_try_from; intros H. bind_inv H. bind_inv H. apply Ok_inj in H; subst h.
  pose proof Ha as Hraw.
  apply raw_header_split in Ha. destruct Ha as (d & r & -> & Hd & (t & Ht) & Hloc & Hv).
  unfold header_get_size; cbn [drh_raw].
  destruct Hv as [[HS HN]|(HS & v & r2 & HV & -> & Hs)].
  - rewrite HN. exists d, r; repeat split; auto; [exists t; assumption|].
    intros _ _ r'. unfold raw_header_try_from, from_die. rewrite Hloc; cbn [map_err bind].
    rewrite HS; cbn [negb bind]. destruct a as [dib vib]; cbn [rh_dib rh_vib bind] in *; subst vib.
    rewrite Ha0; reflexivity.
  - rewrite HV. exists (d ++ vib_bytes cf v), r2; rewrite <- app_assoc; repeat split; auto.
    + rewrite len_app, Hd, vib_bytes_len; reflexivity.
    + exists (t ++ vib_bytes cf v). rewrite Ht; reflexivity.
    + intros Hb Hterm r'. specialize (Hterm v eq_refl).
      assert (Hvb : bytes_ok (vib_bytes cf v)).
      { apply bytes_ok_app in Hb; destruct Hb as [_ Hb]; apply bytes_ok_app in Hb; tauto. }
      apply (xterminated_spec cf v r2 Hs Hvb) in Hterm.
      unfold raw_header_try_from, from_die. rewrite <- app_assoc, Hloc; cbn [map_err bind].
      rewrite HS; cbn [negb]. rewrite (get_from_app_n _ _ _ Hd); cbn [ok_or bind].
      rewrite (vib_terminated cf v r2 r' Hs Hterm); cbn [map_err bind].
      destruct a as [dib vib]; cbn [rh_dib rh_vib bind] in *; subst vib. rewrite Ha0; reflexivity.
Qed.

(** *** Data fields *)

Definition takes_rest (c : data_field_coding) : bool :=
  match c with
  | CSpecialFunctions SFManufacturerSpecific | CSpecialFunctions SFMoreRecordsFollow => true
  | _ => false
  end.

Lemma integer_size cf input n d :
  integer_to_value cf input n = Ok d -> d_size d = n /\ n <= len input.
Proof.
  unfold integer_to_value. destruct (N.ltb_spec (len input) n); [discriminate|].
  unfold integer_to_value_internal. destruct integer_loop as [bits shift].
  intros H'; bind_inv H'. apply Ok_inj in H'; subst d; cbn. auto.
Qed.

Lemma integer_local cf p r r' n :
  len p = n -> integer_to_value cf (p ++ r) n = integer_to_value cf (p ++ r') n.
Proof.
  intros Hp; unfold integer_to_value.
  destruct (N.ltb_spec (len (p ++ r)) n) as [H|_]; [rewrite len_app in H; lia|].
  destruct (N.ltb_spec (len (p ++ r')) n) as [H|_]; [rewrite len_app in H; lia|].
  unfold integer_to_value_internal.
  assert (E : forall s, firstn (N.to_nat (if 8 <? n then 8 else n)) (p ++ s) =
                        firstn (N.to_nat (if 8 <? n then 8 else n)) p).
  { intros s. rewrite firstn_app.
    replace (N.to_nat (if 8 <? n then 8 else n)%N - length p)%nat with 0%nat
      by (unfold len in *; destruct (N.ltb_spec 8 n); lia).
    rewrite firstn_O, app_nil_r; reflexivity. }
  rewrite !E; reflexivity.
Qed.

Lemma bcd_loop_local p r r' n lsb todo i v w :
  len p = (n + 1) / 2 -> i + N.of_nat todo = n ->
  bcd_value_loop (p ++ r) n lsb todo i v w = bcd_value_loop (p ++ r') n lsb todo i v w.
Proof.
  intros Hp; revert i v w; induction todo as [|todo IH]; intros i v w Hi; [reflexivity|].
  cbn [bcd_value_loop].
  rewrite !get_app_l by (destruct lsb; lia).
  destruct (get p _) as [byte|]; [|reflexivity]. cbn [ok_or bind].
  destruct (9 <? _); [reflexivity|]. apply IH; lia.
Qed.

Lemma bcd_size input n s lsb d :
  bcd_to_value_internal input n s lsb = Ok d -> d_size d = (n + 1) / 2 /\ (n + 1) / 2 <= len input.
Proof.
  unfold bcd_to_value_internal. destruct (N.ltb_spec (len input) ((n + 1) / 2)); [discriminate|].
  intros H'; bind_inv H'. apply Ok_inj in H'; subst d; cbn. auto.
Qed.

Lemma bcd_local p r r' n s lsb :
  len p = (n + 1) / 2 ->
  bcd_to_value_internal (p ++ r) n s lsb = bcd_to_value_internal (p ++ r') n s lsb.
Proof.
  intros Hp; unfold bcd_to_value_internal.
  destruct (N.ltb_spec (len (p ++ r)) ((n + 1) / 2)) as [H|_]; [rewrite len_app in H; lia|].
  destruct (N.ltb_spec (len (p ++ r')) ((n + 1) / 2)) as [H|_]; [rewrite len_app in H; lia|].
  rewrite (bcd_loop_local p r r') by (try assumption; lia). reflexivity.
Qed.

Lemma get_range_local {A} (p r r' : list A) a b :
  b <= len p -> get_range (p ++ r) a b = get_range (p ++ r') a b.
Proof.
  intros Hb; unfold get_range. rewrite !len_app.
  replace (b <=? len p + len r) with true by lia. replace (b <=? len p + len r') with true by lia.
  destruct (N.leb_spec a b); [|reflexivity]. cbn [andb].
  rewrite !skipn_app, !firstn_app, !skipn_length.
  replace (N.to_nat (b - a) - (length p - N.to_nat a))%nat with 0%nat by (unfold len in *; lia).
  rewrite !firstn_O; reflexivity.
Qed.

Lemma variable_size cf input lsb d :
  parse_variable_length cf input lsb = Ok d ->
  exists n w, get input 0 = Some n /\ lvar_width n = Some w /\ d_size d = w + 1 /\
    d_size d <= len input.
Proof.
  unfold parse_variable_length; intros H. bind_inv H. apply ok_or_ok in Ha.
  exists a; unfold lvar_width.
  destruct (N.leb_spec a 0xBF) as [H1|H1].
  { bind_inv H. apply ok_or_ok in Ha0. apply get_range_ok in Ha0. apply Ok_inj in H; subst d; cbn [d_size].
    exists a; repeat split; auto; lia. }
  destruct ((0xC0 <=? a) && (a <=? 0xC9)) eqn:H2.
  { bind_inv H. apply ok_or_ok in Ha0. apply get_range_ok in Ha0.
    bind_inv H. apply bcd_size in Ha1. apply Ok_inj in H; subst d; cbn [d_size plus_one].
    eexists; split; [assumption|split; [reflexivity|]]. lia. }
  destruct ((0xD0 <=? a) && (a <=? 0xD9)) eqn:H3.
  { bind_inv H. apply ok_or_ok in Ha0. apply get_range_ok in Ha0.
    bind_inv H. apply bcd_size in Ha1. apply Ok_inj in H; subst d; cbn [d_size plus_one].
    eexists; split; [assumption|split; [reflexivity|]]. lia. }
  destruct ((0xE0 <=? a) && (a <=? 0xEF)) eqn:H4.
  { bind_inv H. apply ok_or_ok in Ha0. apply get_range_ok in Ha0.
    bind_inv H. apply integer_size in Ha1. apply Ok_inj in H; subst d; cbn [d_size plus_one].
    eexists; split; [assumption|split; [reflexivity|]]. lia. }
  destruct ((0xF0 <=? a) && (a <=? 0xF4)) eqn:H5.
  { bind_inv H. apply ok_or_ok in Ha0. apply get_range_ok in Ha0.
    bind_inv H. apply integer_size in Ha1. apply Ok_inj in H; subst d; cbn [d_size plus_one].
    eexists; split; [assumption|split; [reflexivity|]]. lia. }
  destruct (N.eqb_spec a 0xF5) as [H6|H6].
  { bind_inv H. apply ok_or_ok in Ha0. apply get_range_ok in Ha0.
    bind_inv H. apply integer_size in Ha1. apply Ok_inj in H; subst d; cbn [d_size plus_one].
    eexists; split; [assumption|split; [reflexivity|]]. lia. }
  destruct (N.eqb_spec a 0xF6) as [H7|H7]; [|discriminate].
  bind_inv H. apply ok_or_ok in Ha0. apply get_range_ok in Ha0.
  bind_inv H. apply integer_size in Ha1. apply Ok_inj in H; subst d; cbn [d_size plus_one].
  eexists; split; [assumption|split; [reflexivity|]]. lia.
Qed.

Lemma variable_local cf p r r' lsb d :
  parse_variable_length cf (p ++ r) lsb = Ok d -> len p = d_size d ->
  parse_variable_length cf (p ++ r') lsb = Ok d.
Proof.
  intros H Hp. pose proof (variable_size _ _ _ _ H) as (n & w & Hn & Hw & H1 & _).
  rewrite H1 in Hp; clear H1.
  revert H; unfold parse_variable_length.
  rewrite (get_app_l p r) in * by lia. rewrite (get_app_l p r') by lia.
  rewrite Hn; cbn [ok_or bind].
  unfold lvar_width in Hw.
  destruct (N.leb_spec n 0xBF) as [C1|C1];
    [injection Hw as <-; rewrite (get_range_local p r' r) by lia; auto|].
  destruct ((0xC0 <=? n) && (n <=? 0xC9)) eqn:C2;
    [injection Hw as <-; rewrite (get_range_local p r' r) by lia; auto|].
  destruct ((0xD0 <=? n) && (n <=? 0xD9)) eqn:C3;
    [injection Hw as <-; rewrite (get_range_local p r' r) by lia; auto|].
  destruct ((0xE0 <=? n) && (n <=? 0xEF)) eqn:C4;
    [injection Hw as <-; rewrite (get_range_local p r' r) by lia; auto|].
  destruct ((0xF0 <=? n) && (n <=? 0xF4)) eqn:C5;
    [injection Hw as <-; rewrite (get_range_local p r' r) by lia; auto|].
  destruct (N.eqb_spec n 0xF5);
    [injection Hw as <-; rewrite (get_range_local p r' r) by lia; auto|].
  destruct (N.eqb_spec n 0xF6);
    [injection Hw as <-; rewrite (get_range_local p r' r) by lia; auto|].
  discriminate.
Qed.

Lemma get_or_0_local p r r' i : i < len p -> get_or_0 (p ++ r) i = get_or_0 (p ++ r') i.
Proof. intros H; unfold get_or_0; rewrite !get_app_l by assumption; reflexivity. Qed.

Lemma parse_year_local p r r' a b c :
  2 <= len p -> parse_year (p ++ r) a b c = parse_year (p ++ r') a b c.
Proof.
  intros H; unfold parse_year. rewrite !(get_or_0_local p r r') by lia. reflexivity.
Qed.

Ltac bind_all H :=
  repeat (let a := fresh "a" in let Ha := fresh "Ha" in
          apply bind_ok in H; destruct H as (a & Ha & H); cbv beta zeta in H).

Lemma coding_local cf c p r r' hdr d :
  takes_rest c = false ->
  coding_parse cf c (p ++ r) hdr = Ok d -> len p = d_size d ->
  coding_parse cf c (p ++ r') hdr = Ok d.
Proof.
  intros Hc H Hp.
  assert (Hsz := H).
  destruct c as [ | | | | | | | | | | | | | | |s| | | | ]; cbn [coding_parse] in *;
    lazymatch goal with
    | |- Ok _ = Ok _ => exact H
    | |- integer_to_value _ _ _ = _ =>
        apply integer_size in Hsz; destruct Hsz as [Hsz _]; rewrite Hsz in Hp;
        rewrite (integer_local cf p r' r) by exact Hp; exact H
    | |- bcd_to_value_internal _ _ _ _ = _ =>
        apply bcd_size in Hsz; destruct Hsz as [Hsz _]; rewrite Hsz in Hp;
        rewrite (bcd_local p r' r) by exact Hp; exact H
    | |- _ => idtac
    end.
  - (* Real32Bit *)
    destruct (len (p ++ r) <? 4); [discriminate|].
    bind_all Hsz. apply Ok_inj in Hsz; subst d; cbn [d_size] in Hp.
    destruct (N.ltb_spec (len (p ++ r')) 4) as [E|_]; [rewrite len_app in E; lia|].
    rewrite !(get_app_l p r) in H by lia. rewrite !(get_app_l p r') by lia. exact H.
  - exact (variable_local cf p r r' _ d H Hp).
  - destruct s; try discriminate Hc; exact H.
  - bind_all Hsz. apply Ok_inj in Hsz; subst d; cbn [d_size] in Hp.
    rewrite !(get_app_l p r) in H by lia. rewrite !(get_app_l p r') by lia.
    rewrite (parse_year_local p r' r) by lia. exact H.
  - bind_all Hsz. apply Ok_inj in Hsz; subst d; cbn [d_size] in Hp.
    rewrite !(get_app_l p r) in H by lia. rewrite !(get_app_l p r') by lia.
    rewrite (parse_year_local p r' r) by lia. exact H.
  - bind_all Hsz. apply Ok_inj in Hsz; subst d; cbn [d_size] in Hp.
    rewrite !(get_app_l p r) in H by lia. rewrite !(get_app_l p r') by lia. exact H.
  - bind_all Hsz. apply Ok_inj in Hsz; subst d; cbn [d_size] in Hp.
    rewrite !(get_app_l p r) in H by lia. rewrite !(get_app_l p r') by lia.
    rewrite (parse_year_local p r' r) by lia. exact H.
Qed.

(** *** Records *)

(** the coding a header selects takes the whole rest only for DIF 0F and 1F *)
Lemma dif_coding_rest dif :
  dif < 256 -> takes_rest (data_field_coding_of dif) = true -> dif = 0x0F \/ dif = 0x1F.
Proof.
  intros H.
  assert (G := sweep256 (fun d => implb (takes_rest (data_field_coding_of d)) ((d =? 0x0F) || (d =? 0x1F)))
                 eq_refl dif H); cbv beta in G.
  intros E; rewrite E in G; cbn [implb] in G. lia.
Qed.

Lemma data_information_coding b d :
  data_information_try_from b = Ok d -> di_data_field_coding d = data_field_coding_of (dib_dif b).
Proof.
  unfold data_information_try_from; intros H. bind_inv H.
  destruct a as [[[[a1 a2] a3] a4] a5]. apply Ok_inj in H; subst d; reflexivity.
Qed.

Lemma override_rest v d : takes_rest (di_data_field_coding (override_coding v d)) = true ->
  takes_rest (di_data_field_coding d) = true.
Proof.
  unfold override_coding.
  destruct (has_label is_LDate v); [discriminate|].
  destruct (has_label is_LDateTime v); [destruct (di_data_field_coding d); discriminate|].
  destruct (has_label is_LTime v); [discriminate|].
  destruct (has_label is_LDateTimeWithSeconds v); [discriminate|]. auto.
Qed.

Lemma header_coding_rest cf data h di :
  bytes_ok data -> header_try_from cf data = Ok h ->
  ph_data_information (drh_processed h) = Some di ->
  takes_rest (di_data_field_coding di) = true ->
  dib_dif (rh_dib (drh_raw h)) = 0x0F \/ dib_dif (rh_dib (drh_raw h)) = 0x1F.
Proof.
  intros Hb H Hd Hr.
  destruct (header_split _ _ _ H) as (p & r & -> & _ & (t & Ht) & _).
  assert (Hdif : dib_dif (rh_dib (drh_raw h)) < 256)
    by (rewrite Ht in Hb; apply bytes_ok_cons in Hb; tauto).
  apply dif_coding_rest; [assumption|].
  unfold header_try_from in H. bind_inv H. bind_inv H. apply Ok_inj in H; subst h. cbn in *.
  unfold processed_header_try_from, from_die in Ha0.
  destruct (rh_vib a) as [v|].
  - bind_inv Ha0. bind_inv Ha0. apply map_err_ok in Ha2. apply Ok_inj in Ha0; subst a0; cbn in Hd.
    injection Hd as <-. apply override_rest in Hr.
    rewrite (data_information_coding _ _ Ha2) in Hr; assumption.
  - destruct (is_special_function (dib_dif (rh_dib a))).
    + bind_inv Ha0. apply map_err_ok in Ha1. apply Ok_inj in Ha0; subst a0; cbn in Hd.
      injection Hd as <-. rewrite (data_information_coding _ _ Ha1) in Hr; assumption.
    + apply Ok_inj in Ha0; subst a0; discriminate.
Qed.

Lemma header_has_information cf data h :
  header_try_from cf data = Ok h ->
  exists di, ph_data_information (drh_processed h) = Some di.
Proof.
  intros H; unfold header_try_from in H. bind_inv H. bind_inv H. apply Ok_inj in H; subst h; cbn.
  apply raw_header_split in Ha. destruct Ha as (d & r & _ & _ & _ & _ & Hv).
  unfold processed_header_try_from in Ha0.
  destruct Hv as [[HS HN]|(HS & v & r2 & HV & _ & _)].
  - rewrite HN, HS in Ha0. bind_inv Ha0. apply Ok_inj in Ha0; subst a0; cbn; eauto.
  - rewrite HV in Ha0. bind_inv Ha0. bind_inv Ha0. apply Ok_inj in Ha0; subst a0; cbn; eauto.
Qed.

Lemma record_split cf data hdr r :
  data_record_parse cf data hdr = Ok r ->
  exists p rest di,
    data = p ++ rest /\ len p = header_get_size (dr_header r) /\
    header_try_from cf data = Ok (dr_header r) /\
    ph_data_information (drh_processed (dr_header r)) = Some di /\
    coding_parse cf (di_data_field_coding di) rest hdr = Ok (dr_data r) /\
    (exists t, p = dib_dif (rh_dib (drh_raw (dr_header r))) :: t) /\
    exists q s, rest = q ++ s /\ dr_raw_bytes r = p ++ q /\
      (len q = d_size (dr_data r) \/ (s = [] /\ len q < d_size (dr_data r))).
Proof.
  unfold data_record_parse; intros H. bind_inv H.
  destruct (header_split _ _ _ Ha) as (p & rest & -> & Hp & Ht & _).
  destruct (header_has_information _ _ _ Ha) as [di Hdi]. rewrite Hdi in H.
  destruct (N.ltb_spec (len (p ++ rest)) (header_get_size a)) as [|Hl]; [discriminate|].
  rewrite (get_from_app_n _ _ _ Hp) in H; cbn [ok_or bind] in H.
  bind_inv H. bind_inv H. apply ok_or_ok in Ha1. apply Ok_inj in H; subst r; cbn.
  exists p, rest, di; repeat split; auto.
  apply get_to_ok in Ha1. destruct Ha1 as [Hle ->].
  destruct (N.ltb_spec (len (p ++ rest)) (header_get_size a + d_size a0)) as [Hs|Hs].
  - exists rest, []; rewrite app_nil_r; repeat split.
    + rewrite len_nat, firstn_all; reflexivity.
    + right; split; [reflexivity|]. rewrite len_app in Hs; lia.
  - rewrite len_app in Hs.
    exists (firstn (N.to_nat (d_size a0)) rest), (skipn (N.to_nat (d_size a0)) rest).
    rewrite firstn_skipn; repeat split.
    + rewrite firstn_app. rewrite firstn_all2 by (unfold len in *; lia). f_equal. f_equal.
      unfold len in *; lia.
    + left. rewrite len_firstn. lia.
Qed.

Lemma record_local cf data hdr r :
  bytes_ok data -> data_record_parse cf data hdr = Ok r -> complete_record r ->
  forall rest', data_record_parse cf (dr_raw_bytes r ++ rest') hdr = Ok r.
Proof.
  intros Hb H (Hn1 & Hn2 & Hterm & Hsz) rest'.
  destruct (record_split _ _ _ _ H) as (p & rest & di & -> & Hp & Hh & Hdi & Hc & _ & q & s & -> & Hraw & Hq).
  rewrite Hraw, len_app, Hp in Hsz.
  assert (Hq' : len q = d_size (dr_data r)) by lia. clear Hq Hsz.
  destruct (header_split _ _ _ Hh) as (p' & r' & E & Hp' & _ & Hloc).
  assert (p = p' /\ q ++ s = r') as [-> <-].
  { apply app_eq_app in E. destruct E as (m & [[-> ->]|[-> ->]]).
    - rewrite len_app in Hp. assert (m = []) as -> by (apply len_0; lia). rewrite app_nil_r; auto.
    - rewrite len_app in Hp'. assert (m = []) as -> by (apply len_0; lia). rewrite app_nil_r; auto. }
  specialize (Hloc Hb Hterm (q ++ rest')).
  rewrite Hraw, <- app_assoc. unfold data_record_parse. rewrite Hloc; cbn [bind].
  rewrite Hdi, (get_from_app_n _ _ _ Hp).
  destruct (N.ltb_spec (len (p' ++ q ++ rest')) (header_get_size (dr_header r))) as [Hl|_];
    [rewrite len_app in Hl; lia|].
  cbn [ok_or bind].
  rewrite (coding_local cf _ q s rest' hdr (dr_data r)); try assumption.
  2:{ destruct (takes_rest _) eqn:E'; [|reflexivity].
      destruct (header_coding_rest _ _ _ _ Hb Hh Hdi E'); contradiction. }
  cbn [bind].
  destruct (N.ltb_spec (len (p' ++ q ++ rest')) (header_get_size (dr_header r) + d_size (dr_data r)))
    as [Hl|_]; [rewrite !len_app in Hl; lia|].
  rewrite app_assoc, (get_to_app_n (p' ++ q) rest') by (rewrite len_app; lia).
  cbn [ok_or bind]. destruct r; cbn in *; subst; reflexivity.
Qed.
