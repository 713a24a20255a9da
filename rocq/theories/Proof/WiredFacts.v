(** Proofs about Model/Wired.v. *)
From Verif Require Import Proof.BaseFacts Model.Core Model.Wired Spec.WiredSpec.

Lemma checksum_fold l acc :
  fold_left (fun acc x => (acc + x) mod 256) l acc mod 256 = (acc + fold_right N.add 0 l) mod 256.
Proof.
  revert acc; induction l as [|x l IH]; intros acc; cbn [fold_left fold_right].
  - f_equal; lia.
  - rewrite IH. rewrite N.add_mod_idemp_l by lia. f_equal; lia.
Qed.

Lemma checksum_lt l : checksum l < 256.
Proof.
  unfold checksum. assert (H : forall acc, acc < 256 ->
    fold_left (fun acc x => (acc + x) mod 256) l acc < 256).
  { induction l as [|x l IH]; intros acc Ha; cbn [fold_left]; [assumption|].
    apply IH. lia. }
  apply H; lia.
Qed.

Lemma checksum_sum8 l : checksum l = sum8 l.
Proof.
  rewrite <- (N.mod_small (checksum l) 256) by apply checksum_lt.
  unfold checksum, sum8; rewrite checksum_fold; reflexivity.
Qed.

Lemma validate_ok cf body u :
  validate_checksum cf body = Ok u <-> exists m z, body = m ++ [sum8 m; z].
Proof.
  unfold validate_checksum, sub_usize. destruct u.
  destruct (N.leb_spec 2 (len body)) as [H|H].
  - destruct (list_snoc2 body H) as (m & cs & z & ->).
    rewrite len_app. change (len [cs; z]) with 2.
    replace (len m + 2 - 2) with (len m) by lia. cbn [bind].
    rewrite get_app_r by lia. rewrite N.sub_diag, get_cons_0, get_to_app; cbn [ok_or bind].
    rewrite checksum_sum8.
    destruct (N.eqb_spec cs (sum8 m)) as [->|Hn]; split.
    + intros _; eauto.
    + reflexivity.
    + discriminate.
    + intros (m' & z' & E). exfalso.
      change ([cs; z]) with ([cs] ++ [z]) in E. change ([sum8 m'; z']) with ([sum8 m'] ++ [z']) in E.
      rewrite !app_assoc in E. apply app_inj_tail in E as [E _].
      apply app_inj_tail in E as [-> E2]. congruence.
  - split.
    + destruct (overflow_checks cf); cbn [bind]; [discriminate|].
      destruct (get body (len body + 2 ^ 64 - 2)) eqn:G; cbn [ok_or bind]; [|discriminate].
      apply get_some_lt in G; lia.
    + intros (m & z & ->); exfalso. rewrite len_app in H; change (len [sum8 m; z]) with 2 in H; lia.
Qed.

Lemma validate_panic cf body :
  is_panic (validate_checksum cf body) <-> overflow_checks cf = true /\ len body < 2.
Proof.
  unfold validate_checksum, sub_usize.
  destruct (N.leb_spec 2 (len body)) as [H|H]; cbn [bind].
  - split; [|intros [_ ?]; lia].
    rewrite !is_panic_bind. intros [Hp|(a & _ & Hp)]; [destruct (is_panic_ok_or _ _ Hp)|].
    rewrite is_panic_bind in Hp. destruct Hp as [Hp|(b & _ & Hp)]; [destruct (is_panic_ok_or _ _ Hp)|].
    destruct (a =? checksum b); destruct Hp; discriminate.
  - destruct (overflow_checks cf); cbn [bind].
    + split; [intros _; auto|intros _; exists POverflow; reflexivity].
    + split; [|intros []; discriminate].
      destruct (get body (len body + 2 ^ 64 - 2)) eqn:G; [apply get_some_lt in G; lia|].
      intros [p Hp]; discriminate.
Qed.

Lemma function_codes_ok c f : function_try_from c = Ok f <-> In (c, f) function_codes.
Proof.
  split.
  - unfold function_try_from, function_codes.
    repeat (match goal with |- context [if ?c =? ?k then _ else _] =>
      destruct (N.eqb_spec c k) as [->|?]; [intros [= <-]; cbn [In]; tauto|] end).
    discriminate.
  - cbn [In function_codes]; intros H.
    repeat (destruct H as [[= <- <-]|H]; [reflexivity|]); destruct H.
Qed.

Lemma function_no_panic c : ~ is_panic (function_try_from c).
Proof.
  unfold function_try_from; intros [p H]; revert H.
  repeat (match goal with |- context [if ?c =? ?k then _ else _] =>
    destruct (c =? k); [discriminate|] end); discriminate.
Qed.

Lemma address_code_from b : address_code b (address_from b).
Proof.
  unfold address_from.
  destruct (N.eqb_spec b 0); [assumption|].
  destruct (N.eqb_spec b 253); [assumption|].
  destruct (N.eqb_spec b 254); [assumption|].
  destruct (N.eqb_spec b 255); [assumption|]. cbn; auto.
Qed.

Lemma address_code_fun b a : address_code b a <-> a = address_from b.
Proof.
  split; [|intros ->; apply address_code_from].
  unfold address_code, address_from.
  destruct a as [|p| |[|]]; intros H; try (subst; reflexivity).
  destruct H as (-> & H0 & H1 & H2 & H3).
  apply N.eqb_neq in H0, H1, H2, H3. rewrite H0, H1, H2, H3; reflexivity.
Qed.

(** the two arms as functions of the destructed input *)
Lemma wired_single cf rest : wired_try_from cf (0xE5 :: rest) = Ok (SingleCharacter 0xE5).
Proof. reflexivity. Qed.

Lemma long_arm_ok cf l1 l2 x rest fr :
  wired_try_from cf (0x68 :: l1 :: l2 :: x :: rest) = Ok fr <->
  exists c a payload f, rest = c :: a :: payload ++ [sum8 (c :: a :: payload); 0x16] /\
    l1 = len payload + 2 /\ l2 = l1 /\ In (c, f) function_codes /\
    fr = (if c =? 0x53 then ControlFrame f (address_from a) payload
          else LongFrame f (address_from a) payload).
Proof.
  unfold wired_try_from.
  change (get_from (0x68 :: l1 :: l2 :: x :: rest) 4) with (get_from ([0x68; l1; l2; x] ++ rest) (len [0x68; l1; l2; x])).
  rewrite get_from_app. cbn [ok_or bind].
  change (get (104 :: l1 :: l2 :: x :: rest) 0) with (Some 104).
  change (get (104 :: l1 :: l2 :: x :: rest) 1) with (Some l1).
  change (get (104 :: l1 :: l2 :: x :: rest) 2) with (Some l2).
  change (get (104 :: l1 :: l2 :: x :: rest) 4) with (get rest 0).
  change (get (104 :: l1 :: l2 :: x :: rest) 5) with (get rest 1).
  cbn [ok_or bind N.eqb Pos.eqb].
  split.
  - rewrite bind_ok. intros ([] & Hv & H). apply validate_ok in Hv as (m & z & ->).
    destruct (N.eqb_spec l1 l2) as [<-|]; cbn [negb orb] in H; [|discriminate].
    match type of H with (if negb ?b then _ else _) = _ =>
      destruct b eqn:HL; cbn [negb] in H; [|discriminate] end.
    apply N.eqb_eq in HL.
    rewrite bind_ok in H. destruct H as (lst & Hl & H).
    change (104 :: l1 :: l1 :: x :: m ++ [sum8 m; z]) with ([104; l1; l1; x] ++ m ++ [sum8 m] ++ [z]) in Hl, H.
    rewrite !app_assoc, last_opt_snoc in Hl. injection Hl as <-.
    destruct (N.eqb_spec z 0x16) as [->|]; cbn [negb] in H; [|discriminate].
    rewrite bind_ok in H; destruct H as (c & Hc & H).
    rewrite bind_ok in H; destruct H as (a & Ha & H).
    rewrite bind_ok in H; destruct H as (f & Hf & H).
    rewrite bind_ok in H; destruct H as (de & Hde & H).
    rewrite bind_ok in H; destruct H as (d & Hd & H).
    apply ok_or_ok in Hc, Ha, Hd.
    rewrite !len_cons, len_app in HL. change (len [sum8 m; 22]) with 2 in HL.
    assert (HL' : len m = l1) by lia. clear HL.
    unfold sub_usize in Hde. rewrite !len_app in Hde. cbn [len] in Hde.
    change (len [104; l1; l1; x]) with 4 in Hde. change (len [sum8 m]) with 1 in Hde.
    change (len [22]) with 1 in Hde.
    destruct (N.leb_spec 2 (4 + (len m + (1 + 1)))) as [_|]; [|lia].
    apply Ok_inj in Hde; subst de.
    assert (Hm : 2 <= len m).
    { apply get_range_ok in Hd as (Hd1 & _ & _). lia. }
    destruct m as [|c' [|a' payload]]; [rewrite len_nil in Hm; lia|cbn in Hm; lia|].
    cbn in Hc, Ha. injection Hc as <-. injection Ha as <-.
    change ([104; l1; l1; x] ++ (c' :: a' :: payload) ++ [sum8 (c' :: a' :: payload)] ++ [22])
      with ([104; l1; l1; x; c'; a'] ++ payload ++ [sum8 (c' :: a' :: payload); 22]) in Hd.
    replace (4 + (len (c' :: a' :: payload) + (1 + 1)) - 2) with (6 + len payload) in Hd
      by (rewrite !len_cons; lia).
    change 6 with (len [104; l1; l1; x; c'; a']) in Hd at 1 2.
    rewrite get_range_app in Hd. injection Hd as <-.
    apply function_codes_ok in Hf.
    exists c', a', payload, f. split; [reflexivity|].
    split; [rewrite <- HL', !len_cons; lia|]. split; [reflexivity|]. split; [assumption|].
    destruct (c' =? 0x53); congruence.
  - intros (c & a & payload & f & -> & -> & -> & Hf & ->).
    replace (c :: a :: payload ++ [sum8 (c :: a :: payload); 22])
      with ((c :: a :: payload) ++ [sum8 (c :: a :: payload); 22]) by reflexivity.
    assert (Hv : validate_checksum cf ((c :: a :: payload) ++ [sum8 (c :: a :: payload); 22]) = Ok tt).
    { apply validate_ok; eauto. }
    rewrite Hv; cbn [bind]. rewrite N.eqb_refl; cbn [negb orb].
    match goal with |- (if negb ?b then _ else _) = _ => replace b with true end; cycle 1.
    { symmetry; apply N.eqb_eq. rewrite !len_cons, len_app, !len_cons, len_nil. lia. }
    cbn [negb].
    replace (last_opt (104 :: len payload + 2 :: len payload + 2 :: x
                :: (c :: a :: payload) ++ [sum8 (c :: a :: payload); 22])) with (Some 22); cycle 1.
    { symmetry.
      change (104 :: len payload + 2 :: len payload + 2 :: x
                :: (c :: a :: payload) ++ [sum8 (c :: a :: payload); 22])
        with (([104; len payload + 2; len payload + 2; x]) ++ (c :: a :: payload) ++ [sum8 (c :: a :: payload)] ++ [22]).
      rewrite !app_assoc. apply last_opt_snoc. }
    cbn [ok_or bind N.eqb Pos.eqb negb].
    change (get ((c :: a :: payload) ++ [sum8 (c :: a :: payload); 22]) 0) with (Some c).
    change (get ((c :: a :: payload) ++ [sum8 (c :: a :: payload); 22]) 1) with (Some a).
    cbn [ok_or bind]. apply function_codes_ok in Hf. rewrite Hf. cbn [bind].
    unfold sub_usize.
    assert (HLen : len (104 :: len payload + 2 :: len payload + 2 :: x
               :: (c :: a :: payload) ++ [sum8 (c :: a :: payload); 22]) = 8 + len payload).
    { rewrite !len_cons, len_app, !len_cons, len_nil; lia. }
    rewrite HLen. destruct (N.leb_spec 2 (8 + len payload)) as [_|]; [|lia]. cbn [bind].
    change (104 :: len payload + 2 :: len payload + 2 :: x
               :: (c :: a :: payload) ++ [sum8 (c :: a :: payload); 22])
      with ([104; len payload + 2; len payload + 2; x; c; a] ++ payload ++ [sum8 (c :: a :: payload); 22]).
    replace (8 + len payload - 2) with (len [104; len payload + 2; len payload + 2; x; c; a] + len payload)
      by (rewrite !len_cons, len_nil; lia).
    change 6 with (len [104; len payload + 2; len payload + 2; x; c; a]) at 1.
    rewrite get_range_app. cbn [ok_or bind].
    destruct (c =? 0x53); reflexivity.
Qed.

Lemma short_arm_ok cf c a rest fr :
  wired_try_from cf (0x10 :: c :: a :: rest) = Ok fr <->
  exists f, rest = [sum8 [c; a]; 0x16] /\ In (c, f) function_codes /\
    fr = ShortFrame f (address_from a).
Proof.
  unfold wired_try_from.
  change (get_from (0x10 :: c :: a :: rest) 1) with (get_from ([0x10] ++ c :: a :: rest) (len [0x10])).
  rewrite get_from_app.
  change (get (16 :: c :: a :: rest) 0) with (Some 16).
  change (get (16 :: c :: a :: rest) 1) with (Some c).
  change (get (16 :: c :: a :: rest) 2) with (Some a).
  cbn [ok_or bind N.eqb Pos.eqb].
  split.
  - rewrite bind_ok. intros ([] & Hv & H). apply validate_ok in Hv as (m & z & E).
    match type of H with (if ?b then _ else _) = _ => destruct b eqn:HL; [|discriminate] end.
    apply N.eqb_eq in HL. cbn [app] in HL. rewrite !len_cons in HL.
    destruct rest as [|r0 [|r1 [|r2 rest]]]; try (rewrite ?len_cons, ?len_nil in HL; lia).
    rewrite bind_ok in H; destruct H as (lst & Hl & H).
    change (Ok (E := frame_error) r1 = Ok lst) in Hl. apply Ok_inj in Hl; subst lst.
    destruct (N.eqb_spec r1 0x16) as [->|]; [|discriminate].
    rewrite bind_ok in H; destruct H as (f & Hf & H). apply Ok_inj in H; subst fr.
    destruct m as [|m0 [|m1 [|m2 m]]]; cbn in E; try discriminate.
    2:{ exfalso. apply (f_equal len) in E. rewrite !len_cons, len_app, len_nil in E.
        change (len [sum8 (m0 :: m1 :: m2 :: m); z]) with 2 in E. lia. }
    injection E as -> -> -> ->.
    exists f. repeat split. apply function_codes_ok; assumption.
  - intros (f & -> & Hf & ->). apply function_codes_ok in Hf.
    replace (validate_checksum cf [c; a; sum8 [c; a]; 22]) with (Ok (E:=frame_error) tt); cycle 1.
    { symmetry; apply validate_ok. exists [c; a], 22; reflexivity. }
    cbn [bind]. cbn. rewrite Hf. reflexivity.
Qed.

Lemma wired_ok_iff cf data fr : wired_try_from cf data = Ok fr <-> wired_meaning data fr.
Proof.
  split.
  - intros H. destruct data as [|b0 rest]; [discriminate|].
    destruct (N.eqb_spec b0 0xE5) as [->|H5].
    { rewrite wired_single in H; injection H as <-; constructor. }
    assert (H5' : (b0 =? 0xE5) = false) by (apply N.eqb_neq; assumption).
    destruct (N.eqb_spec b0 0x68) as [->|H68]; [|destruct (N.eqb_spec b0 0x10) as [->|H10]].
    + destruct rest as [|l1 [|l2 [|x rest]]]; try discriminate.
      apply long_arm_ok in H as (c & a & payload & f & -> & -> & -> & Hf & ->).
      destruct (N.eqb_spec c 0x53) as [->|Hc].
      * apply WControl; [assumption|apply address_code_from].
      * apply WLong; [assumption|apply address_code_from|assumption].
    + destruct rest as [|c [|a rest]]; try discriminate.
      apply short_arm_ok in H as (f & -> & Hf & ->).
      apply WShort; [assumption|apply address_code_from].
    + exfalso. unfold wired_try_from in H. rewrite get_cons_0 in H. cbn [ok_or bind] in H.
      rewrite H5' in H. apply bind_ok in H as (? & _ & H). apply bind_ok in H as (? & _ & H).
      apply N.eqb_neq in H68, H10. rewrite H68, H10 in H. discriminate.
  - intros H. destruct H as [rest|c a f ad Hf Ha|x c a f ad payload Hf Ha Hc|x a f ad payload Hf Ha].
    + reflexivity.
    + apply address_code_fun in Ha as ->. apply short_arm_ok. eauto.
    + apply address_code_fun in Ha as ->. apply long_arm_ok.
      exists c, a, payload, f. apply N.eqb_neq in Hc; rewrite Hc. repeat split. assumption.
    + apply address_code_fun in Ha as ->. apply long_arm_ok.
      exists 0x53, a, payload, f. repeat split. assumption.
Qed.
