(** Consequences of the characterisation of wired parsing. *)
From Verif Require Import Proof.BaseFacts Model.Core Model.Wired Spec.WiredSpec Proof.WiredFacts.

Lemma wired_panic_iff cf data :
  is_panic (wired_try_from cf data) <->
  overflow_checks cf = true /\ get data 0 = Some 0x68 /\ 4 <= len data <= 5.
Proof.
  split.
  - intros Hp.
    destruct data as [|b0 rest]; [destruct Hp; discriminate|].
    unfold wired_try_from in Hp. rewrite get_cons_0 in Hp. cbn [ok_or bind] in Hp.
    destruct (b0 =? 0xE5); [destruct Hp; discriminate|].
    destruct rest as [|l1 [|l2 rest]]; try (destruct Hp; discriminate).
    change (get (b0 :: l1 :: l2 :: rest) 1) with (Some l1) in Hp.
    change (get (b0 :: l1 :: l2 :: rest) 2) with (Some l2) in Hp. cbn [ok_or bind] in Hp.
    destruct (N.eqb_spec b0 0x68) as [->|H68].
    + apply is_panic_bind in Hp as [Hp|(body & Hb & Hp)]; [destruct (is_panic_ok_or _ _ Hp)|].
      apply ok_or_ok, get_from_ok in Hb as [Hl Hb].
      apply is_panic_bind in Hp as [Hp|(u & Hv & Hp)].
      * apply validate_panic in Hp as [Ho Hlen]. split; [assumption|]. split; [reflexivity|].
        subst body. rewrite len_skipn in Hlen. lia.
      * exfalso. apply validate_ok in Hv as (m & z & Hv).
        assert (Hlen : 6 <= len (104 :: l1 :: l2 :: rest)).
        { rewrite Hv in Hb. apply (f_equal len) in Hb.
          rewrite len_app, len_skipn in Hb. change (len [sum8 m; z]) with 2 in Hb. lia. }
        match type of Hp with is_panic (if ?b then _ else _) => destruct b end; [destruct Hp; discriminate|].
        apply is_panic_bind in Hp as [Hp|(lst & _ & Hp)]; [destruct (is_panic_ok_or _ _ Hp)|].
        match type of Hp with is_panic (if ?b then _ else _) => destruct b end; [destruct Hp; discriminate|].
        apply is_panic_bind in Hp as [Hp|(c & _ & Hp)]; [destruct (is_panic_ok_or _ _ Hp)|].
        apply is_panic_bind in Hp as [Hp|(a & _ & Hp)]; [destruct (is_panic_ok_or _ _ Hp)|].
        apply is_panic_bind in Hp as [Hp|(f & _ & Hp)]; [destruct (function_no_panic _ Hp)|].
        apply is_panic_bind in Hp as [Hp|(d & _ & Hp)].
        { unfold sub_usize in Hp. destruct (N.leb_spec 2 (len (104 :: l1 :: l2 :: rest))); [|lia].
          destruct Hp; discriminate. }
        apply is_panic_bind in Hp as [Hp|(e & _ & Hp)]; [destruct (is_panic_ok_or _ _ Hp)|].
        destruct (c =? 0x53); destruct Hp; discriminate.
    + exfalso. destruct (N.eqb_spec b0 0x10) as [->|H10]; [|destruct Hp; discriminate].
      apply is_panic_bind in Hp as [Hp|(body & Hb & Hp)]; [destruct (is_panic_ok_or _ _ Hp)|].
      apply ok_or_ok, get_from_ok in Hb as [Hl Hb].
      apply is_panic_bind in Hp as [Hp|(u & Hv & Hp)].
      * apply validate_panic in Hp as [_ Hlen]. subst body.
        change (N.to_nat 1) with 1%nat in Hlen. cbn [skipn] in Hlen. rewrite !len_cons in Hlen. lia.
      * match type of Hp with is_panic (if ?b then _ else _) => destruct b end; [|destruct Hp; discriminate].
        apply is_panic_bind in Hp as [Hp|(lst & _ & Hp)]; [destruct (is_panic_ok_or _ _ Hp)|].
        match type of Hp with is_panic (if ?b then _ else _) => destruct b end; [|destruct Hp; discriminate].
        apply is_panic_bind in Hp as [Hp|(f & _ & Hp)]; [destruct (function_no_panic _ Hp)|].
        destruct Hp; discriminate.
  - intros (Ho & H0 & Hl).
    destruct data as [|b0 [|l1 [|l2 [|x rest]]]];
      try (rewrite ?len_cons, ?len_nil in Hl; lia).
    cbn in H0. injection H0 as ->.
    unfold wired_try_from.
    change (get (104 :: l1 :: l2 :: x :: rest) 0) with (Some 104).
    change (get (104 :: l1 :: l2 :: x :: rest) 1) with (Some l1).
    change (get (104 :: l1 :: l2 :: x :: rest) 2) with (Some l2).
    change (get_from (0x68 :: l1 :: l2 :: x :: rest) 4) with (get_from ([0x68; l1; l2; x] ++ rest) (len [0x68; l1; l2; x])).
    rewrite get_from_app. cbn [ok_or bind N.eqb Pos.eqb].
    apply is_panic_bind; left. apply validate_panic. split; [assumption|].
    rewrite !len_cons in Hl; lia.
Qed.

Lemma sum8_cons_lt l : sum8 l < 256.
Proof. unfold sum8; lia. Qed.

Lemma wired_round_trip cf c f a ad payload :
  In (c, f) function_codes -> address_code a ad ->
  wired_try_from cf (standard_long c a payload) =
    Ok (if c =? 0x53 then ControlFrame f ad payload else LongFrame f ad payload)
  /\ wired_try_from cf (short_layout c a) = Ok (ShortFrame f ad).
Proof.
  intros Hf Ha; split; apply wired_ok_iff; [|constructor; assumption].
  destruct (N.eqb_spec c 0x53) as [->|Hc]; constructor; assumption.
Qed.

Lemma function_code_byte c f : In (c, f) function_codes -> c < 256.
Proof.
  cbn [In function_codes]; intros H.
  repeat (destruct H as [[= <- <-]|H]; [lia|]); destruct H.
Qed.

Lemma standard_long_bytes c a payload :
  c < 256 -> a < 256 -> bytes_ok payload -> len payload <= 253 ->
  bytes_ok (standard_long c a payload).
Proof.
  intros Hc Ha Hp Hl. unfold standard_long, long_layout.
  fold (len payload).
  do 6 (apply Forall_cons; [unfold byte_ok; lia|]).
  apply Forall_app; split; [assumption|].
  apply Forall_cons; [apply sum8_cons_lt|].
  apply Forall_cons; [unfold byte_ok; lia|apply Forall_nil].
Qed.

Lemma app_inj_len {A} (a b c d : list A) : length a = length c -> a ++ b = c ++ d -> a = c /\ b = d.
Proof.
  revert c; induction a as [|x a IH]; intros [|y c]; cbn; try discriminate; [auto|].
  intros [= Hl] [= -> H]. destruct (IH c Hl H) as [-> ->]; auto.
Qed.

Lemma replace_byte_length l i b : (i < length l)%nat -> length (replace_byte l i b) = length l.
Proof.
  intros H; unfold replace_byte. rewrite app_length, firstn_length; cbn [length].
  rewrite skipn_length; lia.
Qed.

Lemma replace_byte_app1 l m i b : (i < length l)%nat ->
  replace_byte (l ++ m) i b = replace_byte l i b ++ m.
Proof.
  intros H; unfold replace_byte. rewrite firstn_app, skipn_app.
  replace (i - length l)%nat with 0%nat by lia.
  replace (S i - length l)%nat with 0%nat by lia.
  rewrite firstn_O, app_nil_r. cbn [skipn]. rewrite <- app_assoc; reflexivity.
Qed.

Lemma replace_byte_app2 l m i b : (length l <= i)%nat ->
  replace_byte (l ++ m) i b = l ++ replace_byte m (i - length l) b.
Proof.
  intros H; unfold replace_byte. rewrite firstn_app, skipn_app.
  rewrite firstn_all2 by lia. rewrite skipn_all2 by lia. cbn [app].
  replace (S i - length l)%nat with (S (i - length l)) by lia.
  rewrite <- app_assoc; reflexivity.
Qed.

Lemma replace_split l i : (i < length l)%nat ->
  exists p o r, l = p ++ o :: r /\ length p = i /\
    forall b, replace_byte l i b = p ++ b :: r.
Proof.
  intros H. destruct (nth_error l i) as [o|] eqn:E; [|apply nth_error_None in E; lia].
  apply nth_error_split in E as (p & r & -> & Hp).
  exists p, o, r. split; [reflexivity|]. split; [assumption|].
  intros b; unfold replace_byte. rewrite firstn_app, skipn_app.
  replace (i - length p)%nat with 0%nat by lia. replace (S i - length p)%nat with 1%nat by lia.
  rewrite firstn_all2, skipn_all2 by lia. cbn [firstn skipn app]. rewrite app_nil_r; reflexivity.
Qed.

Lemma fold_add_app p r : fold_right N.add 0 (p ++ r) = fold_right N.add 0 p + fold_right N.add 0 r.
Proof. induction p as [|x p IH]; cbn [fold_right app]; [reflexivity|]. rewrite IH; lia. Qed.

Lemma sum8_change p o b r : o < 256 -> b < 256 -> b <> o ->
  sum8 (p ++ b :: r) <> sum8 (p ++ o :: r).
Proof.
  intros Ho Hb Hn. unfold sum8. rewrite !fold_add_app; cbn [fold_right].
  generalize (fold_right N.add 0 p) (fold_right N.add 0 r); intros x y. lia.
Qed.

Lemma body_change m m' z i b :
  bytes_ok m -> b < 256 -> length m = length m' -> (i < length m + 2)%nat ->
  nth_error (m ++ [sum8 m; z]) i <> Some b ->
  replace_byte (m ++ [sum8 m; z]) i b <> m' ++ [sum8 m'; z].
Proof.
  intros Hm Hb Hlen Hi Hn E.
  destruct (Nat.lt_ge_cases i (length m)) as [Hlt|Hge].
  - rewrite replace_byte_app1 in E by assumption.
    apply app_inj_len in E as [E1 E2]; [|rewrite replace_byte_length; assumption].
    injection E2 as E2. rewrite nth_error_app1 in Hn by assumption.
    destruct (replace_split m i Hlt) as (p & o & r & -> & Hp & Hr).
    rewrite Hr in E1. subst m'.
    apply bytes_ok_app in Hm as [_ Hm]. apply bytes_ok_cons in Hm as [Ho _].
    rewrite nth_error_app2 in Hn by lia.
    replace (i - length p)%nat with 0%nat in Hn by lia. cbn [nth_error] in Hn.
    apply (sum8_change p o b r Ho Hb); [congruence|]. symmetry; assumption.
  - rewrite replace_byte_app2 in E by assumption.
    apply app_inj_len in E as [<- E2]; [|assumption].
    rewrite nth_error_app2 in Hn by assumption.
    destruct (i - length m)%nat as [|[|k]] eqn:Ek; cbn in E2, Hn.
    + injection E2 as E2. congruence.
    + injection E2 as E2. congruence.
    + lia.
Qed.

Lemma wired_first_byte cf b rest fr :
  wired_try_from cf (b :: rest) = Ok fr ->
  (b = 0xE5 /\ fr = SingleCharacter 0xE5) \/ (b = 0x10 /\ length rest = 4%nat) \/
  (b = 0x68 /\ (7 <= length rest)%nat).
Proof.
  intros H. apply wired_ok_iff in H.
  remember (b :: rest) as data eqn:E.
  destruct H as [r|c a f ad Hf Ha|x c a f ad payload Hf Ha Hc|x a f ad payload Hf Ha];
    unfold short_layout, long_layout in E; injection E as <- <-.
  - auto.
  - right; left; auto.
  - right; right. cbn [length]. rewrite app_length; cbn [length]. lia.
  - right; right. cbn [length]. rewrite app_length; cbn [length]. lia.
Qed.

Lemma wired_single_byte cf data fr i b fr' :
  bytes_ok data -> wired_try_from cf data = Ok fr -> is_data_frame fr ->
  (i < length data)%nat -> b < 256 -> nth_error data i <> Some b ->
  wired_try_from cf (replace_byte data i b) = Ok fr' ->
  (i = 0%nat /\ b = 0xE5 /\ fr' = SingleCharacter 0xE5) \/
  (i = 3%nat /\ get data 0 = Some 0x68 /\ fr' = fr).
Proof.
  intros Hok Hfr Hd Hi Hb Hn Hfr'. apply wired_ok_iff in Hfr.
  (* long and control frames share everything but the constructor *)
  assert (Hlong : forall x c a payload,
    data = long_layout x c a payload ->
    (i = 0%nat /\ b = 0xE5 /\ fr' = SingleCharacter 0xE5) \/
    (i = 3%nat /\ replace_byte data i b = long_layout b c a payload)).
  { intros x c a payload ->. unfold long_layout in *.
    set (m := c :: a :: payload) in *. fold (len payload) in *.
    change (c :: a :: payload ++ [sum8 m; 22]) with (m ++ [sum8 m; 22]) in *.
    assert (Hm : bytes_ok m).
    { do 4 (apply bytes_ok_cons in Hok as [_ Hok]).
      apply bytes_ok_app in Hok as [Hok _]. exact Hok. }
    destruct i as [|[|[|[|j]]]].
    - left. unfold replace_byte in Hfr'. cbn [firstn skipn app] in Hfr'.
      apply wired_first_byte in Hfr' as [H|[[_ H]|[-> _]]]; [tauto| |].
      + exfalso. unfold m in H. cbn [length app] in H. rewrite app_length in H; cbn [length] in H; lia.
      + destruct (Hn eq_refl).
    - exfalso. unfold replace_byte in Hfr'. cbn [firstn skipn app] in Hfr'.
      apply long_arm_ok in Hfr' as (c' & a' & p' & f' & E & -> & E2 & _).
      apply Hn. cbn. f_equal. assumption.
    - exfalso. unfold replace_byte in Hfr'. cbn [firstn skipn app] in Hfr'.
      apply long_arm_ok in Hfr' as (c' & a' & p' & f' & E & E1 & E2 & _).
      apply Hn. cbn. f_equal. congruence.
    - right. split; [reflexivity|]. reflexivity.
    - exfalso. change (104 :: len payload + 2 :: len payload + 2 :: x :: m ++ [sum8 m; 22])
        with ([104; len payload + 2; len payload + 2; x] ++ m ++ [sum8 m; 22]) in *.
      rewrite replace_byte_app2 in Hfr' by (cbn [length]; lia).
      cbn [length app] in Hfr'. replace (S (S (S (S j))) - 4)%nat with j in Hfr' by lia.
      apply long_arm_ok in Hfr' as (c' & a' & p' & f' & E & E1 & _).
      change (c' :: a' :: p' ++ [sum8 (c' :: a' :: p'); 22])
        with ((c' :: a' :: p') ++ [sum8 (c' :: a' :: p'); 22]) in E.
      revert E. apply body_change; try assumption.
      + unfold m. cbn [length]. unfold len in E1. lia.
      + rewrite !app_length in Hi. cbn [length] in Hi. lia. }
  destruct Hfr as [rest|c a f ad Hf Ha|x c a f ad payload Hf Ha Hc|x a f ad payload Hf Ha].
  - destruct Hd.
  - unfold short_layout in *.
    destruct i as [|j].
    + left. unfold replace_byte in Hfr'. cbn [firstn skipn app] in Hfr'.
      apply wired_first_byte in Hfr' as [H|[[-> _]|[_ H]]]; [tauto| |].
      * destruct (Hn eq_refl).
      * exfalso. cbn [length] in H; lia.
    + exfalso. change ([16; c; a; sum8 [c; a]; 22]) with ([16] ++ [c; a] ++ [sum8 [c; a]; 22]) in *.
      rewrite replace_byte_app2 in Hfr' by (cbn [length]; lia). cbn [length app] in Hfr'.
      replace (S j - 1)%nat with j in Hfr' by lia.
      destruct (replace_byte [c; a; sum8 [c; a]; 22] j b) as [|c' [|a' rest]] eqn:E;
        try discriminate.
      apply short_arm_ok in Hfr' as (f' & -> & _).
      change [c'; a'; sum8 [c'; a']; 22] with ([c'; a'] ++ [sum8 [c'; a']; 22]) in E.
      revert E. change [c; a; sum8 [c; a]; 22] with ([c; a] ++ [sum8 [c; a]; 22]).
      apply body_change; try assumption; try reflexivity.
      * apply bytes_ok_app in Hok as [_ Hok]. apply bytes_ok_app in Hok as [Hok _]. assumption.
      * cbn [length app] in Hi |- *. lia.
  - destruct (Hlong _ _ _ _ eq_refl) as [H|[-> H]]; [left; assumption|right].
    split; [reflexivity|]. split; [reflexivity|].
    rewrite H in Hfr'. apply wired_ok_iff in Hfr'.
    assert (H2 : wired_meaning (long_layout b c a payload) (LongFrame f ad payload)) by (constructor; assumption).
    apply (wired_ok_iff cf) in Hfr', H2. congruence.
  - destruct (Hlong _ _ _ _ eq_refl) as [H|[-> H]]; [left; assumption|right].
    split; [reflexivity|]. split; [reflexivity|].
    rewrite H in Hfr'. apply wired_ok_iff in Hfr'.
    assert (H2 : wired_meaning (long_layout b 0x53 a payload) (ControlFrame f ad payload)) by (constructor; assumption).
    apply (wired_ok_iff cf) in Hfr', H2. congruence.
Qed.

(** total length as a function of the first two bytes *)
Lemma wired_length cf data fr :
  wired_try_from cf data = Ok fr -> is_data_frame fr ->
  (get data 0 = Some 0x10 /\ len data = 5) \/
  (get data 0 = Some 0x68 /\ exists l, get data 1 = Some l /\ len data = l + 6).
Proof.
  intros H Hd. apply wired_ok_iff in H.
  destruct H as [rest|c a f ad Hf Ha|x c a f ad payload Hf Ha Hc|x a f ad payload Hf Ha].
  - destruct Hd.
  - left; split; reflexivity.
  - right; split; [reflexivity|]. eexists; split; [reflexivity|].
    unfold long_layout. fold (len payload). rewrite !len_cons, len_app, !len_cons, len_nil; lia.
  - right; split; [reflexivity|]. eexists; split; [reflexivity|].
    unfold long_layout. fold (len payload). rewrite !len_cons, len_app, !len_cons, len_nil; lia.
Qed.

Lemma wired_self_delimiting cf data ext fr fr' :
  wired_try_from cf data = Ok fr -> is_data_frame fr ->
  wired_try_from cf (data ++ ext) = Ok fr' -> is_data_frame fr' ->
  ext = [] /\ fr' = fr.
Proof.
  intros H Hd H' Hd'.
  assert (E : ext = []).
  { apply len_0.
    destruct (wired_length _ _ _ H Hd) as [[H0 Hl]|(H0 & l & H1 & Hl)];
    destruct (wired_length _ _ _ H' Hd') as [[H0' Hl']|(H0' & l' & H1' & Hl')];
    rewrite len_app in Hl'.
    - lia.
    - rewrite get_app_l in H0' by lia. congruence.
    - rewrite get_app_l in H0' by lia. congruence.
    - rewrite get_app_l in H1' by lia.
      assert (l = l') by congruence. lia. }
  subst ext. rewrite app_nil_r in H'. split; [reflexivity|congruence].
Qed.

Lemma wired_any_second_start cf x c f a ad payload :
  In (c, f) function_codes -> address_code a ad ->
  wired_try_from cf (long_layout x c a payload) =
    Ok (if c =? 0x53 then ControlFrame f ad payload else LongFrame f ad payload).
Proof.
  intros Hf Ha; apply wired_ok_iff.
  destruct (N.eqb_spec c 0x53) as [->|Hc]; constructor; assumption.
Qed.

Lemma wired_start_byte cf data fr :
  wired_try_from cf data = Ok fr ->
  match fr with
  | LongFrame _ _ _ | ControlFrame _ _ _ => get data 0 = Some 0x68
  | ShortFrame _ _ => get data 0 = Some 0x10
  | SingleCharacter _ => get data 0 = Some 0xE5
  end.
Proof. intros H; apply wired_ok_iff in H; destruct H; reflexivity. Qed.

Lemma wired_single_byte_refuted :
  exists data fr i b fr',
    bytes_ok data /\
    wired_try_from {| overflow_checks := true; plaintext_before_extension := false |} data = Ok fr /\
    is_data_frame fr /\
    (i < length data)%nat /\ b < 256 /\ nth_error data i <> Some b /\
    wired_try_from {| overflow_checks := true; plaintext_before_extension := false |}
      (replace_byte data i b) = Ok fr'.
Proof.
  exists [0x68; 5; 5; 0x68; 0x08; 1; 0x72; 7; 9; 139; 0x16],
    (LongFrame (RspUd false false) (Primary 1) [0x72; 7; 9]), 3%nat, 0,
    (LongFrame (RspUd false false) (Primary 1) [0x72; 7; 9]).
  split; [repeat (apply Forall_cons; [reflexivity|]); apply Forall_nil|].
  repeat split; try reflexivity; [cbn; repeat constructor|discriminate].
Qed.

Lemma wired_panic_refuted :
  exists data, bytes_ok data /\
    is_panic (wired_try_from {| overflow_checks := true; plaintext_before_extension := false |} data).
Proof.
  exists [0x68; 3; 3; 0x68]. split; [repeat (apply Forall_cons; [reflexivity|]); apply Forall_nil|].
  exists POverflow; reflexivity.
Qed.

Lemma wired_second_start_refuted : exists data f a d,
  bytes_ok data /\
  wired_try_from {| overflow_checks := true; plaintext_before_extension := false |} data
    = Ok (LongFrame f a d) /\ get data 3 <> Some 0x68.
Proof.
  exists [0x68; 5; 5; 0x99; 0x08; 1; 0x72; 7; 9; 139; 0x16],
    (RspUd false false), (Primary 1), [0x72; 7; 9].
  split; [repeat (apply Forall_cons; [reflexivity|]); apply Forall_nil|].
  split; [reflexivity|discriminate].
Qed.
