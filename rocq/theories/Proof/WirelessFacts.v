(** Wireless link layer. *)
From Verif Require Import Proof.BaseFacts Model.Core Model.Wireless Proof.CoreFacts Proof.CrcFacts
  Proof.WiredFacts Spec.CoreSpec Spec.CrcSpec Spec.WiredSpec Spec.WirelessSpec.

Lemma crc_eqb l hi lo : bytes_ok l ->
  (crc16_en13757 l =? u16_be hi lo) = true <-> is_crc l (256 * hi + lo).
Proof.
  intros Hl. rewrite N.eqb_eq. unfold u16_be. rewrite <- crc_iff by assumption.
  split; congruence.
Qed.

Lemma trailing_none {E} l : len l < 12 -> @trailing_frame_crc_start E l = Ok None.
Proof.
  intros H. unfold trailing_frame_crc_start.
  destruct (N.ltb_spec (len l) 2); [reflexivity|]. cbv zeta.
  destruct (N.ltb_spec (len l - 2) 10); [reflexivity|lia].
Qed.

Lemma index_app {E A} (l : list A) a m : index (E := E) (l ++ a :: m) (len l) = Ok a.
Proof. unfold index. rewrite get_app_r by lia. rewrite N.sub_diag. reflexivity. Qed.

Lemma trailing_snoc {E} pre hi lo : 10 <= len pre ->
  @trailing_frame_crc_start E (pre ++ [hi; lo]) =
  Ok (if crc16_en13757 pre =? u16_be hi lo then Some (len pre) else None).
Proof.
  intros H. unfold trailing_frame_crc_start. rewrite len_app. change (len [hi; lo]) with 2.
  destruct (N.ltb_spec (len pre + 2) 2); [lia|]. cbv zeta.
  replace (len pre + 2 - 2) with (len pre) by lia.
  destruct (N.ltb_spec (len pre) 10); [lia|].
  rewrite index_app. cbn [bind].
  replace (index (pre ++ [hi; lo]) (len pre + 1)) with (@Ok E N lo).
  2:{ symmetry. change [hi; lo] with ([hi] ++ [lo]). rewrite app_assoc.
      replace (len pre + 1) with (len (pre ++ [hi])) by (rewrite len_app; reflexivity).
      apply index_app. }
  cbn [bind]. unfold index_range.
  replace (get_range (pre ++ [hi; lo]) 0 (len pre)) with (Some pre).
  2:{ symmetry. exact (get_range_app [] pre [hi; lo]). }
  reflexivity.
Qed.

Lemma list_cases2 {A} (l : list A) :
  l = [] \/ (exists a, l = [a]) \/ exists p a b, l = p ++ [a; b].
Proof.
  destruct (list_snoc l) as [->|(m & b & ->)]; [auto|].
  destruct (list_snoc m) as [->|(p & a & ->)]; [right; left; exists b; reflexivity|].
  right; right. exists p, a, b. rewrite <- app_assoc. reflexivity.
Qed.

Lemma mid_ok m0 m1 i0 i1 i2 i3 v d ci rest id :
  m0 < 256 -> m1 < 256 -> d < 256 ->
  manufacturer_id_try_from (m0 :: m1 :: i0 :: i1 :: i2 :: i3 :: v :: d :: ci :: rest) = Ok id <->
  identity m0 m1 i0 i1 i2 i3 v d ci id.
Proof.
  intros Hm0 Hm1 Hd. unfold manufacturer_id_try_from.
  set (data := m0 :: m1 :: i0 :: i1 :: i2 :: i3 :: v :: d :: ci :: rest).
  change (get data 0) with (Some m0). change (get data 1) with (Some m1).
  change (get data 2) with (Some i0). change (get data 3) with (Some i1).
  change (get data 4) with (Some i2). change (get data 5) with (Some i3).
  change (get data 6) with (Some v). change (get data 7) with (Some d).
  change (get data 8) with (Some ci).
  cbn [ok_or bind].
  assert (Hdev : (if (160 <=? ci) && (ci <=? 175) then N.land (N.shiftr d 4) 15 else d) =
                 (if (160 <=? ci) && (ci <=? 175) then d / 16 else d)).
  { rewrite land_15, shiftr_4. destruct ((160 <=? ci) && (ci <=? 175)); [|reflexivity]. lia. }
  unfold identity. cbv zeta. split.
  - intros H. apply bind_ok in H as (code & Hc & H). apply map_err_ok in Hc.
    apply bind_ok in H as (num & Hn & H). apply map_err_ok in Hn.
    apply Ok_inj in H. subst id. cbn [mi_manufacturer_code mi_identification_number mi_version mi_device_type mi_is_unique_globally].
    apply mc_from_id_ok in Hc as [(Hl1 & Hl2 & Hl3) Hc]; [|unfold u16_le; lia].
    apply bcd_spells in Hn. unfold u16_le in Hc. rewrite Hdev. auto 10.
  - intros (H1 & H2 & H3 & H4 & H5 & H6 & H7 & H8).
    apply bind_ok. exists (mi_manufacturer_code id). split.
    { apply map_err_ok. apply mc_from_id_ok; [unfold u16_le; lia|]. split; [repeat split; apply H1 || apply H2 || apply H3|].
      exact H4. }
    apply bind_ok. exists (mi_identification_number id). split.
    { apply map_err_ok. apply bcd_spells. exact H5. }
    rewrite Hdev. destruct id; cbn in *. subst. reflexivity.
Qed.

Lemma mid_panic data : ~ is_panic (manufacturer_id_try_from data).
Proof.
  unfold manufacturer_id_try_from, or_too_short. intros Hp.
  panic_steps Hp; [apply (mc_from_id_panic _ Hp)|apply (bcd_panic _ Hp)].
Qed.

Lemma mid_err data e : manufacturer_id_try_from data = Err e -> e = WlTooShort.
Proof.
  unfold manufacturer_id_try_from. intros H.
  assert (B : forall A B (x : outcome wl_frame_error A) (f : A -> outcome wl_frame_error B),
     (x = Err e -> e = WlTooShort) -> (forall a, f a = Err e -> e = WlTooShort) ->
     bind x f = Err e -> e = WlTooShort).
  { intros A B [a|e'|p] f Hx Hf; cbn; [apply Hf|intros [= ->]; auto|discriminate]. }
  assert (O : forall A (o : option A), ok_or o WlTooShort = Err e -> e = WlTooShort).
  { intros A [a|]; cbn; congruence. }
  assert (M : forall E A (o : outcome E A), or_too_short o = Err e -> e = WlTooShort).
  { intros E A [a|e'|p]; cbn; congruence. }
  revert H. repeat (apply B; [apply O || apply M|intros ?]). discriminate.
Qed.

Lemma mid_short data : len data < 9 -> manufacturer_id_try_from data = Err WlTooShort.
Proof.
  intros Hl. destruct (manufacturer_id_try_from data) as [id|e|p] eqn:E.
  - exfalso. unfold manufacturer_id_try_from in E.
    repeat (apply bind_ok in E as (? & ?H & E)).
    apply ok_or_ok, get_some_lt in H9. lia.
  - f_equal. exact (mid_err _ _ E).
  - exfalso. apply (mid_panic data). exists p; assumption.
Qed.

Lemma data11 (data : list N) : 11 <= len data ->
  exists l c m0 m1 i0 i1 i2 i3 v d ci rest,
    data = l :: c :: m0 :: m1 :: i0 :: i1 :: i2 :: i3 :: v :: d :: ci :: rest.
Proof.
  intros H.
  do 11 (destruct data as [|? data]; [rewrite ?len_cons, ?len_nil in H; lia|]).
  repeat eexists.
Qed.

Lemma function_opt c : forall f, ok_opt (function_try_from c) = Some f <-> In (c, f) function_codes.
Proof.
  intros f. rewrite <- function_codes_ok. unfold ok_opt.
  destruct (function_try_from c); split; congruence.
Qed.

Lemma index_range_tail {E} (pre l : list N) :
  index_range (E := E) (pre ++ l) (len pre) (len (pre ++ l)) = Ok l.
Proof.
  unfold index_range. rewrite <- (app_nil_r l) at 1. rewrite len_app.
  rewrite get_range_app. reflexivity.
Qed.

(** everything after the header has been decoded *)
Lemma wireless_tail l c m0 m1 i0 i1 i2 i3 v d ci rest :
  let header := [l; c; m0; m1; i0; i1; i2; i3; v; d] in
  let data := header ++ ci :: rest in
  bytes_ok data ->
  exists payload, payload_of header (ci :: rest) payload /\
    forall id, manufacturer_id_try_from (skipn 2 data) = Ok id ->
      wireless_try_from data =
        if l + 1 =? len data
        then Ok {| wf_control_field := c; wf_function := ok_opt (function_try_from c);
                   wf_manufacturer_id := id; wf_data := payload |}
        else Err (WlWrongLength (l + 1) (len data)).
Proof.
  intros header data Hok.
  assert (Hstart : forall id, manufacturer_id_try_from (skipn 2 data) = Ok id ->
    wireless_try_from data =
      if l + 1 =? len data then
        crc_start <- trailing_frame_crc_start data ;;
        let data_end := match crc_start with Some n => n | None => len data end in
        dd <- index_range data 10 data_end ;;
        Ok {| wf_control_field := c; wf_function := ok_opt (function_try_from c);
              wf_manufacturer_id := id; wf_data := dd |}
      else Err (WlWrongLength (l + 1) (len data))).
  { intros id Hid. unfold wireless_try_from.
    change (get data 0) with (Some l). change (get data 1) with (Some c). cbn [ok_or bind].
    replace (index_range data 2 (len data)) with (Ok (E := wl_frame_error) (skipn 2 data)).
    2:{ symmetry. change data with ([l; c] ++ skipn 2 data). apply index_range_tail. }
    cbn [bind]. rewrite Hid. reflexivity. }
  assert (Hh : len header = 10) by reflexivity.
  destruct (list_cases2 rest) as [->|[(y & ->)|(p & hi & lo & E)]].
  - (* one byte after the header *)
    exists [ci]. split.
    + right. split; [reflexivity|]. intros p hi lo E. exfalso.
      apply (f_equal (@length N)) in E. rewrite app_length in E; cbn [length] in E. lia.
    + intros id Hid. rewrite (Hstart id Hid). rewrite trailing_none by (vm_compute; reflexivity). reflexivity.
  - (* two bytes *)
    assert (Ht : trailing_frame_crc_start (E := wl_frame_error) data =
                 Ok (if crc16_en13757 header =? u16_be ci y then Some 10 else None)).
    { exact (trailing_snoc header ci y ltac:(rewrite Hh; lia)). }
    apply bytes_ok_app in Hok as [Hokh _].
    destruct (crc16_en13757 header =? u16_be ci y) eqn:Ec.
    + exists []. split.
      * left. exists ci, y. split; [reflexivity|]. apply crc_eqb; assumption.
      * intros id Hid. rewrite (Hstart id Hid), Ht. reflexivity.
    + exists [ci; y]. split.
      * right. split; [reflexivity|]. intros p hi lo E Hc.
        destruct p as [|a p];
          [|apply (f_equal (@length N)) in E; cbn [length app] in E; rewrite app_length in E;
            cbn [length] in E; lia].
        injection E as <- <-. cbn [app] in Hc. rewrite app_nil_r in Hc.
        apply crc_eqb in Hc; [congruence|assumption].
      * intros id Hid. rewrite (Hstart id Hid), Ht. reflexivity.
  - set (q := ci :: p). subst rest.
    change (ci :: p ++ [hi; lo]) with (q ++ [hi; lo]) in *.
    assert (Ht : trailing_frame_crc_start (E := wl_frame_error) data =
                 Ok (if crc16_en13757 (header ++ q) =? u16_be hi lo then Some (len (header ++ q)) else None)).
    { unfold data. rewrite app_assoc. apply trailing_snoc. rewrite len_app, Hh. lia. }
    unfold data in Hok. rewrite app_assoc in Hok. apply bytes_ok_app in Hok as [Hokh _].
    destruct (crc16_en13757 (header ++ q) =? u16_be hi lo) eqn:Ec.
    + exists q. split.
      * left. exists hi, lo. split; [reflexivity|]. apply crc_eqb; assumption.
      * intros id Hid. rewrite (Hstart id Hid), Ht. cbn [bind].
        destruct (l + 1 =? len data); [|reflexivity].
        unfold index_range. unfold data. rewrite len_app, <- Hh. rewrite get_range_app. reflexivity.
    + exists (q ++ [hi; lo]). split.
      * right. split; [reflexivity|]. intros p' hi' lo' E Hc.
        apply app_inj_tail_iff in E || idtac.
        assert (E' : q = p' /\ hi = hi' /\ lo = lo').
        { change [hi; lo] with ([hi] ++ [lo]) in E. change [hi'; lo'] with ([hi'] ++ [lo']) in E.
          rewrite !app_assoc in E. apply app_inj_tail in E as [E ->].
          apply app_inj_tail in E as [-> ->]. auto. }
        destruct E' as (<- & <- & <-). apply crc_eqb in Hc; [congruence|assumption].
      * intros id Hid. rewrite (Hstart id Hid), Ht. cbn [bind].
        destruct (l + 1 =? len data); [|reflexivity].
        unfold data. rewrite <- Hh. rewrite index_range_tail. reflexivity.
Qed.

Lemma payload_unique header rest p p' : bytes_ok (header ++ rest) ->
  payload_of header rest p -> payload_of header rest p' -> p = p'.
Proof.
  intros Hok [(hi & lo & E & Hc)|[E Hn]] [(hi' & lo' & E' & Hc')|[E' Hn']].
  - rewrite E in E'. change [hi; lo] with ([hi] ++ [lo]) in E'. change [hi'; lo'] with ([hi'] ++ [lo']) in E'.
    rewrite !app_assoc in E'. apply app_inj_tail in E' as [E' _]. apply app_inj_tail in E' as [E' _]. exact E'.
  - destruct (Hn' _ _ _ E Hc).
  - destruct (Hn _ _ _ E' Hc').
  - congruence.
Qed.

Lemma wireless_short data : len data < 11 ->
  wireless_try_from data = Err (if len data =? 0 then WlEmptyData else WlTooShort).
Proof.
  intros Hl. destruct data as [|l [|c tail]]; [reflexivity| |].
  - reflexivity.
  - unfold wireless_try_from.
    change (get (l :: c :: tail) 0) with (Some l). change (get (l :: c :: tail) 1) with (Some c). cbn [ok_or bind].
    replace (index_range (l :: c :: tail) 2 (len (l :: c :: tail))) with (Ok (E := wl_frame_error) tail)
      by (symmetry; exact (index_range_tail [l; c] tail)).
    cbn [bind]. rewrite mid_short by (rewrite !len_cons in Hl; lia).
    destruct (N.eqb_spec (len (l :: c :: tail)) 0) as [E|_]; [|reflexivity].
    rewrite len_cons in E; lia.
Qed.

Lemma header_decodes_len data : header_decodes data -> 11 <= len data.
Proof.
  intros (l & c & m0 & m1 & i0 & i1 & i2 & i3 & v & d & ci & rest & id & -> & _).
  rewrite !len_cons. lia.
Qed.

Lemma bytes_header l c m0 m1 i0 i1 i2 i3 v d rest :
  bytes_ok (l :: c :: m0 :: m1 :: i0 :: i1 :: i2 :: i3 :: v :: d :: rest) ->
  m0 < 256 /\ m1 < 256 /\ d < 256.
Proof.
  intros H.
  apply bytes_ok_cons in H as [_ H]. apply bytes_ok_cons in H as [_ H].
  apply bytes_ok_cons in H as [H0 H]. apply bytes_ok_cons in H as [H1 H].
  do 5 apply bytes_ok_cons in H as [_ H]. apply bytes_ok_cons in H as [H2 _]. auto.
Qed.

(** the complete behaviour, by cases *)
Lemma wireless_cases data : bytes_ok data ->
  (~ header_decodes data /\
   wireless_try_from data = Err (if len data =? 0 then WlEmptyData else WlTooShort)) \/
  (header_decodes data /\ exists l, get data 0 = Some l /\
   ((l + 1 = len data /\ exists fr, wireless_try_from data = Ok fr /\ wireless_meaning data fr) \/
    (l + 1 <> len data /\ wireless_try_from data = Err (WlWrongLength (l + 1) (len data))))).
Proof.
  intros Hok. destruct (N.lt_ge_cases (len data) 11) as [Hs|Hl].
  - left. split; [intros H; apply header_decodes_len in H; lia|apply wireless_short; assumption].
  - destruct (data11 data Hl) as (l & c & m0 & m1 & i0 & i1 & i2 & i3 & v & d & ci & rest & Ed).
    subst data.
    destruct (bytes_header _ _ _ _ _ _ _ _ _ _ _ Hok) as (Hm0 & Hm1 & Hd).
    destruct (manufacturer_id_try_from (m0 :: m1 :: i0 :: i1 :: i2 :: i3 :: v :: d :: ci :: rest))
      as [id|e|p] eqn:Em.
    + right. pose proof (proj1 (mid_ok _ _ _ _ _ _ _ _ _ rest id Hm0 Hm1 Hd) Em) as Hid.
      split; [exists l, c, m0, m1, i0, i1, i2, i3, v, d, ci, rest, id; auto|].
      exists l. split; [reflexivity|].
      destruct (wireless_tail l c m0 m1 i0 i1 i2 i3 v d ci rest Hok) as (payload & Hp & Hw).
      specialize (Hw id Em). cbn [app] in Hw. rewrite Hw.
      match goal with |- context [l + 1 =? ?n] => destruct (N.eqb_spec (l + 1) n) as [El|El] end.
      * left. split; [assumption|]. eexists; split; [reflexivity|].
        exists l, c, m0, m1, i0, i1, i2, i3, v, d, ci, rest.
        split; [reflexivity|]. split; [exact El|]. split; [reflexivity|].
        split; [apply function_opt|]. split; [exact Hid|exact Hp].
      * right. auto.
    + left. apply mid_err in Em as He. subst e. split.
      * intros (l' & c' & m0' & m1' & i0' & i1' & i2' & i3' & v' & d' & ci' & rest' & id & E & Hid).
        injection E as <- <- <- <- <- <- <- <- <- <- <- <-.
        apply (mid_ok _ _ _ _ _ _ _ _ _ rest id Hm0 Hm1 Hd) in Hid. congruence.
      * unfold wireless_try_from.
        set (dd := l :: c :: m0 :: m1 :: i0 :: i1 :: i2 :: i3 :: v :: d :: ci :: rest) in *.
        change (get dd 0) with (Some l). change (get dd 1) with (Some c). cbn [ok_or bind].
        replace (index_range dd 2 (len dd)) with
          (Ok (E := wl_frame_error) (m0 :: m1 :: i0 :: i1 :: i2 :: i3 :: v :: d :: ci :: rest))
          by (symmetry; exact (index_range_tail [l; c] _)).
        cbn [bind]. rewrite Em. cbn [bind].
        destruct (N.eqb_spec (len dd) 0) as [E0|_]; [lia|reflexivity].
    + exfalso. apply (mid_panic (m0 :: m1 :: i0 :: i1 :: i2 :: i3 :: v :: d :: ci :: rest)). exists p; assumption.
Qed.

Lemma wireless_frame_eq (a b : wireless_frame) :
  wf_control_field a = wf_control_field b -> wf_function a = wf_function b ->
  wf_manufacturer_id a = wf_manufacturer_id b -> wf_data a = wf_data b -> a = b.
Proof. destruct a, b; cbn; intros; subst; reflexivity. Qed.

Lemma identity_unique m0 m1 i0 i1 i2 i3 v d ci id id' :
  m0 < 256 -> m1 < 256 -> d < 256 ->
  identity m0 m1 i0 i1 i2 i3 v d ci id -> identity m0 m1 i0 i1 i2 i3 v d ci id' -> id = id'.
Proof.
  intros Hm0 Hm1 Hd H H'.
  apply (mid_ok _ _ _ _ _ _ _ _ _ [] _ Hm0 Hm1 Hd) in H, H'. congruence.
Qed.

Lemma wireless_meaning_unique data fr fr' : bytes_ok data ->
  wireless_meaning data fr -> wireless_meaning data fr' -> fr = fr'.
Proof.
  intros Hok (l & c & m0 & m1 & i0 & i1 & i2 & i3 & v & d & ci & rest & E & Hl & Hc & Hf & Hi & Hp)
             (l' & c' & m0' & m1' & i0' & i1' & i2' & i3' & v' & d' & ci' & rest' & E' & Hl' & Hc' & Hf' & Hi' & Hp').
  rewrite E in E'. cbn [app] in E'. injection E' as <- <- <- <- <- <- <- <- <- <- <- <-.
  subst data. destruct (bytes_header _ _ _ _ _ _ _ _ _ _ _ Hok) as (Hm0 & Hm1 & Hd).
  apply wireless_frame_eq.
  - congruence.
  - destruct (wf_function fr) as [f|].
    + assert (Hx := proj1 (Hf f) eq_refl). apply Hf' in Hx. congruence.
    + destruct (wf_function fr') as [f'|]; [|reflexivity].
      assert (Hx := proj1 (Hf' f') eq_refl). apply Hf in Hx. congruence.
  - exact (identity_unique _ _ _ _ _ _ _ _ _ _ _ Hm0 Hm1 Hd Hi Hi').
  - exact (payload_unique _ _ _ _ Hok Hp Hp').
Qed.

Lemma wireless_ok_iff data fr : bytes_ok data ->
  wireless_try_from data = Ok fr <-> wireless_meaning data fr.
Proof.
  intros Hok. split.
  - intros H. destruct (wireless_cases data Hok) as [[_ E]|(_ & l & _ & [(_ & fr' & E & Hm)|[_ E]])]; try congruence.
  - intros Hm.
    destruct (wireless_cases data Hok) as [[Hn _]|(_ & l & Hl & [(_ & fr' & E & Hm')|[Hl' _]])].
    + exfalso. apply Hn. destruct Hm as (l & c & m0 & m1 & i0 & i1 & i2 & i3 & v & d & ci & rest & E & _ & _ & _ & Hi & _).
      exists l, c, m0, m1, i0, i1, i2, i3, v, d, ci, rest, (wf_manufacturer_id fr). auto.
    + rewrite E. f_equal. exact (wireless_meaning_unique _ _ _ Hok Hm' Hm).
    + exfalso. apply Hl'. destruct Hm as (l' & c & m0 & m1 & i0 & i1 & i2 & i3 & v & d & ci & rest & E & Hll & _).
      subst data. cbn in Hl. injection Hl as ->. exact Hll.
Qed.

Lemma wireless_errors data : bytes_ok data ->
  ~ is_panic (wireless_try_from data) /\
  (wireless_try_from data = Err WlEmptyData <-> data = []) /\
  (wireless_try_from data = Err WlTooShort <-> data <> [] /\ ~ header_decodes data) /\
  (forall e a, wireless_try_from data = Err (WlWrongLength e a) <->
     header_decodes data /\ a = len data /\ e <> a /\ exists l, get data 0 = Some l /\ e = l + 1).
Proof.
  intros Hok.
  destruct (wireless_cases data Hok) as [[Hn E]|(Hd & l & Hl & [(Hll & fr & E & _)|[Hll E]])]; rewrite E.
  - split; [intros [p Hp]; destruct (len data =? 0); discriminate|].
    destruct (N.eqb_spec (len data) 0) as [E0|E0].
    + apply len_0 in E0. split; [tauto|]. split; [split; [discriminate|intros [? _]; contradiction]|].
      intros e a; split; [discriminate|tauto].
    + assert (data <> []) by (intros ->; apply E0; reflexivity).
      split; [split; [discriminate|contradiction]|]. split; [tauto|].
      intros e a; split; [discriminate|tauto].
  - assert (data <> []) by (intros ->; discriminate).
    split; [intros [p Hp]; discriminate|].
    split; [split; [discriminate|contradiction]|]. split; [split; [discriminate|tauto]|].
    intros e a; split; [discriminate|]. intros (_ & -> & Hne & l' & Hl' & ->). congruence.
  - assert (data <> []) by (intros ->; discriminate).
    split; [intros [p Hp]; discriminate|].
    split; [split; [discriminate|contradiction]|]. split; [split; [discriminate|tauto]|].
    intros e a; split.
    + intros H0; injection H0 as <- <-. eauto 10.
    + intros (_ & -> & Hne & l' & Hl' & ->). congruence.
Qed.

Lemma wireless_panic data : ~ is_panic (wireless_try_from data).
Proof.
  destruct (N.lt_ge_cases (len data) 11) as [Hs|Hl].
  - rewrite wireless_short by assumption. intros [p Hp]; discriminate.
  - intros Hp. unfold wireless_try_from in Hp.
    apply is_panic_bind in Hp as [Hp|(lb & _ & Hp)]; [apply (is_panic_ok_or _ _ Hp)|].
    apply is_panic_bind in Hp as [Hp|(cf & _ & Hp)]; [apply (is_panic_ok_or _ _ Hp)|].
    apply is_panic_bind in Hp as [Hp|(tl & _ & Hp)].
    { unfold index_range, get_range in Hp. destruct (N.leb_spec 2 (len data)); [|lia].
      rewrite N.leb_refl in Hp. destruct Hp; discriminate. }
    apply is_panic_bind in Hp as [Hp|(mid & _ & Hp)]; [apply (mid_panic _ Hp)|].
    destruct (lb + 1 =? len data); [|destruct Hp; discriminate].
    destruct (list_cases2 data) as [->|[(y & ->)|(p & hi & lo & ->)]].
    + rewrite len_nil in Hl; lia.
    + rewrite len_cons, len_nil in Hl; lia.
    + rewrite len_app in Hl. change (len [hi; lo]) with 2 in Hl.
      destruct (N.lt_ge_cases (len p) 10) as [Hp10|Hp10].
      * rewrite trailing_none in Hp by (rewrite len_app; change (len [hi; lo]) with 2; lia). cbn [bind] in Hp.
        apply is_panic_bind in Hp as [Hp|(? & _ & Hp)]; [|apply (is_panic_Ok _ Hp)].
        unfold index_range, get_range in Hp. rewrite len_app in Hp. change (len [hi; lo]) with 2 in Hp.
        destruct (N.leb_spec 10 (len p + 2)); [|lia]. rewrite N.leb_refl in Hp. destruct Hp; discriminate.
      * rewrite trailing_snoc in Hp by assumption. cbn [bind] in Hp.
        apply is_panic_bind in Hp as [Hp|(? & _ & Hp)]; [|apply (is_panic_Ok _ Hp)].
        unfold index_range, get_range in Hp. rewrite len_app in Hp. change (len [hi; lo]) with 2 in Hp.
        destruct (crc16_en13757 p =? u16_be hi lo).
        -- destruct (N.leb_spec 10 (len p)); [|lia]. destruct (N.leb_spec (len p) (len p + 2)); [|lia].
           destruct Hp; discriminate.
        -- destruct (N.leb_spec 10 (len p + 2)); [|lia]. rewrite N.leb_refl in Hp. destruct Hp; discriminate.
Qed.
