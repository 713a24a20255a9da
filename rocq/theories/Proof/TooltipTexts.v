(** The texts of the tooltips are those of the bytes of their ranges. *)
From Coq Require Import List NArith ZArith Lia Bool String.
Import ListNotations.
From Verif Require Import Model.Base Model.Text Model.Core Model.F64 Model.Wired Model.Wireless Model.DataInfo Model.ValueInfo
  Model.Record Model.MbusData Model.Hex Model.Show Model.Legacy Model.Annotate Model.AnnotateText
  Spec.WiredSpec Spec.RecordSpec Spec.AnnotateSpec Spec.DetailSpec Spec.LegacySpec Spec.TooltipSpec
  Proof.BaseFacts Proof.CoreFacts Proof.AppFacts Proof.WiredFacts Proof.RecordFacts Proof.AnnotateFacts Proof.AnnotateFormatA Proof.AnnotateRecords
  Proof.AnnotateApp Proof.DetailFacts Proof.LegacyValues Proof.TooltipFacts.
Open Scope N_scope.
Open Scope list_scope.

Lemma hex2_of b : b < 256 -> hex2 b = hex_of [b].
Proof.
  intros H. assert (E : forall d, d < 16 -> hex_digit_upper d = nth (N.to_nat d) hex_digits 0).
  { intros d Hd. apply N.eqb_eq. exact (sweep 16 (fun d => hex_digit_upper d =? nth (N.to_nat d) hex_digits 0) eq_refl d Hd). }
  unfold hex2, hex_of. cbn [map concat app]. rewrite !E; [reflexivity| |].
  - apply N.mod_lt. discriminate.
  - apply N.div_lt_upper_bound; [discriminate|exact H].
Qed.
Lemma hex_app l m : hex_of (l ++ m) = hex_of l ++ hex_of m.
Proof. unfold hex_of. now rewrite map_app, concat_app. Qed.
Lemma hex_pair a b : a < 256 -> b < 256 -> hex2 a ++ hex2 b = hex_of [a; b].
Proof. intros Ha Hb. rewrite (hex2_of a Ha), (hex2_of b Hb). reflexivity. Qed.
Lemma hex_four a b c d : a < 256 -> b < 256 -> c < 256 -> d < 256 -> hex2 a ++ hex2 b ++ hex2 c ++ hex2 d = hex_of [a; b; c; d].
Proof. intros Ha Hb Hc Hd. rewrite (hex2_of a Ha), (hex2_of b Hb), (hex2_of c Hc), (hex2_of d Hd). reflexivity. Qed.

(** slices of a part of the frame *)
Lemma slice_len D a b : a <= b -> b <= len D -> len (slice D a b) = b - a.
Proof. intros H1 H2. unfold slice, len in *. rewrite firstn_length, skipn_length. lia. Qed.
Lemma slice_within pre l post a b : a <= b -> b <= len l ->
  slice (pre ++ l ++ post) (len pre + a) (len pre + b) = slice l a b.
Proof.
  intros H1 H2. unfold slice. replace (len pre + b - (len pre + a)) with (b - a) by lia.
  rewrite skipn_app. rewrite (skipn_all2 pre) by (unfold len; lia).
  replace (N.to_nat (len pre + a) - length pre)%nat with (N.to_nat a) by (unfold len; lia). cbn [app].
  rewrite skipn_app, firstn_app. replace (N.to_nat (b - a) - length (skipn (N.to_nat a) l))%nat with O.
  2:{ rewrite skipn_length. unfold len in H2. lia. }
  cbn [firstn]. now rewrite app_nil_r.
Qed.
Lemma slice_all l : slice l 0 (len l) = l.
Proof. unfold slice. cbn [N.to_nat skipn]. rewrite firstn_all2; [reflexivity|unfold len; lia]. Qed.
Lemma slice_from l a : slice l a (len l) = skipn (N.to_nat a) l.
Proof. unfold slice. rewrite firstn_all2; [reflexivity|]. rewrite skipn_length. unfold len. lia. Qed.
Lemma slice_byte l a : a < len l -> slice l a (a + 1) = [byte_or_0 l a].
Proof.
  intros H. unfold slice, byte_or_0, get. replace (a + 1 - a) with 1 by lia. unfold len in H.
  destruct (nth_error l (N.to_nat a)) as [b|] eqn:E; [|apply nth_error_None in E; lia].
  apply nth_error_split in E as (l1 & l2 & -> & <-). rewrite skipn_app, skipn_all, Nat.sub_diag. reflexivity.
Qed.
Lemma byte_small l a : bytes_ok l -> byte_or_0 l a < 256.
Proof.
  intros H. unfold byte_or_0, get. destruct (nth_error l (N.to_nat a)) eqn:E; [|reflexivity].
  apply nth_error_In in E. unfold bytes_ok in H. rewrite Forall_forall in H. exact (H _ E).
Qed.

(** what has to be shown for each range of a part [l] of the frame [pre ++ l ++ post] *)
Definition good cf radio D (l : list told) : Prop := Forall (right_text cf radio D) l.

(** ** Records *)
Lemma seg_tiles_bounds a segs b s : tiles a segs b -> In s segs -> a <= s_start s /\ s_start s < s_end s /\ s_end s <= b.
Proof.
  induction 1 as [a|x rest b Hx Ht IH]; [intros []|]. pose proof (tiles_le _ _ _ Ht). intros [->|Hi]; [lia|].
  specialize (IH Hi). lia.
Qed.
Lemma option_if_in {A} (b : bool) (x y : A) : In x (if b then [y] else []) -> x = y /\ b = true.
Proof. destruct b; cbn; [intros [->|[]]; auto|intros []]. Qed.

Ltac pair_inv H :=
  let A := fresh in let B := fresh in
  pose proof (f_equal fst H) as A; pose proof (f_equal snd H) as B; cbn [fst snd] in A, B; clear H; subst.

Lemma record_good cf display radio pre data post offset i b t r :
  bytes_ok data -> offset <= len data -> skipn (N.to_nat offset) data = b :: t ->
  data_record_parse cf (b :: t) None = Ok r -> is_special_function b = false ->
  good cf radio (pre ++ data ++ post) (fst (fst (record_told display r (len pre) data offset i))).
Proof.
  intros Hb Ho Es Hp Hsp. set (D := pre ++ data ++ post).
  assert (Elen : len (b :: t) = len data - offset) by (rewrite <- Es, skip_len by exact Ho; reflexivity).
  destruct (record_tiles _ _ _ _ (len pre + offset) i Hp) as (ss & Ess & Ht & _). rewrite Elen in Ess.
  pose proof (record_ranges display r (len pre) data offset i) as Er. rewrite Ess in Er.
  destruct (record_told display r (len pre) data offset i) as [[l a] g] eqn:El. injection Er as Er _ _. subst ss. cbn [fst].
  destruct (record_sizes _ _ _ _ Hp) as (hs & _ & Hs1 & Hs2 & _). rewrite Elen in Hs2.
  pose proof (record_head _ _ _ _ Hp) as [t' Et'].
  unfold good. apply Forall_forall. intros [s x] Hin.
  pose proof (seg_tiles_bounds _ _ _ s Ht (in_map fst _ _ Hin)) as Bs.
  assert (LD : len D = len pre + len data + len post) by (unfold D; rewrite !len_app; lia).
  assert (Bl : len (slice D (s_start s) (s_end s)) = s_end s - s_start s) by (apply slice_len; lia).
  assert (One : forall o, s_start s = len pre + offset + o -> s_end s = len pre + offset + o + 1 ->
     slice D (s_start s) (s_end s) = [byte_or_0 data (offset + o)]).
  { intros o E1 E2. rewrite E1, E2. unfold D. replace (len pre + offset + o) with (len pre + (offset + o)) by lia.
    rewrite <- N.add_assoc. rewrite slice_within by lia. apply slice_byte. lia. }
  assert (Many : 0 < s_end s - s_start s -> slice D (s_start s) (s_end s) <> []).
  { intros Hn E. rewrite E in Bl. change (len (@nil N)) with 0 in Bl. lia. }
  assert (Txt : forall v p, rh_vib (drh_raw (dr_header r)) = Some v -> vib_plaintext v = Some p -> s_kind s = KPlaintextVif ->
      plaintext_before_extension cf = false -> slice D (s_start s) (s_end s) = len p :: p).
  { intros v p Ev Ep Hk Hc.
    pose proof (record_lay _ _ _ _ (len pre + offset) i Hp) as Hlay. rewrite Elen, Ess in Hlay. cbn [fst] in Hlay.
    assert (Edif : dib_dif (rh_dib (drh_raw (dr_header r))) = b).
    { destruct (record_split _ _ _ _ Hp) as (p0 & rest & di & Ed & _ & _ & _ & _ & [t0 Et0] & _).
      rewrite Et0 in Ed. injection Ed as Ed _. now symmetry. }
    rewrite Edif in Hlay. specialize (Hlay Hsp).
    assert (Hpre : exists rest, b :: t = dr_raw_bytes r ++ rest).
    { destruct (record_split _ _ _ _ Hp) as (p0 & rest & di & Ed & _ & _ & _ & _ & _ & q & s0 & Eq & Er & _).
      exists s0. rewrite Ed, Er, Eq, <- app_assoc. reflexivity. }
    destruct Hpre as [rest Erest].
    assert (Ef : fields D (map fst l) = record_parts r).
    { rewrite Hlay. replace (len pre + offset) with (len (pre ++ firstn (N.to_nat offset) data)).
      2:{ rewrite len_app. unfold len at 2. rewrite firstn_length. unfold len in Ho. unfold len. lia. }
      apply (fields_lay _ _ _ (rest ++ post)). rewrite (record_parts_bytes _ _ _ _ Hp) by (left; exact Hc).
      unfold D. rewrite <- (firstn_skipn (N.to_nat offset) data) at 1. rewrite Es, Erest, <- !app_assoc. reflexivity. }
    assert (Hi : In (KPlaintextVif, slice D (s_start s) (s_end s)) (record_parts r)).
    { rewrite <- Ef. unfold fields. rewrite <- Hk. apply in_map_iff. exists s. split; [reflexivity|]. exact (in_map fst _ _ Hin). }
    unfold record_parts in Hi. rewrite Edif in Hi.
    replace ((b =? 0x0F) || (b =? 0x1F)) with false in Hi.
    2:{ symmetry. apply orb_false_iff; split; apply N.eqb_neq; intros E; rewrite E in Hsp; discriminate. }
    unfold header_parts in Hi. rewrite Ev, Ep in Hi.
    assert (Hpart : forall k bytes, k <> KPlaintextVif -> ~ In (KPlaintextVif, slice D (s_start s) (s_end s)) (AnnotateSpec.part k bytes)).
    { intros k [|z bytes] Hn; cbn; [tauto|]. intros [E|[]]. injection E as E _. congruence. }
    rewrite !in_app_iff in Hi. cbn [In] in Hi.
    repeat match type of Hi with
      | _ \/ _ => destruct Hi as [Hi|Hi]
      | False => destruct Hi
      | In _ (match dib_difes ?x with Some _ => _ | None => _ end) => destruct (dib_difes x); [|destruct Hi]
      | In _ (match vib_vifes ?x with Some _ => _ | None => _ end) => destruct (vib_vifes x); [|destruct Hi]
      | In _ (AnnotateSpec.part ?k ?y) => exfalso; exact (Hpart k y ltac:(discriminate) Hi)
      | (KDif, _) = _ => discriminate
      | (KVif, _) = _ => discriminate
      end.
    injection Hi as Hi. now rewrite <- Hi. }
  unfold right_text. intros Hk1 Hk2 _.
  unfold record_told in El. cbv zeta in El.
  set (o := 1 + (dib_get_size (rh_dib (drh_raw (dr_header r))) - 1)) in *.
  destruct (rh_vib (drh_raw (dr_header r))) as [v|] eqn:Ev; apply (f_equal (fun z => fst (fst z))) in El; cbn [fst] in El; rewrite <- El in Hin; clear El;
    unfold told in Hin; rewrite !in_app_iff in Hin.
  - repeat match type of Hin with _ \/ _ => destruct Hin as [Hin|Hin] end; try (apply option_if_in in Hin as [Hin Hz]; pair_inv Hin);
      cbn [seg s_start s_end s_kind s_layer] in *; try congruence.
    + rewrite One with (o := 0) by lia. rewrite !N.add_0_r. rewrite (hex2_of _ (byte_small _ _ Hb)). apply SayDif.
    + set (n := dib_get_size (rh_dib (drh_raw (dr_header r))) - 1) in *.
      replace (dec n) with (dec (len (slice D (len pre + offset + 1) (len pre + offset + 1 + n)))) by (f_equal; lia).
      apply SayDife. apply Many. apply N.ltb_lt in Hz. lia.
    + rewrite One with (o := o) by lia. rewrite (hex2_of _ (byte_small _ _ Hb)). apply SayVif.
    + set (n := match vib_vifes v with Some l => len l | None => 0 end) in *.
      replace (dec n) with (dec (len (slice D (len pre + offset + (o + 1)) (len pre + offset + (o + 1) + n)))) by (f_equal; lia).
      apply SayVife. apply Many. apply N.ltb_lt in Hz. lia.
    + destruct (vib_plaintext v) as [p|] eqn:Ep; [|destruct Hin]. destruct Hin as [Hin|[]]. symmetry in Hin. pair_inv Hin.
      cbn [seg s_start s_end s_kind s_layer] in *.
      rewrite (Txt v p eq_refl Ep eq_refl (Hk2 eq_refl)). apply SayText.
  - repeat match type of Hin with _ \/ _ => destruct Hin as [Hin|Hin] end; try (apply option_if_in in Hin as [Hin Hz]; pair_inv Hin);
      cbn [seg s_start s_end s_kind s_layer] in *; try congruence; try (destruct Hin; fail).
    + rewrite One with (o := 0) by lia. rewrite !N.add_0_r. rewrite (hex2_of _ (byte_small _ _ Hb)). apply SayDif.
    + set (n := dib_get_size (rh_dib (drh_raw (dr_header r))) - 1) in *.
      replace (dec n) with (dec (len (slice D (len pre + offset + 1) (len pre + offset + 1 + n)))) by (f_equal; lia).
      apply SayDife. apply Many. apply N.ltb_lt in Hz. lia.
Qed.

Lemma land15_special b : (N.land b 0x0F =? 0x0F) = is_special_function b.
Proof. reflexivity. Qed.
Lemma get_skipn {A} (l : list A) o b : get l o = Some b ->
  exists t, skipn (N.to_nat o) l = b :: t /\ skipn (N.to_nat (o + 1)) l = t.
Proof.
  intros H. unfold get in H. apply nth_error_split in H as (l1 & l2 & -> & L). exists l2. split.
  - rewrite skipn_app, <- L, skipn_all, Nat.sub_diag. reflexivity.
  - replace (N.to_nat (o + 1)) with (S (length l1)) by lia. rewrite skipn_app. rewrite skipn_all2 by lia.
    replace (S (length l1) - length l1)%nat with 1%nat by lia. reflexivity.
Qed.
Lemma get_byte l o b : bytes_ok l -> get l o = Some b -> b < 256.
Proof. intros H E. apply nth_error_In in E. unfold bytes_ok in H. rewrite Forall_forall in H. exact (H _ E). Qed.

Lemma loop_good cf display radio fuel : forall pre data post offset i l, bytes_ok data -> offset <= len data ->
  records_told_loop cf display fuel (len pre) data offset i = Ok l -> good cf radio (pre ++ data ++ post) l.
Proof.
  induction fuel as [|fuel IH]; intros pre data post offset i l Hb Ho H; [discriminate|]. cbn [records_told_loop] in H.
  destruct (offset <? len data) eqn:El; cbn [negb] in H; [|apply Ok_inj in H; subst l; constructor].
  apply N.ltb_lt in El. destruct (get data offset) as [b|] eqn:Eg; [|apply Ok_inj in H; subst l; constructor].
  destruct (get_skipn _ _ _ Eg) as (t & E1 & E2). pose proof (get_byte _ _ _ Hb Eg) as Bb.
  assert (One : slice (pre ++ data ++ post) (len pre + offset) (len pre + offset + 1) = [b]).
  { rewrite <- N.add_assoc, slice_within by lia. rewrite slice_byte by exact El. unfold byte_or_0. now rewrite Eg. }
  assert (Rest : slice (pre ++ data ++ post) (len pre + offset) (len pre + len data) = b :: t).
  { rewrite slice_within by lia. now rewrite slice_from. }
  destruct (N.land b 0x0F =? 0x0F) eqn:Esp.
  - destruct (b =? 0x2F) eqn:E2F.
    { apply bind_ok in H as (rest & Hr & H). apply Ok_inj in H. subst l. constructor; [|eapply IH; [exact Hb| |exact Hr]; lia].
      apply N.eqb_eq in E2F. subst b. cbn [right_text seg s_kind s_start s_end s_layer]. intros _ _ _. rewrite One. apply SayFiller. }
    destruct ((b =? 0x0F) || (b =? 0x1F)) eqn:Em.
    + apply Ok_inj in H. subst l. constructor; [|constructor]. cbn [right_text seg s_kind s_start s_end s_layer]. intros _ _ _.
      rewrite Rest. assert (Ln : len data - offset = 1 + len t).
      { replace (len data - offset) with (len (skipn (N.to_nat offset) data)) by (apply skip_len; lia). rewrite E1, len_cons. lia. }
      rewrite Ln. apply orb_true_iff in Em as [Em|Em]; apply N.eqb_eq in Em; subst b; [apply SaySpecific|apply SayMore].
    + apply bind_ok in H as (rest & Hr & H). apply Ok_inj in H. subst l. constructor; [|eapply IH; [exact Hb| |exact Hr]; lia].
      cbn [right_text seg s_kind s_start s_end s_layer]. intros _ _ _. rewrite One, (hex2_of _ Bb).
      apply orb_false_iff in Em as [Em1 Em2]. apply N.eqb_neq in E2F, Em1, Em2. apply N.eqb_eq in Esp.
      apply SaySpecial; try assumption. now rewrite <- land_15.
  - rewrite index_range_from in H by lia. cbn [bind] in H. rewrite E1 in H.
    destruct (data_record_parse cf (b :: t) None) as [r|e|p] eqn:Ep; [|apply Ok_inj in H; subst l|discriminate].
    2:{ constructor; [|constructor]. cbn [right_text seg s_kind s_start s_end s_layer]. intros _ _ _. rewrite Rest.
        eapply SayUnreadable. exact Ep. }
    pose proof (record_good cf display radio pre data post offset i b t r Hb Ho E1 Ep Esp) as G.
    destruct (record_tiles _ _ _ _ (len pre + offset) i Ep) as (ss & Ess & _).
    assert (Elen : len (b :: t) = len data - offset) by (rewrite <- E1, skip_len by exact Ho; reflexivity).
    rewrite Elen in Ess. pose proof (record_ranges display r (len pre) data offset i) as Er.
    destruct (record_told display r (len pre) data offset i) as [[l0 a] g]. rewrite Ess in Er. injection Er as _ <- <-. cbn [fst] in G.
    apply bind_ok in H as (rest & Hr & H). apply Ok_inj in H. subst l. unfold good in *. apply Forall_app. split; [exact G|].
    eapply IH; [exact Hb| |exact Hr]. destruct (record_sizes _ _ _ _ Ep) as (? & _ & _ & Hs & _). lia.
Qed.

Lemma records_good cf display radio pre data post l : bytes_ok data ->
  records_told cf display (len pre) data = Ok l -> good cf radio (pre ++ data ++ post) l.
Proof. intros Hb H. eapply loop_good; [exact Hb| |exact H]. lia. Qed.

Lemma payload_good cf display radio e pre data post l : bytes_ok data ->
  payload_told cf display e (len pre) data = Ok l -> good cf radio (pre ++ data ++ post) l.
Proof.
  intros Hb H. unfold payload_told in H. destruct e; [|now apply (records_good cf display radio) with (post := post) in H].
  apply Ok_inj in H. subst l. destruct data as [|b t] eqn:Ed; [constructor|]. rewrite <- Ed. constructor; [|constructor].
  cbn [right_text seg s_kind s_start s_end s_layer]. intros _ _ _.
  rewrite slice_app by reflexivity. apply SayEncrypted. rewrite Ed. discriminate.
Qed.

Lemma seen_app {A} (a b c d : list A) : (a ++ b) ++ c ++ d = a ++ (b ++ c) ++ d.
Proof. now rewrite <- !app_assoc. Qed.

Ltac right_one := cbn [right_text seg s_kind s_start s_end s_layer]; intros _ _ _.

Lemma ci_words_not ci : (ci =? 0x72) || (ci =? 0x76) = false -> (ci =? 0x7A) || ((0xA0 <=? ci) && (ci <=? 0xAF)) = false ->
  ci =? 0x78 = false -> ci =? 0x8C = false -> ci =? 0x8D = false -> ci =? 0x8E = false -> forall w, ~ ci_words ci w.
Proof.
  intros H1 H2 H3 H4 H5 H6 w.
  apply orb_false_iff in H1 as [H1 H1']. apply orb_false_iff in H2 as [H2 H2'].
  apply N.eqb_neq in H1, H1', H2, H3, H4, H5, H6.
  assert (~ (0xA0 <= ci <= 0xAF)). { intros [A B]. apply N.leb_le in A, B. rewrite A, B in H2'. discriminate. }
  unfold ci_words. intuition congruence.
Qed.

Lemma entry cf radio pre p post a b k t bytes : a <= b -> b <= len p -> slice p a b = bytes ->
  says cf radio (len pre + a) LAppHeader bytes k t ->
  right_text cf radio (pre ++ p ++ post) (seg (len pre + a) (len pre + b) k None LAppHeader, t).
Proof. intros H1 H2 <- H. right_one. rewrite slice_within by assumption. exact H. Qed.

Ltac small := repeat match goal with q := _ : list N |- _ => unfold q end; unfold len; cbn [length]; lia.
Ltac head_entry bs := constructor; [apply (entry _ _ _ _ _ _ _ _ _ bs); [lia|small|reflexivity|]|].

Lemma long_header_good cf radio pre post ci i0 i1 i2 i3 m0 m1 v d acc st c0 c1 block : ci = 0x72 \/ ci = 0x76 ->
  bytes_ok [ci; i0; i1; i2; i3; m0; m1; v; d; acc; st; c0; c1] ->
  let p := ci :: i0 :: i1 :: i2 :: i3 :: m0 :: m1 :: v :: d :: acc :: st :: c0 :: c1 :: block in
  good cf radio (pre ++ p ++ post) (long_tpl_told (len pre) p).
Proof.
  intros Hci Hb p. bytes_split Hb. unfold good.
  assert (E : long_tpl_told (len pre) p =
    let h a b k t := (seg (len pre + a) (len pre + b) k None LAppHeader, t) in
    [ h 0 1 KCiField (txt "CI: 0x" ++ hex2 ci ++ txt " ("
      ++ (if ci =? 0x72 then txt "Variable Data, Long TPL" else txt "Variable Data, Long TPL, LSB") ++ txt ")");
    h 1 5 KIdentificationNumber (txt "ID: " ++ hex2 i0 ++ hex2 i1 ++ hex2 i2 ++ hex2 i3);
    h 5 7 KManufacturerCode (txt "Manufacturer: 0x" ++ hex2 m0 ++ hex2 m1);
    h 7 8 KVersion (txt "Version: " ++ dec v);
    h 8 9 KDeviceType (txt "Device Type: 0x" ++ hex2 d);
    h 9 10 KAccessNumber (txt "Access Number: " ++ dec acc);
    h 10 11 KStatus (txt "Status: 0x" ++ hex2 st);
    h 11 13 KConfigurationField (txt "Configuration: 0x" ++ hex2 c0 ++ hex2 c1) ]) by reflexivity.
  rewrite E. cbv zeta. clear E. rewrite hex_four, !hex_pair by assumption. rewrite !hex2_of by assumption.
  head_entry [ci].
  { apply SayCi. unfold ci_words. destruct Hci as [-> | ->]; cbn [N.eqb Pos.eqb]; [left|right; left]; split; reflexivity. }
  head_entry [i0; i1; i2; i3]. { apply SayNumber. }
  head_entry [m0; m1]. { apply SayManufacturer. }
  head_entry [v]. { apply SayVersion. }
  head_entry [d]. { apply SayDevice. }
  head_entry [acc]. { apply SayAccess. }
  head_entry [st]. { apply SayStatus. }
  head_entry [c0; c1]. { apply SayConfiguration. }
  constructor.
Qed.

Lemma behind (pre q post : list N) n : n <= len q ->
  pre ++ q ++ post = (pre ++ firstn (N.to_nat n) q) ++ skipn (N.to_nat n) q ++ post /\
  len (pre ++ firstn (N.to_nat n) q) = len pre + n.
Proof.
  intros H. split.
  - rewrite <- (firstn_skipn (N.to_nat n) q) at 1. now rewrite <- !app_assoc.
  - rewrite len_app. unfold len in *. rewrite firstn_length. lia.
Qed.
Lemma bytes_skipn l n : bytes_ok l -> bytes_ok (skipn n l).
Proof. intros H. rewrite <- (firstn_skipn n l) in H. now apply bytes_ok_app in H. Qed.

Lemma records_behind cf display radio pre q post n l : n <= len q -> bytes_ok q ->
  records_told cf display (len pre + n) (skipn (N.to_nat n) q) = Ok l -> good cf radio (pre ++ q ++ post) l.
Proof.
  intros Hn Hb H. destruct (behind pre q post n Hn) as [E1 E2]. rewrite E1. rewrite <- E2 in H.
  eapply records_good; [|exact H]. now apply bytes_skipn.
Qed.
Lemma payload_behind cf display radio e pre q post n l : n <= len q -> bytes_ok q ->
  payload_told cf display e (len pre + n) (skipn (N.to_nat n) q) = Ok l -> good cf radio (pre ++ q ++ post) l.
Proof.
  intros Hn Hb H. destruct (behind pre q post n Hn) as [E1 E2]. rewrite E1. rewrite <- E2 in H.
  eapply payload_good; [|exact H]. now apply bytes_skipn.
Qed.
Lemma maybe_records_behind cf display radio pre q post n l : n <= len q -> bytes_ok q ->
  match skipn (N.to_nat n) q with [] => Ok [] | _ => records_told cf display (len pre + n) (skipn (N.to_nat n) q) end = Ok l ->
  good cf radio (pre ++ q ++ post) l.
Proof.
  intros Hn Hb H. destruct (skipn (N.to_nat n) q) as [|x m] eqn:E; [apply Ok_inj in H; subst l; constructor|].
  rewrite <- E in H. eapply records_behind; eassumption.
Qed.

Ltac head_then rest :=
  match goal with |- Forall ?P (?a ++ ?b ++ ?c ++ rest) => change (Forall P ((a ++ b ++ c) ++ rest)) end.

Lemma app_good_n cf display radio n : forall p pre post l, (length p <= n)%nat -> bytes_ok p ->
  application_told cf display (len pre) p = Ok l -> good cf radio (pre ++ p ++ post) l.
Proof.
  induction n as [|n IH]; intros p pre post l L Hb H.
  { destruct p; [apply Ok_inj in H; subst l; constructor|cbn in L; lia]. }
  destruct p as [|ci tail]; [apply Ok_inj in H; subst l; constructor|].
  set (p := ci :: tail) in *.
  assert (Bci : ci < 256) by (apply Forall_inv in Hb; exact Hb).
  assert (Whole : slice (pre ++ p ++ post) (len pre) (len pre + len p) = p) by (now apply slice_app).
  assert (Cut : forall least name, len p < least ->
     ((ci = 0x72 \/ ci = 0x76) /\ name = txt "long TPL" /\ least = 13 \/
     (ci = 0x7A \/ 0xA1 <= ci <= 0xAF) /\ name = txt "short TPL" /\ least = 5 \/
     ci = 0xA0 /\ name = txt "short TPL" /\ least = 6 \/
     ci = 0x8C /\ name = txt "ELL I" /\ least = 3 \/
     ci = 0x8D /\ name = txt "ELL II" /\ least = 9 \/
     ci = 0x8E /\ name = txt "ELL III" /\ least = 17) ->
     good cf radio (pre ++ p ++ post) [(seg (len pre) (len pre + len p) KUnknown None LAppHeader, txt "Incomplete " ++ name ++ txt " header")]).
  { intros least name Hl Hc. constructor; [|constructor]. right_one. rewrite Whole. apply SayIncomplete.
    exists ci, tail, name, least. auto. }
  unfold p in H. cbn [application_told] in H. fold p in H.
  destruct ((ci =? 0x72) || (ci =? 0x76)) eqn:C1.
  { assert (Hci : ci = 0x72 \/ ci = 0x76) by (apply orb_true_iff in C1 as [C|C]; apply N.eqb_eq in C; auto).
    destruct (len p <? 13) eqn:El.
    { apply N.ltb_lt in El. apply Ok_inj in H. subst l. exact (Cut 13 _ El (or_introl (conj Hci (conj eq_refl eq_refl)))). }
    apply N.ltb_ge in El. rewrite index_range_from in H by exact El. cbn [bind] in H.
    apply bind_ok in H as (e & _ & H). apply bind_ok in H as (rest & Hr & H). apply Ok_inj in H. subst l.
    apply Forall_app. split; [|exact (payload_behind _ _ _ _ _ _ _ _ _ El Hb Hr)].
    clear Hr IH L Cut Whole. subst p.
    do 12 (destruct tail as [|? tail]; [exfalso; revert El; unfold len; cbn [length]; lia|]). clear El.
    apply long_header_good; [exact Hci|]. do 12 apply bytes_ok_cons in Hb as [? Hb]. apply bytes_ok_cons in Hb as [? _].
    repeat constructor; assumption. }
  destruct ((ci =? 0x7A) || ((0xA0 <=? ci) && (ci <=? 0xAF))) eqn:C2.
  { assert (Hci : ci = 0x7A \/ 0xA0 <= ci <= 0xAF).
    { apply orb_true_iff in C2 as [C|C]; [left; now apply N.eqb_eq in C|right]. apply andb_true_iff in C as [A B]. apply N.leb_le in A, B. lia. }
    destruct (ci =? 0xA0) eqn:CA; cbv zeta iota in H.
    - apply N.eqb_eq in CA. destruct (len p <? 6) eqn:El.
      { apply N.ltb_lt in El. apply Ok_inj in H. subst l. refine (Cut 6 (txt "short TPL") El _). auto 8. }
      apply N.ltb_ge in El. rewrite index_range_from in H by exact El. cbn [bind] in H.
      apply bind_ok in H as (e & _ & H). apply bind_ok in H as (rest & Hr & H). apply Ok_inj in H. subst l.
      unfold good. head_then rest. apply Forall_app. split; [|exact (payload_behind _ _ _ _ _ _ _ _ _ El Hb Hr)].
      clear Hr IH L Cut Whole. subst p.
      destruct tail as [|x tail]; [exfalso; revert El; unfold len; cbn [length]; lia|].
      destruct tail as [|acc tail]; [exfalso; revert El; unfold len; cbn [length]; lia|].
      destruct tail as [|st tail]; [exfalso; revert El; unfold len; cbn [length]; lia|].
      destruct tail as [|c0 tail]; [exfalso; revert El; unfold len; cbn [length]; lia|].
      destruct tail as [|c1 tail]; [exfalso; revert El; unfold len; cbn [length]; lia|]. clear El.
      do 5 apply bytes_ok_cons in Hb as [? Hb]. apply bytes_ok_cons in Hb as [? _]. unfold byte_ok in *.
      lazymatch goal with |- Forall ?P ?l => let m := eval cbn [app] in l in change (Forall P m) end. repeat match goal with |- context [byte_or_0 ?l ?i] => let b := eval cbv [byte_or_0 get N.to_nat N.add Pos.add Pos.succ Pos.to_nat Pos.iter_op Nat.add nth_error] in (byte_or_0 l i) in change (byte_or_0 l i) with b end.
      rewrite !hex_pair by assumption. rewrite !hex2_of by assumption.
      head_entry [ci]. { apply (SayCi cf radio (len pre + 0) ci (txt "Short TPL")). unfold ci_words. auto 6. }
      head_entry [x]. { apply SayEncryption. }
      head_entry [acc]. { apply SayAccess. }
      head_entry [st]. { apply SayStatus. }
      head_entry [c0; c1]. { apply SayConfiguration. }
      constructor.
    - apply N.eqb_neq in CA. destruct (len p <? 5) eqn:El.
      { apply N.ltb_lt in El. apply Ok_inj in H. subst l. refine (Cut 5 (txt "short TPL") El _). right; left. split; [|auto]. lia. }
      apply N.ltb_ge in El. rewrite index_range_from in H by exact El. cbn [bind] in H.
      apply bind_ok in H as (e & _ & H). apply bind_ok in H as (rest & Hr & H). apply Ok_inj in H. subst l.
      unfold good. head_then rest. apply Forall_app. split; [|exact (payload_behind _ _ _ _ _ _ _ _ _ El Hb Hr)].
      clear Hr IH L Cut Whole. subst p.
      destruct tail as [|acc tail]; [exfalso; revert El; unfold len; cbn [length]; lia|].
      destruct tail as [|st tail]; [exfalso; revert El; unfold len; cbn [length]; lia|].
      destruct tail as [|c0 tail]; [exfalso; revert El; unfold len; cbn [length]; lia|].
      destruct tail as [|c1 tail]; [exfalso; revert El; unfold len; cbn [length]; lia|]. clear El.
      do 4 apply bytes_ok_cons in Hb as [? Hb]. apply bytes_ok_cons in Hb as [? _]. unfold byte_ok in *.
      lazymatch goal with |- Forall ?P ?l => let m := eval cbn [app] in l in change (Forall P m) end. repeat match goal with |- context [byte_or_0 ?l ?i] => let b := eval cbv [byte_or_0 get N.to_nat N.add Pos.add Pos.succ Pos.to_nat Pos.iter_op Nat.add nth_error] in (byte_or_0 l i) in change (byte_or_0 l i) with b end.
      rewrite !hex_pair by assumption. rewrite !hex2_of by assumption.
      head_entry [ci]. { apply (SayCi cf radio (len pre + 0) ci (txt "Short TPL")). unfold ci_words. right; right; left. split; [lia|reflexivity]. }
      head_entry [acc]. { apply SayAccess. }
      head_entry [st]. { apply SayStatus. }
      head_entry [c0; c1]. { apply SayConfiguration. }
      constructor. }
  destruct (ci =? 0x78) eqn:C3.
  { apply N.eqb_eq in C3. apply bind_ok in H as (rest & Hr & H). apply Ok_inj in H. subst l. constructor.
    - apply (entry _ _ _ _ _ _ _ _ _ [ci]); [lia|unfold p; small|reflexivity|]. subst ci. apply (SayCi cf radio (len pre + 0) 0x78 (txt "Application Layer, no TPL header")).
      unfold ci_words. right; right; right; left. auto.
    - apply (maybe_records_behind cf display radio pre p post 1); [unfold p; small|exact Hb|exact Hr]. }
  destruct (ci =? 0x8C) eqn:C4.
  { apply N.eqb_eq in C4. destruct tail as [|cc [|acc inner]].
    - apply Ok_inj in H. subst l. refine (Cut 3 (txt "ELL I") ltac:(unfold p; small) _). auto 8.
    - apply Ok_inj in H. subst l. refine (Cut 3 (txt "ELL I") ltac:(unfold p; small) _). auto 8.
    - apply bind_ok in H as (rest & Hr & H). apply Ok_inj in H. subst l. apply Forall_app. split.
      + head_entry [ci]. { subst ci. apply (SayCi cf radio (len pre + 0) 0x8C (txt "ELL I")). unfold ci_words. auto 12. }
        head_entry [cc; acc]. { apply SayEllI. reflexivity. } constructor.
      + destruct (behind pre p post 3 ltac:(unfold p; small)) as [E1 E2]. unfold good in IH |- *. rewrite E1.
        change (skipn (N.to_nat 3) p) with inner. rewrite <- E2 in Hr.
        destruct inner as [|y inner]; [apply Ok_inj in Hr; subst rest; constructor|].
        apply (IH (y :: inner)); [unfold p in L; cbn in L |- *; lia|exact (bytes_skipn p 3 Hb)|exact Hr]. }
  destruct (ci =? 0x8D) eqn:C5.
  { apply N.eqb_eq in C5. destruct (len p <? 9) eqn:El.
    { apply N.ltb_lt in El. apply Ok_inj in H. subst l. refine (Cut 9 (txt "ELL II") El _). auto 12. }
    apply N.ltb_ge in El. rewrite index_range_from in H by exact El. cbn [bind] in H.
    apply bind_ok in H as (rest & Hr & H). apply Ok_inj in H. subst l. apply Forall_app. split.
    - constructor; [|constructor; [|constructor]].
      + apply (entry _ _ _ _ _ _ _ _ _ [ci]); [lia|lia|reflexivity|]. subst ci. apply (SayCi cf radio (len pre + 0) 0x8D (txt "ELL II")). unfold ci_words. auto 12.
      + apply (entry _ _ _ _ _ _ _ _ _ (slice p 1 9)); [lia|exact El|reflexivity|]. apply SayEllII. rewrite slice_len by lia. reflexivity.
    - apply (maybe_records_behind cf display radio pre p post 9); [exact El|exact Hb|exact Hr]. }
  destruct (ci =? 0x8E) eqn:C6.
  { apply N.eqb_eq in C6. destruct (len p <? 17) eqn:El.
    { apply N.ltb_lt in El. apply Ok_inj in H. subst l. refine (Cut 17 (txt "ELL III") El _). auto 12. }
    apply N.ltb_ge in El. rewrite index_range_from in H by exact El. cbn [bind] in H.
    apply bind_ok in H as (rest & Hr & H). apply Ok_inj in H. subst l. apply Forall_app. split.
    - constructor; [|constructor; [|constructor]].
      + apply (entry _ _ _ _ _ _ _ _ _ [ci]); [lia|lia|reflexivity|]. subst ci. apply (SayCi cf radio (len pre + 0) 0x8E (txt "ELL III")). unfold ci_words. auto 12.
      + apply (entry _ _ _ _ _ _ _ _ _ (slice p 1 17)); [lia|exact El|reflexivity|]. apply SayEllIII. rewrite slice_len by lia. reflexivity.
    - apply (maybe_records_behind cf display radio pre p post 17); [exact El|exact Hb|exact Hr]. }
  apply Ok_inj in H. subst l. constructor; [|constructor]. right_one. rewrite Whole, (hex2_of _ Bci). apply SayUnknown.
  now apply ci_words_not.
Qed.
Lemma app_good cf display radio p pre post l : bytes_ok p ->
  application_told cf display (len pre) p = Ok l -> good cf radio (pre ++ p ++ post) l.
Proof. exact (app_good_n cf display radio (length p) p pre post l (le_n _)). Qed.
