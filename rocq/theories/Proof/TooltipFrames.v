(** The texts of the tooltips of whole frames. *)
From Coq Require Import List NArith ZArith Lia Bool String.
Import ListNotations.
From Verif Require Import Model.Base Model.Text Model.Core Model.F64 Model.Wired Model.Wireless Model.DataInfo Model.ValueInfo
  Model.Record Model.MbusData Model.Hex Model.Show Model.Legacy Model.Annotate Model.AnnotateText
  Spec.WiredSpec Spec.CrcSpec Spec.WirelessSpec Spec.RecordSpec Spec.AnnotateSpec Spec.DetailSpec Spec.LegacySpec Spec.TooltipSpec
  Proof.BaseFacts Proof.CoreFacts Proof.AppFacts Proof.WiredFacts Proof.WirelessFacts Proof.WiredProps Proof.FormatAFacts Proof.FormatAProps Proof.IterFacts Proof.RecordFacts Proof.AnnotateFacts Proof.AnnotateFormatA
  Proof.AnnotateRecords Proof.AnnotateApp Proof.DetailFacts Proof.LegacyValues Proof.TooltipFacts Proof.TooltipTexts.
Open Scope N_scope.
Open Scope list_scope.

Lemma sum8_small l : sum8 l < 256.
Proof. unfold sum8. apply N.mod_lt. discriminate. Qed.

Lemma frame_entry cf radio D a b k t bytes : slice D a b = bytes ->
  k <> KStartByte -> says cf radio a LFrame bytes k t -> right_text cf radio D (seg a b k None LFrame, t).
Proof. intros E _ H. right_one. now rewrite E. Qed.

(** ** Wired frames *)
Lemma long_good cf display x c a f ad p ctl l : bytes_ok p -> In (c, f) function_codes -> address_code a ad -> ctl = (c =? 0x53) ->
  long_or_control_told cf display (long_layout x c a p) f ad p ctl = Ok l -> good cf false (long_layout x c a p) l.
Proof.
  intros Hb Hf Ha Hc H. set (n := N.of_nat (length p) + 2). set (s := sum8 (c :: a :: p)).
  assert (ED : long_layout x c a p = [0x68; n; n; x; c; a] ++ p ++ [s; 0x16]) by reflexivity.
  assert (ED2 : long_layout x c a p = ([0x68; n; n; x; c; a] ++ p) ++ [s; 0x16] ++ []) by (rewrite ED, <- app_assoc; reflexivity).
  assert (ED3 : long_layout x c a p = ([0x68; n; n; x; c; a] ++ p ++ [s]) ++ [0x16] ++ []) by (rewrite ED, <- !app_assoc; reflexivity).
  assert (LD : len (long_layout x c a p) = len p + 8) by (rewrite ED, !len_app; cbn; lia).
  assert (L2 : len ([0x68; n; n; x; c; a] ++ p) = 6 + len p) by (rewrite len_app; reflexivity).
  assert (L3 : len ([0x68; n; n; x; c; a] ++ p ++ [s]) = 6 + len p + 1) by (rewrite !len_app; cbn; lia).
  assert (S2 : slice (long_layout x c a p) (6 + len p) (6 + len p + 1) = [s]).
  { rewrite ED2. rewrite <- L2. exact (slice_within _ [s; 0x16] [] 0 1 ltac:(lia) ltac:(cbn; lia)). }
  assert (B2 : byte_or_0 (long_layout x c a p) (6 + len p) = s).
  { pose proof (slice_byte (long_layout x c a p) (6 + len p) ltac:(lia)) as E. rewrite S2 in E. now injection E. }
  assert (S3 : slice (long_layout x c a p) (6 + len p + 1) (6 + len p + 1 + 1) = [0x16]).
  { rewrite ED3. rewrite <- L3. exact (slice_within _ [0x16] [] 0 1 ltac:(lia) ltac:(cbn; lia)). }
  unfold long_or_control_told in H. apply bind_ok in H as (body & Hbody & H). cbv zeta in H. rewrite LD, B2 in H.
  replace (6 + len p <? len p + 8) with true in H by (symmetry; apply N.ltb_lt; lia).
  replace (6 + len p + 1 <? len p + 8) with true in H by (symmetry; apply N.ltb_lt; lia).
  apply Ok_inj in H. subst l. unfold good. apply Forall_app. split.
  - constructor. { right_one. apply SayStartLong. }
    constructor. { right_one. apply (SayLength cf n). }
    constructor. { cbn [right_text seg s_kind s_start s_end s_layer]. intros _ _ K. specialize (K eq_refl eq_refl). injection K as ->. apply SayStartAgain. }
    constructor. { right_one. change (slice (long_layout x c a p) 4 (4 + 1)) with [c]. rewrite Hc. apply SayFunction. now apply function_text_of. }
    constructor. { right_one. apply (SayAddress cf 5 a). now apply address_text_of. }
    constructor.
  - apply Forall_app. split.
    + assert (Hbody' : (if ctl then Ok [(seg 6 (6 + len p) KUnknown None LAppHeader, txt "Control frame data")] else application_told cf display 6 p) = Ok body \/ body = []).
      { destruct p; [right; now apply Ok_inj in Hbody|left; exact Hbody]. }
      clear Hbody. destruct Hbody' as [Hbody|Hbody]; [|subst body; constructor].
      destruct ctl.
      * apply Ok_inj in Hbody. subst body. constructor; [|constructor]. right_one. apply SayControl.
      * rewrite ED. apply (app_good cf display false p [0x68; n; n; x; c; a] [s; 0x16] body Hb Hbody).
    + constructor. { right_one. rewrite S2. rewrite hex2_of by apply sum8_small. apply SayChecksum. }
      constructor; [|constructor]. right_one. rewrite S3. apply SayStop.
Qed.

Lemma bytes_of_long x c a p : bytes_ok (long_layout x c a p) -> bytes_ok p.
Proof.
  intros H. unfold long_layout in H. do 6 apply bytes_ok_cons in H as [_ H]. now apply bytes_ok_app in H.
Qed.
Lemma wired_good cf display data l : bytes_ok data -> wired_told cf display data = Ok l -> good cf false data l.
Proof.
  intros Hb H. unfold wired_told in H. apply bind_ok in H as (fr & Hf & H). apply map_err_ok in Hf. apply wired_ok_iff in Hf.
  cbv zeta in H. destruct Hf as [rest|c a f ad Hf Ha|x c a f ad p Hf Ha Hc|x a f ad p Hf Ha].
  - apply Ok_inj in H. subst l. constructor; [|constructor]. right_one. apply SaySingle.
  - apply Ok_inj in H. subst l. constructor. { right_one. apply SayStartShort. }
    constructor. { right_one. apply (SayShortFunction cf c). now apply function_text_of. }
    constructor. { right_one. apply (SayAddress cf 2 a). now apply address_text_of. }
    constructor. { right_one. change (byte_or_0 (short_layout c a) 3) with (sum8 [c; a]). rewrite hex2_of by apply sum8_small. apply (SayChecksum cf 3). }
    constructor; [|constructor]. right_one. apply (SayStop cf 4).
  - eapply long_good; [exact (bytes_of_long _ _ _ _ Hb)|exact Hf|exact Ha| |exact H]. symmetry. now apply N.eqb_neq.
  - eapply long_good; [exact (bytes_of_long _ _ _ _ Hb)|exact Hf|exact Ha|reflexivity|exact H].
Qed.

(** ** Wireless frames *)
Lemma wireless_good cf display data l : bytes_ok data -> wireless_told cf display data = Ok l -> good cf true data l.
Proof.
  intros Hb H. unfold wireless_told in H. apply bind_ok in H as (fr & Hf & H). apply map_err_ok in Hf. apply wireless_len in Hf.
  apply bind_ok in H as (cs & Hc & H). cbv zeta in H. apply bind_ok in H as (body & Hbody & H). apply Ok_inj in H. subst l.
  set (app_end := match cs with Some s => s | None => len data end) in *.
  assert (He : 10 <= app_end <= len data).
  { unfold app_end. destruct cs as [s|]; [apply trailing_value in Hc; lia|lia]. }
  unfold good. apply Forall_app. split; [|apply Forall_app; split].
  - clear Hc Hbody. assert (Hd : exists b0 b1 b2 b3 b4 b5 b6 b7 b8 b9 rest, data = b0 :: b1 :: b2 :: b3 :: b4 :: b5 :: b6 :: b7 :: b8 :: b9 :: rest).
    { do 10 (destruct data as [|? data]; [exfalso; revert Hf; unfold len; cbn [length]; lia|]). eauto 12. }
    destruct Hd as (b0 & b1 & b2 & b3 & b4 & b5 & b6 & b7 & b8 & b9 & rest & ->).
    do 10 apply bytes_ok_cons in Hb as [? Hb]. unfold byte_ok in *.
    set (D := b0 :: b1 :: b2 :: b3 :: b4 :: b5 :: b6 :: b7 :: b8 :: b9 :: rest).
    change (byte_or_0 D 0) with b0. change (byte_or_0 D 1) with b1. change (byte_or_0 D 2) with b2. change (byte_or_0 D 3) with b3.
    change (byte_or_0 D 4) with b4. change (byte_or_0 D 5) with b5. change (byte_or_0 D 6) with b6. change (byte_or_0 D 7) with b7.
    change (byte_or_0 D 8) with b8. change (byte_or_0 D 9) with b9.
    rewrite hex_four, !hex_pair by assumption. rewrite !hex2_of by assumption.
    constructor. { right_one. apply (SayL cf b0). }
    constructor. { right_one. apply (SayC cf b1). }
    constructor. { right_one. apply (SayManufacturer cf true 2 LFrame b2 b3). }
    constructor. { right_one. apply (SayNumber cf true 4 LFrame b4 b5 b6 b7). }
    constructor. { right_one. apply (SayVersion cf true 8 LFrame b8). }
    constructor. { right_one. apply (SayDevice cf true 9 LFrame b9). }
    constructor.
  - destruct (10 <? app_end) eqn:E; [|apply Ok_inj in Hbody; subst body; constructor].
    apply bind_ok in Hbody as (p & Hp & Hbody). unfold index_range in Hp.
    destruct (get_range data 10 app_end) as [d|] eqn:G; [|discriminate]. apply Ok_inj in Hp. subst d.
    destruct (get_range_split _ _ _ _ G) as (pre & post & Ed & Lp & _). 
    rewrite Ed in Hb |- *. apply bytes_ok_app in Hb as [_ Hb]. apply bytes_ok_app in Hb as [Hb _].
    rewrite <- Lp in Hbody. now apply (app_good cf display true p pre post body Hb).
  - destruct cs as [s|]; [|constructor]. apply trailing_value in Hc as [Hs _]. constructor; [|constructor]. right_one.
    assert (E : slice data s (len data) = [byte_or_0 data s; byte_or_0 data (s + 1)]).
    { pose proof (slice_byte data s ltac:(lia)) as E1. pose proof (slice_byte data (s + 1) ltac:(lia)) as E2.
      unfold slice in *. replace (len data - s) with 2 by lia. replace (s + 1 - s) with 1 in E1 by lia. replace (s + 1 + 1 - (s + 1)) with 1 in E2 by lia.
      replace (N.to_nat (s + 1)) with (S (N.to_nat s)) in E2 by lia.
      destruct (skipn (N.to_nat s) data) as [|u r] eqn:Es; [discriminate|].
      replace (skipn (S (N.to_nat s)) data) with r in E2.
      2:{ clear - Es. revert data Es. induction (N.to_nat s) as [|m IH]; intros [|w data] Es; cbn in *; try discriminate; [now injection Es|now apply IH]. }
      injection E1 as E1. destruct r as [|w r]; [discriminate|]. injection E2 as E2. cbn [N.to_nat Pos.to_nat Pos.iter_op Nat.add firstn].
      change (firstn (N.to_nat 2) (u :: w :: r)) with [u; w]. now rewrite E1, E2. }
    rewrite E. unfold crc_text. rewrite hex_pair by now apply byte_small. apply SayCrc.
Qed.

(** ** Which of the texts are used *)
Lemma told_ok x l : ranges x = Ok l -> exists t, x = Ok t /\ map fst t = l.
Proof. destruct x as [t|e|p]; cbn; try discriminate. intros H. apply Ok_inj in H. eauto. Qed.
Lemma told_err x e : ranges x = Err e -> x = Err e.
Proof. destruct x as [t|e'|p]; cbn; try discriminate. intros H. now injection H as ->. Qed.

Lemma frame_told_wired cf display data fr l : wired_meaning data fr -> frame_told cf display data = Ok l ->
  wired_told cf display data = Ok l.
Proof.
  intros Hw H. unfold frame_told in H. destruct (wired_told cf display data) as [l'|e|p] eqn:E; [exact H| |discriminate].
  exfalso. pose proof (wired_ranges cf display data) as R. rewrite E in R. symmetry in R. cbn [ranges] in R.
  apply wired_no_error in R as (e1 & _ & R). apply (wired_ok_iff cf) in Hw. congruence.
Qed.
Lemma not_wired_told cf display data l : not_wired data -> frame_told cf display data = Ok l ->
  exists e, wired_told cf display data = Err (AError e).
Proof.
  intros Hw H. unfold frame_told in H. destruct (wired_told cf display data) as [l'|[e|]|p] eqn:E; try discriminate; [|eauto].
  exfalso. unfold wired_told in E. apply bind_ok in E as (fr & E & _). apply map_err_ok in E. apply wired_ok_iff in E. exact (Hw _ E).
Qed.
Lemma frame_told_wireless cf display data l : bytes_ok data -> not_wired data -> no_first_crc data ->
  frame_told cf display data = Ok l -> wireless_told cf display data = Ok l.
Proof.
  intros Hb Hw Hc H. destruct (not_wired_told _ _ _ _ Hw H) as [e E]. unfold frame_told in H. rewrite E in H.
  destruct (strip_cases data (repeat 0 512) Hb) as [[Hs' _]|(head & hi & lo & enc & content & E1 & E2 & E3 & _)].
  - rewrite Hs' in H. cbn [no_fuel map_err bind] in H.
    destruct (wireless_told cf display data) as [|[e2|]|]; try discriminate. exact H.
  - exfalso. exact (Hc _ _ _ _ E1 E2 E3).
Qed.

Lemma tooltips_wired cf display data fr l : bytes_ok data -> wired_meaning data fr -> frame_told cf display data = Ok l ->
  Forall (right_text cf false data) l.
Proof. intros Hb Hw H. apply (wired_good cf display data l Hb). eapply frame_told_wired; eassumption. Qed.
Lemma tooltips_wireless cf display data l : bytes_ok data -> not_wired data -> no_first_crc data ->
  frame_told cf display data = Ok l -> Forall (right_text cf true data) l.
Proof. intros Hb Hw Hc H. apply (wireless_good cf display data l Hb). now apply frame_told_wireless. Qed.

(** ** The values *)
Definition value_of display (i : N) (items : list (outcome data_record_error data_record)) (x : segment * text) : Prop :=
  s_kind (fst x) = KDataPayload ->
  exists k r, nth_error items k = Some (Ok r) /\ s_group (fst x) = Some (i + N.of_nat k) /\ value_told display r (snd x).

Lemma value_shown display r : value_told display r (show_data display (d_value (dr_data r))).
Proof. unfold value_told. destruct (d_value (dr_data r)) as [v|]; [apply value_written|reflexivity]. Qed.

Lemma record_values display r base data offset i items : Forall (value_of display i (Ok r :: items))
  (fst (fst (record_told display r base data offset i))).
Proof.
  apply Forall_forall. intros [s x] Hin. unfold value_of. cbn [fst snd]. intros Hk. exists O, r. split; [reflexivity|]. rewrite N.add_0_r.
  unfold record_told in Hin. cbv zeta in Hin.
  destruct (rh_vib (drh_raw (dr_header r))) as [v|]; cbn [fst] in Hin; unfold told in Hin; rewrite !in_app_iff in Hin;
    repeat match type of Hin with _ \/ _ => destruct Hin as [Hin|Hin] end; try (apply option_if_in in Hin as [Hin _]; pair_inv Hin);
      try discriminate; try (split; [reflexivity|apply value_shown]); try (destruct Hin; fail).
  destruct (vib_plaintext v); [|destruct Hin]. destruct Hin as [Hin|[]]. symmetry in Hin. pair_inv Hin. discriminate.
Qed.

Lemma loop_values cf display fuel : forall base data offset i l items,
  records_told_loop cf display fuel base data offset i = Ok l -> offset <= len data ->
  decodes cf None (skipn (N.to_nat offset) data) items -> Forall not_readout items ->
  Forall (value_of display i items) l.
Proof.
  induction fuel as [|fuel IH]; intros base data offset i l items H Ho Hd Hok; [discriminate|].
  cbn [records_told_loop] in H. destruct (offset <? len data) eqn:El; cbn [negb] in H; [|apply Ok_inj in H; subst l; constructor].
  apply N.ltb_lt in El. destruct (get data offset) as [b|] eqn:Eg; [|apply Ok_inj in H; subst l; constructor].
  destruct (get_skipn _ _ _ Eg) as (t & E1 & E2).
  assert (Hstep : forall k tx, k <> KDataPayload -> skips b = true -> (rest <- records_told_loop cf display fuel base data (offset + 1) i ;;
            Ok ((seg (base + offset) (base + offset + 1) k None LRecordField, tx) :: rest)) = Ok l -> Forall (value_of display i items) l).
  { intros k tx Hk Hs H'. apply bind_ok in H' as (rest & Hr & H'). apply Ok_inj in H'. subst l. constructor.
    - intros K. cbn in K. congruence.
    - rewrite E1 in Hd. inversion Hd; subst; try congruence. eapply IH; [exact Hr|lia|assumption|exact Hok]. }
  destruct (N.land b 0x0F =? 0x0F) eqn:Esp.
  - apply N.eqb_eq in Esp. destruct (special_cases b Esp) as [Hs|[Hs|[Hs|Hs]]].
    + destruct (b =? 0x2F); [now apply (Hstep KIdleFiller (txt "Idle Filler: 0x2F"))|].
      destruct ((b =? 0x0F) || (b =? 0x1F)) eqn:Er; [|now apply (Hstep KUnknown (txt "Special DIF: 0x" ++ hex2 b))].
      exfalso. apply orb_true_iff in Er. destruct Er as [Er|Er]; apply N.eqb_eq in Er; subst b; discriminate.
    + subst b. change (0x0F =? 0x2F) with false in H. change ((0x0F =? 0x0F) || (0x0F =? 0x1F)) with true in H. cbv iota in H.
      apply Ok_inj in H. subst l. constructor; [|constructor]. intros K. discriminate.
    + subst b. change (0x1F =? 0x2F) with false in H. change ((0x1F =? 0x0F) || (0x1F =? 0x1F)) with true in H. cbv iota in H.
      apply Ok_inj in H. subst l. constructor; [|constructor]. intros K. discriminate.
    + exfalso. rewrite E1 in Hd. subst b.
      destruct (parse_readout_dif cf t None) as (r0 & P0 & R0).
      inversion Hd as [|? ? ? Hsk|? ? r rest l' Hsk Hp Hr Hl|? ? ? Hsk Hp|? ? ? Hsk Hp]; subst; try congruence.
      { discriminate. }
      assert (r = r0) by congruence. subst r0. inversion Hok as [|? ? Hi _]; subst. pose proof (Hi r eq_refl) as Hn.
      pose proof (record_head _ _ _ _ Hp) as [t' Et']. rewrite R0 in Et'. injection Et' as Ed _. congruence.
  - clear E2 Hstep. assert (Hsf : is_special_function b = false) by exact Esp.
    assert (Hsk0 : skips b = false) by (unfold skips; now rewrite Hsf).
    rewrite index_range_from in H by lia. cbn [bind] in H. rewrite E1 in H, Hd.
    inversion Hd as [|? ? ? Hsk|? ? r rest l' Hsk Hp Hr Hl|? ? ? Hsk Hp|? ? ? Hsk Hp]; subst; try congruence.
    + rewrite Hp in H. pose proof (record_head _ _ _ _ Hp) as [t' Et']. rewrite Et' in Hr. injection Hr as Edif Hr0.
      assert (Hr : b :: t = dr_raw_bytes r ++ rest) by (rewrite Et', Edif, Hr0; reflexivity).
      destruct (record_tiles _ _ _ _ (base + offset) i Hp) as (ss & Es & _ & _).
      assert (Elen : len (b :: t) = len data - offset) by (rewrite <- E1, skip_len by lia; reflexivity). rewrite Elen in Es.
      pose proof (record_ranges display r base data offset i) as Er. rewrite Es in Er.
      pose proof (record_values display r base data offset i l') as V.
      destruct (record_told display r base data offset i) as [[l0 a] g]. injection Er as _ <- <-. cbn [fst] in V.
      apply bind_ok in H as (sr & Hrr & H). apply Ok_inj in H. subst l. inversion Hok as [|? ? Hi Hok']; subst.
      assert (Hsz : dr_get_size r <= len data - offset) by (unfold dr_get_size; rewrite <- Elen, Hr, len_app; lia).
      apply Forall_app. split; [exact V|].
      assert (W : Forall (value_of display (i + 1) l') sr).
      { eapply IH; [exact Hrr|lia| |exact Hok'].
        replace (skipn (N.to_nat (offset + dr_get_size r)) data) with rest; [exact Hl|].
        replace (N.to_nat (offset + dr_get_size r)) with (N.to_nat offset + length (dr_raw_bytes r))%nat
          by (unfold dr_get_size, len; lia).
        rewrite <- skipn_skipn, E1, Hr, skipn_app, skipn_all, Nat.sub_diag. reflexivity. }
      eapply Forall_impl; [|exact W]. intros [s x] Hx K. destruct (Hx K) as (k & r' & A & B & C). exists (S k), r'.
      split; [exact A|]. split; [rewrite B; f_equal; lia|exact C].
    + rewrite Hp in H. apply Ok_inj in H. subst l. constructor; [|constructor]. intros K. discriminate.
    + rewrite Hp in H. discriminate.
Qed.

Definition no_value (x : segment * text) : Prop := s_kind (fst x) <> KDataPayload.
Ltac no_values := repeat constructor; unfold no_value; cbn [fst seg s_kind]; discriminate.

Lemma long_mode ci i0 i1 i2 i3 m0 m1 v d acc st c0 c1 block : c0 < 256 -> c1 < 256 -> c1 mod 32 = 0 ->
  @is_long_tpl_encrypted annotate_error ([ci; i0; i1; i2; i3; m0; m1; v; d; acc; st; c0; c1] ++ block) = Ok false.
Proof.
  intros B0 B1 E. set (hdr := [ci; i0; i1; i2; i3; m0; m1; v; d; acc; st; c0; c1]).
  assert (L : len (hdr ++ block) = 13 + len block) by (rewrite len_app; reflexivity).
  unfold is_long_tpl_encrypted. replace (len (hdr ++ block) <? 13) with false by (symmetry; apply N.ltb_ge; lia).
  change (@Ok annotate_error bool match configuration_security_mode (configuration_field_from_bytes c0 c1) with NoEncryption => false | _ => true end = Ok false).
  now rewrite (mode_test c0 c1 B0 B1), E.
Qed.

Lemma app_told_clear cf display p block : clear_message p block -> bytes_ok p -> forall base l, application_told cf display base p = Ok l ->
  exists hd rest b, l = hd ++ rest /\ Forall no_value hd /\ records_told cf display b block = Ok rest.
Proof.
  assert (Nil : forall b, records_told cf display b [] = Ok []) by reflexivity.
  induction 1 as [ci i0 i1 i2 i3 m0 m1 v d acc st c0 c1 block Hci Hc|ci acc st c0 c1 block Hci Hc|x acc st c0 c1 block Hc|block
    |cc acc rest block He IH|cc acc s0 s1 s2 s3 p0 p1 block|cc acc m0 m1 a0 a1 a2 a3 a4 a5 s0 s1 s2 s3 p0 p1 block]; intros Hb base l H.
  - set (hdr := [ci; i0; i1; i2; i3; m0; m1; v; d; acc; st; c0; c1]) in *.
    assert (L : len (hdr ++ block) = 13 + len block) by (rewrite len_app; reflexivity).
    assert (E : application_told cf display base (hdr ++ block) =
      (if len (hdr ++ block) <? 13 then Ok [(seg base (base + len (hdr ++ block)) KUnknown None LAppHeader, txt "Incomplete long TPL header")] else
       records_data <- index_range (hdr ++ block) 13 (len (hdr ++ block)) ;;
       encrypted <- is_long_tpl_encrypted (hdr ++ block) ;;
       rest <- payload_told cf display encrypted (base + 13) records_data ;;
       Ok (long_tpl_told base (hdr ++ block) ++ rest))).
    { destruct Hci; subst ci; reflexivity. }
    rewrite E in H. clear E. replace (len (hdr ++ block) <? 13) with false in H by (symmetry; apply N.ltb_ge; lia).
    rewrite (index_range_tail_n hdr block 13) in H by reflexivity. cbn [bind] in H.
    apply bytes_ok_app in Hb as [Hb _]. unfold hdr in Hb. do 11 apply bytes_ok_cons in Hb as [_ Hb].
    apply bytes_ok_cons in Hb as [B0 Hb]. apply bytes_ok_cons in Hb as [B1 _].
    unfold hdr in H at 1. rewrite long_mode in H by assumption. cbn [bind payload_told] in H. apply bind_ok in H as (rest & Hr & H).
    apply Ok_inj in H. subst l. exists (long_tpl_told base (hdr ++ block)), rest, (base + 13). split; [reflexivity|]. split; [|exact Hr].
    unfold long_tpl_told. cbv zeta. no_values.
  - set (hdr := [ci; acc; st; c0; c1]) in *.
    assert (L : len (hdr ++ block) = 5 + len block) by (rewrite len_app; reflexivity).
    unfold hdr in H at 1. cbn [app application_told] in H. change (ci :: acc :: st :: c0 :: c1 :: block) with (hdr ++ block) in H.
    replace ((ci =? 0x72) || (ci =? 0x76)) with false in H by (symmetry; apply orb_false_iff; split; apply N.eqb_neq; lia).
    replace ((ci =? 0x7A) || ((0xA0 <=? ci) && (ci <=? 0xAF))) with true in H.
    2:{ symmetry. apply orb_true_iff. destruct Hci as [->|K]; [now left|right]. apply andb_true_iff; split; apply N.leb_le; lia. }
    replace (ci =? 0xA0) with false in H by (symmetry; apply N.eqb_neq; lia).
    cbv zeta in H. replace (len (hdr ++ block) <? 5) with false in H by (symmetry; apply N.ltb_ge; lia).
    rewrite (index_range_tail_n hdr block 5) in H by reflexivity. cbn [bind] in H.
    apply bytes_ok_app in Hb as [Hb _]. unfold hdr in Hb. do 3 apply bytes_ok_cons in Hb as [_ Hb].
    apply bytes_ok_cons in Hb as [B0 Hb]. apply bytes_ok_cons in Hb as [B1 _].
    assert (Ee : @is_short_tpl_encrypted annotate_error (hdr ++ block) 1 = Ok false).
    { unfold is_short_tpl_encrypted. replace (len (hdr ++ block) <? 1 + 4) with false by (symmetry; apply N.ltb_ge; lia).
      pose proof (mode_test c0 c1 B0 B1) as M. rewrite Hc in M. change (negb (0 =? 0)) with false in M.
      transitivity (@Ok annotate_error bool match configuration_security_mode (configuration_field_from_bytes c0 c1) with NoEncryption => false | _ => true end);
        [reflexivity|now rewrite M]. }
    rewrite Ee in H. cbn [bind payload_told] in H. apply bind_ok in H as (rest & Hr & H). apply Ok_inj in H. subst l.
    cbn [app]. match goal with |- exists hd r b, ?a :: ?c :: ?d :: ?e :: rest = _ /\ _ => exists [a; c; d; e] end. exists rest, (base + (1 + 4)).
    split; [reflexivity|]. split; [no_values|exact Hr].
  - set (hdr := [0xA0; x; acc; st; c0; c1]) in *.
    assert (L : len (hdr ++ block) = 6 + len block) by (rewrite len_app; reflexivity).
    unfold hdr in H at 1. cbn [app application_told] in H. change (0xA0 :: x :: acc :: st :: c0 :: c1 :: block) with (hdr ++ block) in H.
    change ((0xA0 =? 0x72) || (0xA0 =? 0x76)) with false in H. change ((0xA0 =? 0x7A) || ((0xA0 <=? 0xA0) && (0xA0 <=? 0xAF))) with true in H.
    change (0xA0 =? 0xA0) with true in H. cbv iota zeta in H.
    replace (len (hdr ++ block) <? 6) with false in H by (symmetry; apply N.ltb_ge; lia).
    rewrite (index_range_tail_n hdr block 6) in H by reflexivity. cbn [bind] in H.
    apply bytes_ok_app in Hb as [Hb _]. unfold hdr in Hb. do 4 apply bytes_ok_cons in Hb as [_ Hb].
    apply bytes_ok_cons in Hb as [B0 Hb]. apply bytes_ok_cons in Hb as [B1 _].
    assert (Ee : @is_short_tpl_encrypted annotate_error (hdr ++ block) 2 = Ok false).
    { unfold is_short_tpl_encrypted. replace (len (hdr ++ block) <? 2 + 4) with false by (symmetry; apply N.ltb_ge; lia).
      pose proof (mode_test c0 c1 B0 B1) as M. rewrite Hc in M. change (negb (0 =? 0)) with false in M.
      transitivity (@Ok annotate_error bool match configuration_security_mode (configuration_field_from_bytes c0 c1) with NoEncryption => false | _ => true end);
        [reflexivity|now rewrite M]. }
    rewrite Ee in H. cbn [bind payload_told] in H. apply bind_ok in H as (rest & Hr & H). apply Ok_inj in H. subst l.
    cbn [app]. match goal with |- exists hd r b, ?a :: ?c :: ?d :: ?e :: ?g :: rest = _ /\ _ => exists [a; c; d; e; g] end. exists rest, (base + (2 + 4)).
    split; [reflexivity|]. split; [no_values|exact Hr].
  - cbn [application_told] in H. change ((0x78 =? 0x72) || (0x78 =? 0x76)) with false in H.
    change ((0x78 =? 0x7A) || ((0xA0 <=? 0x78) && (0x78 <=? 0xAF))) with false in H. change (0x78 =? 0x78) with true in H. cbv iota zeta in H.
    apply bind_ok in H as (rest & Hr & H). apply Ok_inj in H. subst l.
    match goal with |- exists hd r b, ?a :: rest = _ /\ _ => exists [a] end. exists rest, (base + 1).
    split; [reflexivity|]. split; [no_values|]. destruct block; [|exact Hr]. apply Ok_inj in Hr. subst rest. apply Nil.
  - cbn [app application_told] in H. change ((0x8C =? 0x72) || (0x8C =? 0x76)) with false in H.
    change ((0x8C =? 0x7A) || ((0xA0 <=? 0x8C) && (0x8C <=? 0xAF))) with false in H. change (0x8C =? 0x78) with false in H.
    change (0x8C =? 0x8C) with true in H. cbv iota zeta in H. apply bind_ok in H as (r & Hr & H). apply Ok_inj in H. subst l.
    assert (Hne : rest <> []) by (intros ->; inversion He).
    assert (Hr' : application_told cf display (base + 3) rest = Ok r) by (destruct rest; [congruence|exact Hr]).
    apply (bytes_ok_app [0x8C; cc; acc]) in Hb as [_ Hb]. destruct (IH Hb _ _ Hr') as (hd & rs & b & -> & F & R).
    match goal with |- exists x y z, ?a :: ?c :: hd ++ rs = _ /\ _ => exists (a :: c :: hd) end. exists rs, b.
    split; [reflexivity|]. split; [|exact R]. do 2 (constructor; [unfold no_value; cbn; discriminate|]). exact F.
  - set (hdr := [0x8D; cc; acc; s0; s1; s2; s3; p0; p1]) in *.
    assert (L : len (hdr ++ block) = 9 + len block) by (rewrite len_app; reflexivity).
    unfold hdr in H at 1. cbn [app application_told] in H. change (0x8D :: cc :: acc :: s0 :: s1 :: s2 :: s3 :: p0 :: p1 :: block) with (hdr ++ block) in H.
    change ((0x8D =? 0x72) || (0x8D =? 0x76)) with false in H. change ((0x8D =? 0x7A) || ((0xA0 <=? 0x8D) && (0x8D <=? 0xAF))) with false in H.
    change (0x8D =? 0x78) with false in H. change (0x8D =? 0x8C) with false in H. change (0x8D =? 0x8D) with true in H. cbv iota zeta in H.
    replace (len (hdr ++ block) <? 9) with false in H by (symmetry; apply N.ltb_ge; lia).
    rewrite (index_range_tail_n hdr block 9) in H by reflexivity. cbn [bind] in H. apply bind_ok in H as (rest & Hr & H). apply Ok_inj in H. subst l.
    match goal with |- exists hd r b, ?a :: ?c :: rest = _ /\ _ => exists [a; c] end. exists rest, (base + 9).
    split; [reflexivity|]. split; [no_values|]. destruct block; [|exact Hr]. apply Ok_inj in Hr. subst rest. apply Nil.
  - set (hdr := [0x8E; cc; acc; m0; m1; a0; a1; a2; a3; a4; a5; s0; s1; s2; s3; p0; p1]) in *.
    assert (L : len (hdr ++ block) = 17 + len block) by (rewrite len_app; reflexivity).
    unfold hdr in H at 1. cbn [app application_told] in H.
    change (0x8E :: cc :: acc :: m0 :: m1 :: a0 :: a1 :: a2 :: a3 :: a4 :: a5 :: s0 :: s1 :: s2 :: s3 :: p0 :: p1 :: block) with (hdr ++ block) in H.
    change ((0x8E =? 0x72) || (0x8E =? 0x76)) with false in H. change ((0x8E =? 0x7A) || ((0xA0 <=? 0x8E) && (0x8E <=? 0xAF))) with false in H.
    change (0x8E =? 0x78) with false in H. change (0x8E =? 0x8C) with false in H. change (0x8E =? 0x8D) with false in H.
    change (0x8E =? 0x8E) with true in H. cbv iota zeta in H.
    replace (len (hdr ++ block) <? 17) with false in H by (symmetry; apply N.ltb_ge; lia).
    rewrite (index_range_tail_n hdr block 17) in H by reflexivity. cbn [bind] in H. apply bind_ok in H as (rest & Hr & H). apply Ok_inj in H. subst l.
    match goal with |- exists hd r b, ?a :: ?c :: rest = _ /\ _ => exists [a; c] end. exists rest, (base + 17).
    split; [reflexivity|]. split; [no_values|]. destruct block; [|exact Hr]. apply Ok_inj in Hr. subst rest. apply Nil.
Qed.

Lemma clear_values cf display p block base l items : clear_message p block -> bytes_ok p -> application_told cf display base p = Ok l ->
  records_all cf block None = Some items -> Forall not_readout items -> Forall (value_of display 0 items) l.
Proof.
  intros Hc Hb H Hi Hok. destruct (app_told_clear cf display p block Hc Hb base l H) as (hd & rest & b & -> & F & R).
  apply Forall_app. split.
  - eapply Forall_impl; [|exact F]. intros x Hx K. destruct (Hx K).
  - apply records_all_iff in Hi. eapply loop_values; [exact R|lia|exact Hi|exact Hok].
Qed.

Lemma frame_values cf display data start p block l items : bytes_ok data -> carries data start p -> clear_message p block ->
  frame_told cf display data = Ok l -> records_all cf block None = Some items -> Forall not_readout items ->
  forall s t, In (s, t) l -> s_kind s = KDataPayload ->
  exists k r, nth_error items k = Some (Ok r) /\ s_group s = Some (N.of_nat k) /\ value_told display r t.
Proof.
  intros Hb Hc Hm H Hi Hok. enough (G : Forall (value_of display 0 items) l).
  { intros s t Hin Hk. rewrite Forall_forall in G. exact (G _ Hin Hk). }
  assert (Out : forall l, Forall no_value l -> Forall (value_of display 0 items) l).
  { intros l0 F. eapply Forall_impl; [|exact F]. intros x Hx K. destruct (Hx K). }
  destruct Hc as [data f a p Hw|data fr Hw Hn Hwm].
  - pose proof (frame_told_wired _ _ _ _ _ Hw H) as H'. unfold wired_told in H'. pose proof Hw as Hw'. apply (wired_ok_iff cf) in Hw. rewrite Hw in H'.
    cbn [map_err bind] in H'. unfold long_or_control_told in H'. apply bind_ok in H' as (body & Hbody & H'). cbv zeta in H'. apply Ok_inj in H'. subst l.
    apply Forall_app. split; [apply Out; no_values|]. apply Forall_app. split.
    + assert (Bp : bytes_ok p) by (inversion Hw'; subst; eapply bytes_of_long; exact Hb).
      destruct p as [|y q] eqn:Ep; [inversion Hm|]. rewrite <- Ep in *. eapply clear_values; eassumption.
    + apply Out. clear. apply Forall_app. split.
      * destruct (6 + len p <? len data); [|apply Forall_nil]. apply Forall_cons; [|apply Forall_nil]. unfold no_value. cbn [fst seg s_kind]. discriminate.
      * destruct (6 + len p + 1 <? len data); [|apply Forall_nil]. apply Forall_cons; [|apply Forall_nil]. unfold no_value. cbn [fst seg s_kind]. discriminate.
  - pose proof (frame_told_wireless _ _ _ _ Hb Hw Hn H) as H'. apply (wireless_ok_iff _ _ Hb) in Hwm.
    destruct (inner_body cf data fr Hwm) as (dpre & dpost & Ed & Lp & _ & _).
    unfold wireless_told in H'. apply bind_ok in H' as (fr' & Hf & H'). apply bind_ok in H' as (cs & Hcs & H'). cbv zeta in H'.
    apply bind_ok in H' as (body & Hbody & H'). apply Ok_inj in H'. subst l.
    apply Forall_app. split; [apply Out; no_values|]. apply Forall_app. split; [|apply Out; destruct cs; no_values].
    revert Hwm. unfold wireless_try_from. intros K. apply bind_ok in K as (lb & _ & K). apply bind_ok in K as (c & _ & K). apply bind_ok in K as (t & _ & K).
    apply bind_ok in K as (id & _ & K). destruct (_ =? _); [|discriminate].
    apply bind_ok in K as (cs' & Hcs' & K). apply bind_ok in K as (d & Hd & K). apply Ok_inj in K.
    assert (Ecs : cs' = cs).
    { revert Hcs Hcs'. unfold trailing_frame_crc_start. destruct (_ <? 2); [congruence|]. destruct (_ <? 10); [congruence|].
      unfold index. destruct (get data (len data - 2)); [cbn [bind]|discriminate].
      destruct (get data (len data - 2 + 1)); [cbn [bind]|discriminate].
      unfold index_range. destruct (get_range data 0 _); cbn [bind]; [|discriminate]. congruence. }
    subst cs'. assert (Ep : wf_data fr = d) by now subst fr.
    destruct (10 <? match cs with Some s => s | None => len data end) eqn:E10; [|apply Ok_inj in Hbody; subst body; constructor].
    apply bind_ok in Hbody as (d' & Hd' & Hbody).
    assert (d' = d). { revert Hd Hd'. unfold index_range. destruct (get_range data 10 _); [congruence|discriminate]. }
    subst d'. rewrite Ep in Hm. eapply clear_values; [exact Hm| |exact Hbody|exact Hi|exact Hok].
    rewrite Ed in Hb. apply bytes_ok_app in Hb as [_ Hb]. apply bytes_ok_app in Hb as [Hb _]. now rewrite Ep in Hb.
Qed.
