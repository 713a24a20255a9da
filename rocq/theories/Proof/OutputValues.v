(** Facts about the records shown: bytes and exact values. *)
From Coq Require Import List NArith ZArith QArith Lia Bool String.
Import ListNotations.
From Verif Require Import Model.Base Model.Text Model.Core Model.F64 Model.DataInfo Model.ValueInfo Model.Record
  Model.Hex Model.Decimal Model.Show Model.Output
  Spec.CoreSpec Spec.TextSpec Spec.RecordSpec Spec.FloatSpec Spec.OutputSpec
  Proof.BaseFacts Proof.CoreFacts Proof.RecordFacts Proof.HeaderFacts Proof.HeaderProps Proof.NumberProps Proof.IterFacts
  Proof.DecimalFacts Proof.ScaledFacts Proof.OutputRecords Proof.ShowFacts.
Open Scope N_scope.

(** ** Bytes *)
Lemma filter_hex2 b : b < 256 -> without_spaces (hex2 b) = hex2 b.
Proof.
  intros H. unfold without_spaces. pose proof (hex2_char b) as K. unfold hex2 in *. cbn [filter In] in *.
  destruct (N.eqb_spec (hex_digit_upper (b / 16)) 32) as [E|_]; [exfalso; eapply K; [exact H|left; reflexivity|exact E]|].
  destruct (N.eqb_spec (hex_digit_upper (b mod 16)) 32) as [E|_]; [exfalso; eapply K; [exact H|right; left; reflexivity|exact E]|].
  reflexivity.
Qed.
Lemma spaced_hex_bytes l : bytes_ok l -> without_spaces (spaced_hex (Some l)) = hex_string l.
Proof.
  cbn [spaced_hex]. induction 1 as [|b l Hb _ IH]; [reflexivity|]. destruct l as [|b' l].
  - cbn [map join]. rewrite filter_hex2 by exact Hb. reflexivity.
  - change (join (txt " ") (map hex2 (b :: b' :: l))) with (hex2 b ++ txt " " ++ join (txt " ") (map hex2 (b' :: l))).
    unfold without_spaces in *. rewrite !filter_app, IH. fold (without_spaces (hex2 b)). rewrite filter_hex2 by exact Hb. reflexivity.
Qed.
Lemma record_bytes cf data hdr r i : bytes_ok data -> data_record_parse cf data hdr = Ok r ->
  without_spaces (ro_header_hex (record_output i r)) ++ without_spaces (ro_data_hex (record_output i r)) = hex_string (dr_raw_bytes r).
Proof.
  intros B H. destruct (record_split _ _ _ _ H) as (p & rest & di & E & L & _ & _ & _ & _ & q & s & Er & Ew & _).
  cbn [record_output ro_header_hex ro_data_hex]. unfold dr_get_size. rewrite Ew, <- L.
  rewrite get_to_app. rewrite E, Er in B. rewrite !bytes_ok_app in B. destruct B as (Bp & Bq & _).
  assert (G : get_range (p ++ q) (len p) (len (p ++ q)) = Some q).
  { rewrite len_app. pose proof (get_range_app p q []) as K. rewrite app_nil_r in K. exact K. }
  rewrite G, !spaced_hex_bytes, hex_string_app by assumption. reflexivity.
Qed.

Lemma laid_out_shown cf hdr data items : laid_out (fun d => data_record_parse cf d hdr) data items -> bytes_ok data ->
  forall rs, items = map Ok rs -> forall index, exists l, pieces data l /\
    Forall2 (fun o p => without_spaces (ro_header_hex o) ++ without_spaces (ro_data_hex o) = hex_string p) (outs_of index rs) l.
Proof.
  induction 1 as [|b rest items Hs _ IH|b t r rest items Hs Hp Hd Hn _ IH|b t e Hs Hp|b t p Hs Hp]; intros B rs E index.
  - destruct rs; [|discriminate E]. exists []. split; constructor.
  - apply bytes_ok_cons in B as [_ B]. destruct (IH B rs E index) as (l & P & F). exists l. split; [now constructor|exact F].
  - destruct rs as [|r' rs]; [discriminate E|]. injection E as <- E.
    assert (Br : bytes_ok rest) by (rewrite Hd in B; apply bytes_ok_app in B; tauto).
    destruct (IH Br rs E (index + 1)) as (l & P & F). exists (dr_raw_bytes r :: l). split.
    + rewrite Hd. destruct (dr_raw_bytes r) as [|x y]; [congruence|]. injection Hd as -> _. constructor; assumption.
    + cbn [outs_of]. constructor; [|exact F]. eapply record_bytes; [exact B|exact Hp].
  - destruct rs as [|? [|]]; discriminate E.
  - destruct rs as [|? [|]]; discriminate E.
Qed.
Lemma outs_index rs : forall index i o, nth_error (outs_of index rs) i = Some o -> ro_index o = index + N.of_nat i.
Proof.
  induction rs as [|r rs IH]; intros index i o H; [destruct i; discriminate H|]. destruct i as [|i]; cbn [outs_of nth_error] in H.
  - injection H as <-. cbn [record_output ro_index]. lia.
  - apply IH in H. lia.
Qed.
Lemma records_bytes env data outs : bytes_ok data -> decode_data_records env data = Ok outs ->
  (exists l, pieces data l /\
     Forall2 (fun o p => without_spaces (ro_header_hex o) ++ without_spaces (ro_data_hex o) = hex_string p) outs l) /\
  (forall i o, nth_error outs i = Some o -> ro_index o = N.of_nat i).
Proof.
  intros B H. unfold decode_data_records in H. destruct data as [|b data]; [discriminate H|].
  destruct (records_all_decodes (env_config env) (b :: data) None) as (items & Ei & D).
  destruct (decodes_shape _ _ _ _ D) as (rs & x & ->). rewrite (collect_records_of env _ _ rs x Ei) in H.
  destruct x as [|e|p]; [|discriminate H..]. cbn [bind] in H. apply Ok_inj in H. subst outs.
  cbn [end_items] in *. rewrite app_nil_r in *. split.
  - eapply laid_out_shown; [eapply decodes_laid_out; [exact B|exact D]|exact B|reflexivity].
  - intros i o Hn. apply outs_index in Hn. lia.
Qed.

(** ** Exact values *)
Lemma addition_power l : bytes_ok l ->
  addition l (last_opt (flat_map (fun e =>
    let code := N.land e 0x7F in
    if (0x78 <=? code) && (code <=? 0x7B) then [(Z.of_N (N.land e 3) - 3)%Z] else []) l)).
Proof.
  intros B. induction l as [|e l IH] using rev_ind; [constructor; constructor|].
  apply bytes_ok_app in B as [B _]. specialize (IH B). rewrite flat_map_app. cbn [flat_map]. rewrite app_nil_r. cbv zeta.
  rewrite land_127. replace (N.land e 3) with (e mod 4) by (rewrite <- N.land_ones with (n := 2); reflexivity).
  set (f := fun e => let code := N.land e 127 in _) in *.
  assert (Ia : forall x y, ~ additive x -> addition l y -> addition (l ++ [x]) y).
  { intros x y Hx [F|pre e' post -> A F]; [apply AddNone|rewrite <- app_assoc; cbn [app]; eapply AddLast; [reflexivity|exact A|]];
      apply Forall_app; split; auto. }
  unfold additive in Ia.
  destruct (N.leb_spec 0x78 (e mod 128)); [destruct (N.leb_spec (e mod 128) 0x7B)|]; cbn [andb].
  - rewrite last_opt_snoc. eapply AddLast; [reflexivity|unfold additive; lia|constructor].
  - rewrite app_nil_r. apply Ia; [lia|exact IH].
  - rewrite app_nil_r. apply Ia; [lia|exact IH].
Qed.
Lemma header_value cf data h b : header_try_from cf data = Ok h -> rh_vib (drh_raw h) = Some b ->
  exists v, ph_value_information (drh_processed h) = Some v.
Proof.
  unfold header_try_from. intros H Hv. apply bind_ok in H as (raw & _ & H). apply bind_ok in H as (ph & Hp & H).
  apply Ok_inj in H. subst h. cbn [drh_raw drh_processed] in *. unfold processed_header_try_from in Hp. rewrite Hv in Hp.
  apply bind_ok in Hp as (v & _ & Hp). apply bind_ok in Hp as (d & _ & Hp). apply Ok_inj in Hp. subst ph. eexists. reflexivity.
Qed.
Lemma header_vifes cf data h b : bytes_ok data -> header_try_from cf data = Ok h -> rh_vib (drh_raw h) = Some b ->
  bytes_ok (match vib_vifes b with Some l => l | None => [] end).
Proof.
  unfold header_try_from. intros B H Hv. apply bind_ok in H as (raw & Hr & H). apply bind_ok in H as (ph & _ & H).
  apply Ok_inj in H. subst h. cbn [drh_raw] in Hv. unfold raw_header_try_from in Hr.
  apply bind_ok in Hr as (db & _ & Hr). destruct (negb _); [|apply Ok_inj in Hr; subst raw; discriminate Hv].
  apply bind_ok in Hr as (rest & Hg & Hr). apply ok_or_ok in Hg.
  apply bind_ok in Hr as (vb & Hvb & Hr). apply Ok_inj in Hr. subst raw. injection Hv as ->.
  unfold from_die in Hvb. apply map_err_ok in Hvb. destruct (vib_ok _ _ _ Hvb) as (r' & -> & _).
  assert (Bv : bytes_ok (vib_bytes cf b ++ r')).
  { apply get_from_ok in Hg as [_ E]. rewrite E. rewrite <- (firstn_skipn (N.to_nat (dib_get_size db)) data), bytes_ok_app in B. tauto. }
  apply bytes_ok_app in Bv as [Bv _]. unfold vib_bytes in Bv. apply bytes_ok_cons in Bv as [_ Bv].
  fold (vife_bytes (vib_vifes b)). destruct (plaintext_before_extension cf); apply bytes_ok_app in Bv; tauto.
Qed.
Lemma value_shown cf head rest h dif vif r i x z :
  header_of cf head rest h dif vif -> ~ date_vif vif -> dr_header r = h ->
  data_field_coding_of dif <> CReal32Bit ->
  d_value (dr_data r) = Some (Number x) \/ d_value (dr_data r) = Some (LossyNumber x) ->
  (exists s, exact_significand r x = Some s /\ (integer_text s z \/ (s = txt "-0" /\ z = 0%Z))) ->
  shows_number (record_output i r) h z.
Proof.
  intros (B & Hh & Hl & Hdif & b & Hb & Hvif) Hd Hr Hc Hx (s & Hs & Ht). subst h.
  destruct (header_value _ _ _ _ Hh Hb) as [v Hv].
  destruct (header_has_information _ _ _ Hh) as [di Hdi].
  pose proof (header_coding_plain _ _ _ _ B Hh Hdi) as Hco. rewrite Hdif in Hco.
  assert (Hco' : di_data_field_coding di = data_field_coding_of dif).
  { apply Hco. intros v' E. rewrite Hb in E. injection E as <-. rewrite Hvif. exact Hd. }
  clear Hco. pose proof (header_vifes _ _ _ _ B Hh Hb) as Bv.
  assert (Ha : addition (match vib_vifes b with Some l => l | None => [] end) (record_offset_power10 r)).
  { unfold record_offset_power10. rewrite Hb. cbn [and_then]. destruct (vib_vifes b) as [l|]; cbn [and_then];
      [apply addition_power; exact Bv|constructor; constructor]. }
  exists v, b, (record_offset_power10 r), (scaled_decimal s (vi_decimal_scale_exponent v) (record_offset_power10 r)).
  split; [exact Hv|]. split; [exact Hb|]. split; [exact Ha|].
  assert (E : value_output r = {| vo_kind := txt "decimal";
     vo_value := Some (JString (scaled_decimal s (vi_decimal_scale_exponent v) (record_offset_power10 r))) |}).
  { unfold value_output. rewrite Hdi, Hv.
    assert (K : match di_data_field_coding di with CReal32Bit => true | _ => false end = false).
    { rewrite Hco'. destruct (data_field_coding_of dif); try reflexivity. congruence. }
    destruct Hx as [Ex|Ex]; rewrite Ex, K, Hs; reflexivity. }
  cbn [record_output ro_value]. rewrite E. split; [reflexivity|]. split; [reflexivity|]. now apply scaled_exact.
Qed.

Lemma significand_data r h head body : dr_header r = h -> len head = header_get_size h -> dr_raw_bytes r = head ++ body ->
  get_from (dr_raw_bytes r) (header_get_size (dr_header r)) = Some body.
Proof. intros -> <- ->. apply get_from_app. Qed.
Lemma header_information cf head rest h dif vif : header_of cf head rest h dif vif -> ~ date_vif vif ->
  exists di, ph_data_information (drh_processed h) = Some di /\ di_data_field_coding di = data_field_coding_of dif.
Proof.
  intros (B & Hh & Hl & Hdif & b & Hb & Hvif) Hd. destruct (header_has_information _ _ _ Hh) as [di Hdi].
  exists di. split; [exact Hdi|]. rewrite (header_coding_plain _ _ _ _ B Hh Hdi), Hdif; [reflexivity|].
  intros v' E. rewrite Hb in E. injection E as <-. rewrite Hvif. exact Hd.
Qed.

(** the codings by their data field *)
Lemma integer_field dif w : integer_width (dif mod 16) = Some w ->
  In (data_field_coding_of dif, w) [(CInteger8Bit, 1); (CInteger16Bit, 2); (CInteger24Bit, 3); (CInteger32Bit, 4); (CInteger48Bit, 6); (CInteger64Bit, 8)].
Proof.
  unfold integer_width, data_field_coding_of. rewrite land_15. cbv zeta. intros H.
  destruct (dif mod 16) as [|[[[]|[]|]|[[]|[]|]|]]; inversion H; subst; cbn; tauto.
Qed.
Lemma bcd_field dif w : bcd_width (dif mod 16) = Some w ->
  In (data_field_coding_of dif) [CBCD2Digit; CBCD4Digit; CBCD6Digit; CBCD8Digit; CBCDDigit12].
Proof.
  unfold bcd_width, data_field_coding_of. rewrite land_15. cbv zeta. intros H.
  destruct (dif mod 16) as [|[[[[]|[]|]|[[]|[]|]|]|[[[]|[]|]|[[]|[]|]|]|]]; inversion H; subst; cbn; tauto.
Qed.
Lemma variable_field dif : dif mod 16 = 13 -> data_field_coding_of dif = CVariableLength.
Proof. intros H. unfold data_field_coding_of. rewrite land_15, H. reflexivity. Qed.

Lemma get_to_all {A} (l : list A) n : len l = n -> get_to l n = Some l.
Proof. intros <-. pose proof (get_to_app l []) as H. rewrite app_nil_r in H. exact H. Qed.
Lemma integer_shown cf head rest hdr h dif vif w r i :
  header_of cf head rest h dif vif -> ~ date_vif vif -> integer_width (dif mod 16) = Some w ->
  data_record_parse cf (head ++ rest) hdr = Ok r ->
  exists body rest', rest = body ++ rest' /\ len body = w /\ shows_number (record_output i r) h (twos_complement body).
Proof.
  intros Hh Hd Hw Hp. destruct (integer_record _ _ _ hdr _ _ _ _ Hh Hd Hw) as [(_ & E)|(body & rest' & r' & x & E & L & Er & Eh & Eb & Ev & f & Ex & _)];
    rewrite Hp in *; [discriminate E|]. injection Er as <-.
  exists body, rest'. split; [exact E|]. split; [exact L|].
  assert (Bb : bytes_ok body). { destruct Hh as (B & _). rewrite E, !bytes_ok_app in B. tauto. }
  assert (Nb : body <> []). { intros ->. destruct (integer_coding _ _ Hw) as [K _]. cbn in L. lia. }
  assert (Hl : len head = header_get_size h) by (destruct Hh as (_ & _ & K & _); exact K).
  pose proof (integer_field _ _ Hw) as If.
  eapply value_shown; try eassumption.
  - intros K. rewrite K in If. cbn in If. repeat (destruct If as [If|If]; [discriminate If|]). exact If.
  - left. rewrite Ev, Ex. reflexivity.
  - destruct (signed_le_decimal_ok body Bb Nb) as (s & Es & Ht). exists s. split; [|left; exact Ht].
    unfold exact_significand. destruct (header_information _ _ _ _ _ _ Hh Hd) as (di & Hdi & Hc). rewrite Eh, Hdi. cbn [and_then].
    rewrite <- Eh at 1. rewrite (significand_data r h head body Eh Hl Eb). cbn [and_then]. rewrite Hc.
    cbn [In] in If. repeat (destruct If as [If|If]; [injection If as <- <-; rewrite (get_to_all body) by exact L; exact Es|]). destruct If.
Qed.

Lemma number_sign n (s : list N) z : integer_text s z \/ (s = txt "-0" /\ z = 0%Z) -> n = z -> integer_text s n \/ (s = txt "-0" /\ n = 0%Z).
Proof. intros H ->. exact H. Qed.
Lemma bcd_shown cf head rest hdr h dif vif w r i :
  header_of cf head rest h dif vif -> ~ date_vif vif -> bcd_width (dif mod 16) = Some w ->
  data_record_parse cf (head ++ rest) hdr = Ok r ->
  exists body rest', rest = body ++ rest' /\ len body = w /\ all_decimal body /\
    shows_number (record_output i r) h (Z.of_N (FloatSpec.decimal (nibbles (ordered (lsb_first hdr) body)))).
Proof.
  intros Hh Hd Hw Hp. destruct (bcd_record _ _ _ hdr _ _ _ _ Hh Hd Hw) as [(_ & _ & E)|[(_ & E)|(body & rest' & r' & x & E & L & Er & Eh & Eb & Ev & Ad & f & Ex & Hf)]];
    rewrite Hp in *; [discriminate E..|]. injection Er as <-.
  exists body, rest'. split; [exact E|]. split; [exact L|]. split; [exact Ad|].
  assert (Hl : len head = header_get_size h) by (destruct Hh as (_ & _ & K & _); exact K).
  pose proof (bcd_field _ _ Hw) as If.
  eapply value_shown; try eassumption.
  - intros K. rewrite K in If. cbn in If. repeat (destruct If as [If|If]; [discriminate If|]). exact If.
  - left. rewrite Ev, Ex. reflexivity.
  - exists (show_f64_0 f). split; [|now apply show_f64_integer].
    unfold exact_significand. destruct (header_information _ _ _ _ _ _ Hh Hd) as (di & Hdi & Hc). rewrite Eh, Hdi. cbn [and_then].
    rewrite <- Eh at 1. rewrite (significand_data r h head body Eh Hl Eb). cbn [and_then]. rewrite Hc.
    cbn [In] in If. repeat (destruct If as [If|If]; [rewrite <- If; reflexivity|]). destruct If.
Qed.
Lemma variable_bcd_shown cf head n rest hdr h dif vif sign k r i :
  header_of cf head (n :: rest) h dif vif -> ~ date_vif vif -> dif mod 16 = 13 ->
  k <= 7 -> (n = 0xC0 + k /\ sign = 1%Z) \/ (n = 0xD0 + k /\ sign = (-1)%Z) ->
  data_record_parse cf (head ++ n :: rest) hdr = Ok r ->
  exists body rest', rest = body ++ rest' /\ len body = k /\ all_decimal body /\
    shows_number (record_output i r) h (sign * Z.of_N (FloatSpec.decimal (nibbles (ordered (lsb_first hdr) body)))).
Proof.
  intros Hh Hd Hw Hk Hn Hp.
  destruct (variable_bcd_record _ _ _ _ hdr _ _ _ _ _ Hh Hd Hw Hk Hn) as [(_ & _ & E)|[(_ & E)|(body & rest' & r' & x & E & L & Er & Eh & Eb & Ev & Ad & f & Ex & Hf)]];
    rewrite Hp in *; [discriminate E..|]. injection Er as <-.
  destruct body as [|n' body]; [rewrite len_nil in L; lia|]. cbn [app tl] in *. injection E as <- E. rewrite len_cons in L.
  exists body, rest'. split; [exact E|]. split; [lia|]. split; [exact Ad|].
  assert (Hl : len head = header_get_size h) by (destruct Hh as (_ & _ & K & _); exact K).
  pose proof (variable_field _ Hw) as If.
  eapply value_shown; try eassumption.
  - rewrite If. discriminate.
  - left. rewrite Ev, Ex. reflexivity.
  - exists (show_f64_0 f). split; [|now apply show_f64_integer].
    unfold exact_significand. destruct (header_information _ _ _ _ _ _ Hh Hd) as (di & Hdi & Hc). rewrite Eh, Hdi. cbn [and_then].
    rewrite <- Eh at 1. rewrite (significand_data r h head (n :: body) Eh Hl Eb). cbn [and_then]. rewrite Hc, If.
    unfold exact_variable_significand. change (get (n :: body) 0) with (Some n). cbn [and_then].
    match goal with |- context [if ?c then _ else _] => assert (K : c = true) end.
    { apply orb_true_iff. rewrite !andb_true_iff, !N.leb_le. lia. }
    rewrite K. reflexivity.
Qed.

(** integers of variable length of any width *)
Lemma lvar_integer n w : 0xE0 <= n -> lvar_width n = Some w ->
  (0xE0 <= n <= 0xEF /\ w = n - 0xE0) \/ (0xF0 <= n <= 0xF4 /\ w = 4 * (n - 0xEC)) \/ (n = 0xF5 /\ w = 48) \/ (n = 0xF6 /\ w = 64).
Proof.
  intros H. unfold lvar_width. destruct (N.leb_spec n 0xBF); [lia|].
  destruct (N.leb_spec 0xC0 n); [|lia]. destruct (N.leb_spec n 0xC9); [lia|].
  destruct (N.leb_spec 0xD0 n); [|lia]. destruct (N.leb_spec n 0xD9); [lia|].
  destruct (N.leb_spec 0xE0 n); [|lia]. cbn [andb]. destruct (N.leb_spec n 0xEF); [intros E; injection E as <-; lia|].
  destruct (N.leb_spec 0xF0 n); [|lia]. cbn [andb]. destruct (N.leb_spec n 0xF4); [intros E; injection E as <-; lia|].
  destruct (N.eqb_spec n 0xF5); [intros E; injection E as <-; lia|]. destruct (N.eqb_spec n 0xF6); [intros E; injection E as <-; lia|]. discriminate.
Qed.
Lemma parse_variable_integer cf n rest lsb w d : 0xE0 <= n -> lvar_width n = Some w ->
  parse_variable_length cf (n :: rest) lsb = Ok d ->
  exists body rest' x, rest = body ++ rest' /\ len body = w /\ d_size d = w + 1 /\
    (d_value d = Some (Number x) \/ d_value d = Some (LossyNumber x)).
Proof.
  intros Hn Hw H. unfold parse_variable_length in H. change (get (n :: rest) 0) with (Some n) in H. cbn [ok_or bind] in H.
  assert (G : forall k, (bytes <- ok_or (get_range (n :: rest) 1 (1 + k)) RInsufficientData ;;
     d <- integer_to_value cf bytes k ;; Ok (plus_one d)) = Ok d ->
     exists body rest' x, rest = body ++ rest' /\ len body = k /\ d_size d = k + 1 /\
      (d_value d = Some (Number x) \/ d_value d = Some (LossyNumber x))).
  { clear. intros k H. apply bind_ok in H as (bytes & Hg & H). apply ok_or_ok in Hg.
    apply get_range_split in Hg as (p & r & E & L1 & L2). destruct p as [|p0 [|p1 p]]; rewrite ?len_cons, ?len_nil in L1; try lia.
    cbn [app] in E. injection E as <- E. exists bytes, r. apply bind_ok in H as (d' & Hd & H). apply Ok_inj in H. subst d.
    unfold integer_to_value in Hd. destruct (_ <? _); [discriminate Hd|]. unfold integer_to_value_internal in Hd.
    destruct (integer_loop _ 0 0) as [bits shift]. apply bind_ok in Hd as (ms & _ & Hd). apply Ok_inj in Hd. subst d'.
    cbn [plus_one d_value d_size]. eexists. split; [exact E|]. split; [lia|]. split; [reflexivity|].
    destruct (8 <? k); [right|left]; reflexivity. }
  destruct (lvar_integer _ _ Hn Hw) as [[R ->]|[[R ->]|[[-> ->]|[-> ->]]]].
  - destruct (N.leb_spec n 0xBF); [lia|]. destruct (N.leb_spec n 0xC9); [lia|]. rewrite andb_false_r in H.
    destruct (N.leb_spec n 0xD9); [lia|]. rewrite andb_false_r in H.
    destruct (N.leb_spec 0xE0 n); [|lia]. destruct (N.leb_spec n 0xEF); [|lia]. cbn [andb] in H. apply G. exact H.
  - destruct (N.leb_spec n 0xBF); [lia|]. destruct (N.leb_spec n 0xC9); [lia|]. rewrite andb_false_r in H.
    destruct (N.leb_spec n 0xD9); [lia|]. rewrite andb_false_r in H.
    destruct (N.leb_spec n 0xEF); [lia|]. rewrite andb_false_r in H.
    destruct (N.leb_spec 0xF0 n); [|lia]. destruct (N.leb_spec n 0xF4); [|lia]. cbn [andb] in H. apply G. exact H.
  - apply G. exact H.
  - apply G. exact H.
Qed.
Lemma variable_integer_shown cf head n rest hdr h dif vif w r i :
  header_of cf head (n :: rest) h dif vif -> ~ date_vif vif -> dif mod 16 = 13 ->
  0xE1 <= n -> lvar_width n = Some w -> data_record_parse cf (head ++ n :: rest) hdr = Ok r ->
  exists body rest', rest = body ++ rest' /\ len body = w /\ shows_number (record_output i r) h (twos_complement body).
Proof.
  intros Hh Hd Hf Hn Hw Hp. rewrite (variable_record _ _ _ _ _ _ _ _ Hh Hd Hf) in Hp.
  destruct (parse_variable_length cf (n :: rest) (lsb_first hdr)) as [d| |] eqn:Ed; [|discriminate Hp..].
  apply Ok_inj in Hp. destruct (parse_variable_integer cf n rest (lsb_first hdr) w d) as (body & rest' & x & E & L & Es & Ev); [lia|exact Hw|exact Ed|].
  exists body, rest'. split; [exact E|]. split; [exact L|].
  assert (Bb : bytes_ok body). { destruct Hh as (B & _). apply bytes_ok_app in B as [_ B]. apply bytes_ok_cons in B as [_ B]. rewrite E, bytes_ok_app in B. tauto. }
  assert (Nb : body <> []). { intros ->. change (len (A := N) []) with 0 in L. destruct (lvar_integer n w) as [K|[K|[K|K]]]; [lia|exact Hw|lia..]. }
  assert (Hl : len head = header_get_size h) by (destruct Hh as (_ & _ & K & _); exact K).
  pose proof (variable_field _ Hf) as If.
  assert (Eb : dr_raw_bytes r = head ++ n :: body).
  { subst r. cbn [dr_raw_bytes]. rewrite Es, E, firstn_S_w by exact L. reflexivity. }
  assert (Eh : dr_header r = h) by (subst r; reflexivity).
  eapply value_shown; try eassumption.
  - rewrite If. discriminate.
  - subst r. exact Ev.
  - destruct (signed_le_decimal_ok body Bb Nb) as (s & Esd & Ht). exists s. split; [|left; exact Ht].
    unfold exact_significand. destruct (header_information _ _ _ _ _ _ Hh Hd) as (di & Hdi & Hc). rewrite Eh, Hdi. cbn [and_then].
    rewrite <- Eh at 1. rewrite (significand_data r h head (n :: body) Eh Hl Eb). cbn [and_then]. rewrite Hc, If.
    unfold exact_variable_significand. change (get (n :: body) 0) with (Some n). cbn [and_then].
    assert (G : forall k, k = w -> and_then (get_range (n :: body) 1 (1 + k)) signed_le_decimal = Some s).
    { intros k ->. rewrite <- (app_nil_r body), get_range_1_ok by exact L. cbn [and_then]. exact Esd. }
    destruct (lvar_integer n w) as [[R K]|[[R K]|[[R K]|[R K]]]]; [lia|exact Hw|..].
    + destruct (N.leb_spec n 0xC9); [lia|]. destruct (N.leb_spec n 0xD9); [lia|]. rewrite !andb_false_r. cbn [orb].
      destruct (N.leb_spec 0xE0 n); [|lia]. destruct (N.leb_spec n 0xEF); [|lia]. cbn [andb]. apply G. lia.
    + destruct (N.leb_spec n 0xC9); [lia|]. destruct (N.leb_spec n 0xD9); [lia|]. rewrite !andb_false_r. cbn [orb].
      destruct (N.leb_spec n 0xEF); [lia|]. rewrite andb_false_r.
      destruct (N.leb_spec 0xF0 n); [|lia]. destruct (N.leb_spec n 0xF4); [|lia]. cbn [andb]. apply G. lia.
    + subst n. apply (G 48). lia.
    + subst n. apply (G 64). lia.
Qed.
