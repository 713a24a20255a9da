(** Records with integer, decimal and real data fields. *)
From Coq Require Import Reals Psatz.
From Flocq Require Import Core IEEE754.BinarySingleNaN IEEE754.Bits.
From Verif Require Import Proof.BaseFacts Proof.CoreFacts Model.Core Model.F64 Model.DataInfo Model.ValueInfo
  Model.Record Spec.RecordSpec Spec.FloatSpec Proof.RecordFacts Proof.HeaderFacts Proof.HeaderProps
  Proof.DateFacts Proof.FloatFacts Proof.NumberFacts.

Lemma record_of_coding cf head rest hdr h dif vif :
  header_of cf head rest h dif vif -> ~ date_vif vif ->
  data_record_parse cf (head ++ rest) hdr =
  match coding_parse cf (data_field_coding_of dif) rest hdr with
  | Ok d => Ok {| dr_header := h; dr_data := d;
                  dr_raw_bytes := head ++ firstn (N.to_nat (d_size d)) rest |}
  | Err e => Err e
  | Panic p => Panic p
  end.
Proof.
  intros (Hb & Hh & Hl & Hdif & v & Hv & Hvif) Hnd. unfold data_record_parse. rewrite Hh; cbn [bind].
  destruct (N.ltb_spec (len (head ++ rest)) (header_get_size h)) as [Hx|_]; [rewrite len_app in Hx; lia|].
  destruct (header_has_information _ _ _ Hh) as (di & Hdi). rewrite Hdi.
  pose proof (header_coding cf _ _ di Hb Hh Hdi) as Hsel. cbv zeta in Hsel. rewrite Hv, Hvif, Hdif in Hsel.
  unfold selected in Hsel. rewrite land_127 in Hsel. unfold date_vif in Hnd.
  destruct (N.eqb_spec (vif mod 128) 0x6C); [exfalso; apply Hnd; left; assumption|].
  destruct (N.eqb_spec (vif mod 128) 0x6D); [exfalso; apply Hnd; right; assumption|].
  rewrite Hsel. rewrite <- Hl, (get_from_app_n head rest) by reflexivity. cbn [ok_or bind].
  destruct (coding_parse cf (data_field_coding_of dif) rest hdr) as [d| |]; [|reflexivity|reflexivity].
  cbn [bind].
  assert (G : forall k, get_to (head ++ rest)
     (if len (head ++ rest) <? len head + k then len (head ++ rest) else len head + k) =
     Some (head ++ firstn (N.to_nat k) rest)).
  { intros k. destruct (N.ltb_spec (len (head ++ rest)) (len head + k)) as [Hx|Hx]; rewrite len_app in Hx.
    - rewrite <- (app_nil_r (head ++ rest)) at 1. rewrite get_to_app_n by reflexivity.
      rewrite firstn_all2; [reflexivity|]. unfold len in *; lia.
    - replace (head ++ rest) with ((head ++ firstn (N.to_nat k) rest) ++ skipn (N.to_nat k) rest)
        by (rewrite <- app_assoc, firstn_skipn; reflexivity).
      rewrite get_to_app_n; [reflexivity|]. rewrite len_app. f_equal.
      unfold len in *. rewrite firstn_length. lia. }
  rewrite G. reflexivity.
Qed.

Lemma take_w (rest : list N) w : w <= len rest -> exists body rest', rest = body ++ rest' /\ len body = w.
Proof.
  intros H. exists (firstn (N.to_nat w) rest), (skipn (N.to_nat w) rest). rewrite firstn_skipn. split; [reflexivity|].
  unfold len in *. rewrite firstn_length. lia.
Qed.

Lemma firstn_w (body rest : list N) w : len body = w -> firstn (N.to_nat w) (body ++ rest) = body.
Proof.
  intros H. rewrite firstn_app. replace (N.to_nat w) with (length body) by (unfold len in H; lia).
  rewrite Nat.sub_diag, firstn_all, firstn_O, app_nil_r. reflexivity.
Qed.

(** two's complement numbers as numbers *)
Lemma twos_number l : bytes_ok l -> len l <= 8 ->
  is_f64 (f64_of_Z (twos_complement l)) (nearest (IZR (twos_complement l))).
Proof. intros Hb Hl. apply val_is_f64, f64_of_Z_val, twos_complement_small; assumption. Qed.

Lemma nearest_exact z : (Z.abs z <= 2 ^ 53)%Z -> nearest (IZR z) = IZR z.
Proof. apply nearest_int. Qed.

Lemma integer_coding dif w : integer_width (dif mod 16) = Some w ->
  1 <= w <= 8 /\ forall cf rest hdr, coding_parse cf (data_field_coding_of dif) rest hdr = integer_to_value cf rest w.
Proof.
  unfold integer_width, data_field_coding_of. rewrite land_15. cbv zeta.
  intros H.
  assert (D : In (dif mod 16, w) [(1,1);(2,2);(3,3);(4,4);(6,6);(7,8)]).
  { destruct (dif mod 16) as [|[[[]|[]|]|[[]|[]|]|]]; inversion H; subst; cbn; tauto. }
  clear H. cbn [In] in D.
  destruct D as [D|[D|[D|[D|[D|[D|[]]]]]]]; apply pair_equal_spec in D; destruct D as [D1 D2]; rewrite <- D1, <- D2; (split; [lia|]); intros; reflexivity.
Qed.

Lemma integer_record cf head rest hdr h dif vif w :
  header_of cf head rest h dif vif -> ~ date_vif vif -> integer_width (dif mod 16) = Some w ->
  reads (data_record_parse cf (head ++ rest) hdr) h head rest w
    (fun body => is_number (nearest (IZR (twos_complement body)))).
Proof.
  intros Hh Hd Hw. rewrite (record_of_coding _ _ _ _ _ _ _ Hh Hd).
  destruct (integer_coding _ _ Hw) as [Hb Hc]. rewrite Hc.
  destruct (N.lt_ge_cases (len rest) w) as [Hl|Hl].
  - left; split; [assumption|]. unfold integer_to_value. destruct (N.ltb_spec (len rest) w); [reflexivity|lia].
  - destruct (take_w rest w Hl) as (body & rest' & -> & Hlb). right.
    destruct Hh as (Hbo & _). apply bytes_ok_app in Hbo; destruct Hbo as [_ Hbo].
    apply bytes_ok_app in Hbo; destruct Hbo as [Hbo _].
    rewrite integer_number by assumption. cbn [d_size].
    exists body, rest'. rewrite (firstn_w body rest' w Hlb). eexists; eexists.
    repeat split; try assumption. cbn [dr_data d_value]. eexists; split; [reflexivity|].
    apply twos_number; [assumption|lia].
Qed.

Lemma variable_record cf head n rest hdr h dif vif :
  header_of cf head (n :: rest) h dif vif -> ~ date_vif vif -> dif mod 16 = 13 ->
  data_record_parse cf (head ++ n :: rest) hdr =
  match parse_variable_length cf (n :: rest) (lsb_first hdr) with
  | Ok d => Ok {| dr_header := h; dr_data := d;
                  dr_raw_bytes := head ++ firstn (N.to_nat (d_size d)) (n :: rest) |}
  | Err e => Err e
  | Panic p => Panic p
  end.
Proof.
  intros Hh Hd H13. rewrite (record_of_coding _ _ _ _ _ _ _ Hh Hd).
  unfold data_field_coding_of. cbv zeta. rewrite land_15, H13. reflexivity.
Qed.

Lemma firstn_S_w n (body rest : list N) w : len body = w ->
  firstn (N.to_nat (w + 1)) (n :: body ++ rest) = n :: body.
Proof.
  intros H. replace (N.to_nat (w + 1)) with (S (N.to_nat w)) by lia. cbn [firstn]. rewrite firstn_w by assumption. reflexivity.
Qed.

Lemma get_range_1 n (rest : list N) w : len rest < w -> get_range (n :: rest) 1 (1 + w) = None.
Proof.
  intros H. unfold get_range. rewrite len_cons. destruct (N.leb_spec (1 + w) (len rest + 1)); [lia|].
  rewrite andb_false_r. reflexivity.
Qed.

Lemma get_range_1_ok n (body rest : list N) w : len body = w -> get_range (n :: body ++ rest) 1 (1 + w) = Some body.
Proof.
  intros H. change (n :: body ++ rest) with ([n] ++ body ++ rest).
  rewrite <- H. change 1 with (len [n]) at 1 2. apply get_range_app.
Qed.

(** [w] counts the LVAR byte *)
Lemma variable_integer_record cf head n rest hdr h dif vif :
  header_of cf head (n :: rest) h dif vif -> ~ date_vif vif -> dif mod 16 = 13 -> 0xE1 <= n <= 0xE8 ->
  reads (data_record_parse cf (head ++ n :: rest) hdr) h head (n :: rest) (1 + (n - 0xE0))
    (fun body => is_number (nearest (IZR (twos_complement (tl body))))).
Proof.
  intros Hh Hd H13 Hn. rewrite (variable_record _ _ _ _ _ _ _ _ Hh Hd H13).
  unfold parse_variable_length. change (get (n :: rest) 0) with (Some n). cbn [ok_or bind].
  destruct (N.leb_spec n 0xBF); [lia|].
  destruct (N.leb_spec n 0xC9); [lia|]. destruct (N.leb_spec n 0xD9); [lia|].
  rewrite !andb_false_r. destruct (N.leb_spec 0xE0 n); [|lia]. destruct (N.leb_spec n 0xEF); [|lia]. cbn [andb].
  cbv zeta. set (w := n - 0xE0). assert (Hw : 1 <= w <= 8) by lia.
  destruct (N.lt_ge_cases (len rest) w) as [Hl|Hl].
  - left; split; [rewrite len_cons; lia|]. rewrite get_range_1 by assumption. reflexivity.
  - destruct (take_w rest w Hl) as (body & rest' & -> & Hlb). right.
    destruct Hh as (Hbo & _). apply bytes_ok_app in Hbo; destruct Hbo as [_ Hbo].
    apply bytes_ok_cons in Hbo; destruct Hbo as [_ Hbo]. apply bytes_ok_app in Hbo; destruct Hbo as [Hbo _].
    rewrite get_range_1_ok by assumption. cbn [ok_or bind].
    pose proof (integer_number cf body [] w Hbo Hlb Hw) as E. rewrite app_nil_r in E. rewrite E. cbn [bind plus_one d_size].
    rewrite firstn_S_w by assumption.
    exists (n :: body), rest'. do 2 eexists. split; [reflexivity|]. rewrite len_cons.
    repeat split; try lia. cbn [dr_data d_value tl]. eexists; split; [reflexivity|].
    apply twos_number; [assumption|lia].
Qed.

(** *** Decimal numbers *)
Lemma bcd_coding dif w : bcd_width (dif mod 16) = Some w ->
  w <= 7 /\ forall cf rest hdr, coding_parse cf (data_field_coding_of dif) rest hdr =
    bcd_to_value_internal rest (2 * w) 1 (lsb_first hdr).
Proof.
  unfold bcd_width, data_field_coding_of. rewrite land_15. cbv zeta. intros H.
  assert (D : In (dif mod 16, w) [(9,1);(10,2);(11,3);(12,4);(14,6)]).
  { destruct (dif mod 16) as [|[[[[]|[]|]|[[]|[]|]|]|[[[]|[]|]|[[]|[]|]|]|]]; inversion H; subst; cbn; tauto. }
  clear H. cbn [In] in D.
  destruct D as [D|[D|[D|[D|[D|[]]]]]]; apply pair_equal_spec in D; destruct D as [D1 D2]; rewrite <- D1, <- D2; (split; [lia|]); intros; reflexivity.
Qed.

Lemma bcd_short rest w sign lsb : len rest < w ->
  bcd_to_value_internal rest (2 * w) sign lsb = Err RInsufficientData.
Proof.
  intros H. unfold bcd_to_value_internal. replace ((2 * w + 1) / 2) with w by lia.
  destruct (N.ltb_spec (len rest) w); [reflexivity|lia].
Qed.

(** either every digit is decimal and the field is read, or the record is an error *)
Lemma bcd_record cf head rest hdr h dif vif w :
  header_of cf head rest h dif vif -> ~ date_vif vif -> bcd_width (dif mod 16) = Some w ->
  (w <= len rest /\ ~ all_decimal (firstn (N.to_nat w) rest) /\
   data_record_parse cf (head ++ rest) hdr = Err (DataInformationError InvalidValueInformation)) \/
  reads (data_record_parse cf (head ++ rest) hdr) h head rest w
    (fun body x => all_decimal body /\
       is_number (IZR (Z.of_N (decimal (nibbles (ordered (lsb_first hdr) body))))) x).
Proof.
  intros Hh Hd Hw. rewrite (record_of_coding _ _ _ _ _ _ _ Hh Hd).
  destruct (bcd_coding _ _ Hw) as [Hb Hc]. rewrite Hc.
  destruct (N.lt_ge_cases (len rest) w) as [Hl|Hl].
  - right; left; split; [assumption|]. rewrite bcd_short by assumption. reflexivity.
  - destruct (take_w rest w Hl) as (body & rest' & -> & Hlb).
    destruct Hh as (Hbo & _). apply bytes_ok_app in Hbo; destruct Hbo as [_ Hbo].
    apply bytes_ok_app in Hbo; destruct Hbo as [Hbo _]. rewrite (firstn_w body rest' w Hlb).
    assert (Ho : all_decimal (ordered (lsb_first hdr) body) <-> all_decimal body).
    { destruct (lsb_first hdr); [|reflexivity]. cbn [ordered]. unfold all_decimal, nibbles.
      rewrite !Forall_flat_map. split; intros F; [rewrite <- (rev_involutive body)|]; apply Forall_rev; assumption. }
    destruct (bcd_number body rest' w 1 (lsb_first hdr) Hbo Hlb ltac:(lia) ltac:(left; reflexivity))
      as [(Had & x & E & Hx)|(Had & E)]; rewrite E.
    + right; right. exists body, rest'. do 2 eexists. cbn [d_size]. rewrite (firstn_w body rest' w Hlb).
      repeat split; try assumption; try reflexivity. apply Ho; assumption.
      rewrite Z.mul_1_l in Hx. eexists; split; [reflexivity|]. apply val_is_f64; exact Hx.
    + left; split; [assumption|]. split; [|reflexivity]. intros C; apply Had, Ho, C.
Qed.

(** LVAR C0..C7 and D0..D7: up to fourteen digits; [D] is negative *)
Lemma variable_bcd_record cf head n rest hdr h dif vif sign k :
  header_of cf head (n :: rest) h dif vif -> ~ date_vif vif -> dif mod 16 = 13 ->
  k <= 7 -> (n = 0xC0 + k /\ sign = 1%Z) \/ (n = 0xD0 + k /\ sign = (-1)%Z) ->
  (k <= len rest /\ ~ all_decimal (firstn (N.to_nat k) rest) /\
   data_record_parse cf (head ++ n :: rest) hdr = Err (DataInformationError InvalidValueInformation)) \/
  reads (data_record_parse cf (head ++ n :: rest) hdr) h head (n :: rest) (1 + k)
    (fun body x => all_decimal (tl body) /\
       is_number (IZR (sign * Z.of_N (decimal (nibbles (ordered (lsb_first hdr) (tl body)))))) x).
Proof.
  intros Hh Hd H13 Hk Hn. rewrite (variable_record _ _ _ _ _ _ _ _ Hh Hd H13).
  assert (P : parse_variable_length cf (n :: rest) (lsb_first hdr) =
     (bytes <- ok_or (get_range (n :: rest) 1 (1 + k)) RInsufficientData ;;
      d <- bcd_to_value_internal bytes (2 * k) sign (lsb_first hdr) ;;
      Ok (plus_one d))).
  { unfold parse_variable_length. change (get (n :: rest) 0) with (Some n). cbn [ok_or bind].
    destruct Hn as [[-> ->]|[-> ->]].
    - destruct (N.leb_spec (0xC0 + k) 0xBF); [lia|]. destruct (N.leb_spec 0xC0 (0xC0 + k)); [|lia].
      destruct (N.leb_spec (0xC0 + k) 0xC9); [|lia]. cbn [andb]. cbv zeta.
      replace (0xC0 + k - 0xC0) with k by lia. reflexivity.
    - destruct (N.leb_spec (0xD0 + k) 0xBF); [lia|]. destruct (N.leb_spec (0xD0 + k) 0xC9); [lia|].
      destruct (N.leb_spec 0xD0 (0xD0 + k)); [|lia]. destruct (N.leb_spec (0xD0 + k) 0xD9); [|lia].
      rewrite andb_false_r. cbn [andb]. cbv zeta.
      replace (0xD0 + k - 0xD0) with k by lia. reflexivity. }
  rewrite P. clear P.
  assert (Hs : (sign = 1 \/ sign = -1)%Z) by tauto. clear Hn.
  destruct (N.lt_ge_cases (len rest) k) as [Hl|Hl].
  - right; left; split; [rewrite len_cons; lia|]. rewrite get_range_1 by assumption. reflexivity.
  - destruct (take_w rest k Hl) as (body & rest' & -> & Hlb).
    destruct Hh as (Hbo & _). apply bytes_ok_app in Hbo; destruct Hbo as [_ Hbo].
    apply bytes_ok_cons in Hbo; destruct Hbo as [_ Hbo].
    apply bytes_ok_app in Hbo; destruct Hbo as [Hbo _]. rewrite (firstn_w body rest' k Hlb).
    assert (Ho : all_decimal (ordered (lsb_first hdr) body) <-> all_decimal body).
    { destruct (lsb_first hdr); [|reflexivity]. cbn [ordered]. unfold all_decimal, nibbles.
      rewrite !Forall_flat_map. split; intros F; [rewrite <- (rev_involutive body)|]; apply Forall_rev; assumption. }
    rewrite get_range_1_ok by assumption. cbn [ok_or bind].
    destruct (bcd_number body [] k sign (lsb_first hdr) Hbo Hlb ltac:(lia) Hs)
      as [(Had & x & E & Hx)|(Had & E)]; rewrite app_nil_r in E; rewrite E; cbn [bind].
    + right; right. exists (n :: body), rest'. do 2 eexists. cbn [plus_one d_size]. rewrite (firstn_S_w n body rest' k Hlb).
      rewrite len_cons.
      repeat split; try lia; try reflexivity. apply Ho; assumption.
      eexists; split; [reflexivity|]. apply val_is_f64; exact Hx.
    + left; split; [assumption|]. split; [|reflexivity]. intros C; apply Had, Ho, C.
Qed.

(** *** Real numbers *)
Lemma real_record cf head rest hdr h dif vif :
  header_of cf head rest h dif vif -> ~ date_vif vif -> dif mod 16 = 5 ->
  reads (data_record_parse cf (head ++ rest) hdr) h head rest 4
    (fun body x => exists f, x = Number f /\ same_number (b32_of_bits (Z.of_N (le_number body))) f).
Proof.
  intros Hh Hd Hw. rewrite (record_of_coding _ _ _ _ _ _ _ Hh Hd).
  unfold data_field_coding_of. cbv zeta. rewrite land_15, Hw. cbn [N.eqb Pos.eqb coding_parse].
  destruct (N.ltb_spec (len rest) 4) as [Hl|Hl]; [left; split; [assumption|reflexivity]|right].
  destruct (take_w rest 4 Hl) as (body & rest' & -> & Hlb).
  destruct body as [|b0 [|b1 [|b2 [|b3 [|? ?]]]]]; try (rewrite ?len_cons in Hlb; change (len (@nil N)) with 0 in Hlb; lia).
  cbn [app].
  change (get (b0 :: b1 :: b2 :: b3 :: rest') 0) with (Some b0). change (get (b0 :: b1 :: b2 :: b3 :: rest') 1) with (Some b1).
  change (get (b0 :: b1 :: b2 :: b3 :: rest') 2) with (Some b2). change (get (b0 :: b1 :: b2 :: b3 :: rest') 3) with (Some b3).
  cbn [ok_or bind d_size].
  exists [b0; b1; b2; b3], rest'. do 2 eexists. repeat split. cbn [dr_data d_value].
  eexists; split; [reflexivity|].
  destruct Hh as (Hbo & _). apply bytes_ok_app in Hbo; destruct Hbo as [_ Hbo].
  change (b0 :: b1 :: b2 :: b3 :: rest') with ([b0; b1; b2; b3] ++ rest') in Hbo.
  apply bytes_ok_app in Hbo; destruct Hbo as [Hbo _].
  assert (E : u32_le b0 b1 b2 b3 = le_number [b0; b1; b2; b3]).
  { unfold u32_le. cbn [le_number]. lia. }
  rewrite E. apply f32_bits. apply (le_number_lt [b0; b1; b2; b3] Hbo).
Qed.
