(** Integer, decimal and real data fields. *)
From Coq Require Import Reals Psatz.
From Flocq Require Import Core IEEE754.BinarySingleNaN IEEE754.Bits.
From Verif Require Import Proof.BaseFacts Proof.CoreFacts Model.Core Model.F64 Model.DataInfo Model.ValueInfo
  Model.Record Spec.RecordSpec Spec.FloatSpec Proof.RecordFacts Proof.HeaderFacts Proof.HeaderProps
  Proof.DateFacts Proof.FloatFacts.

#[local] Existing Instance prec_gt_0_53.
#[local] Existing Instance prec_lt_emax_53.
#[local] Existing Instance valid_fe.

(** *** Integers *)
Lemma le_number_lt l : bytes_ok l -> le_number l < 2 ^ (8 * len l).
Proof.
  induction l as [|b l IH]; intros Hb; cbn [le_number]; [reflexivity|].
  apply bytes_ok_cons in Hb; destruct Hb as [Hb1 Hb2]. specialize (IH Hb2).
  rewrite len_cons. replace (8 * (len l + 1)) with (8 * len l + 8) by lia.
  rewrite N.pow_add_r. change (2 ^ 8) with 256. unfold byte_ok in Hb1. nia.
Qed.

Lemma integer_loop_number l acc s :
  bytes_ok l -> acc < 2 ^ s -> integer_loop l acc s = (acc + 2 ^ s * le_number l, s + 8 * len l).
Proof.
  revert acc s; induction l as [|b l IH]; intros acc s Hb Ha; cbn [integer_loop le_number].
  - change (len (@nil N)) with 0. f_equal; lia.
  - apply bytes_ok_cons in Hb; destruct Hb as [Hb1 Hb2].
    rewrite lor_shift by assumption. rewrite IH; [|assumption|].
    + rewrite len_cons, N.pow_add_r. change (2 ^ 8) with 256. f_equal; [|lia].
      set (p := 2 ^ s). nia.
    + rewrite N.pow_add_r. change (2 ^ 8) with 256. unfold byte_ok in Hb1. set (p := 2 ^ s) in *. nia.
Qed.

Lemma top_bit n k : n < 2 ^ (k + 1) -> N.testbit n k = (2 ^ k <=? n).
Proof.
  intros H. rewrite N.pow_add_r in H. change (2 ^ 1) with 2 in H.
  apply Bool.eq_iff_eq_true. rewrite N.testbit_true, N.leb_le.
  set (p := 2 ^ k) in *. assert (0 < p) by (subst p; apply N.neq_0_lt_0, N.pow_nonzero; discriminate).
  split; intros E.
  - destruct (N.lt_ge_cases n p); [|assumption]. rewrite N.div_small in E by assumption. discriminate.
  - assert (n / p = 1); [|rewrite H1; reflexivity].
    symmetry. apply N.div_unique with (n - p); lia.
Qed.

Lemma lxor_complement n k : n < 2 ^ k -> N.lxor n (2 ^ k - 1) = 2 ^ k - 1 - n.
Proof.
  intros H.
  replace (2 ^ k - 1) with (N.ones k) by (rewrite N.ones_equiv; lia).
  fold (N.lnot n k). destruct (N.eq_0_gt_0_cases n) as [->|Hn].
  - rewrite N.lnot_0_l. lia.
  - apply N.lnot_sub_low. apply N.log2_lt_pow2; assumption.
Qed.

Lemma integer_number cf body rest n :
  bytes_ok body -> len body = n -> 1 <= n <= 8 ->
  integer_to_value cf (body ++ rest) n =
  Ok {| d_value := Some (Number (f64_of_Z (twos_complement body))); d_size := n |}.
Proof.
  intros Hb Hl Hn. unfold integer_to_value.
  destruct (N.ltb_spec (len (body ++ rest)) n) as [H|_]; [rewrite len_app in H; lia|].
  unfold integer_to_value_internal. destruct (N.ltb_spec 8 n); [lia|].
  replace (firstn (N.to_nat n) (body ++ rest)) with body.
  2:{ rewrite firstn_app. replace (N.to_nat n) with (length body) by (unfold len in Hl; lia).
      rewrite Nat.sub_diag, firstn_all, firstn_O, app_nil_r. reflexivity. }
  rewrite integer_loop_number by (assumption || reflexivity).
  change (2 ^ 0) with 1. rewrite !N.add_0_l, N.mul_1_l, Hl.
  destruct (N.leb_spec 1 (8 * n)); [|lia]. cbn [bind].
  pose proof (le_number_lt body Hb) as Hlt. rewrite Hl in Hlt.
  set (k := 8 * n - 1). assert (Ek : 8 * n = k + 1) by lia. rewrite Ek in *.
  rewrite top_bit by assumption. rewrite lxor_complement by assumption.
  set (v := le_number body) in *.
  f_equal. f_equal. f_equal. f_equal. f_equal.
  assert (Em : (2 ^ (8 * Z.of_nat (length body)))%Z = (2 * Z.of_N (2 ^ k))%Z).
  { rewrite N2Z.inj_pow. change (Z.of_N 2) with 2%Z.
    replace (8 * Z.of_nat (length body))%Z with (Z.of_N k + 1)%Z by (unfold len in Hl; lia).
    rewrite Z.pow_add_r by lia. change (2 ^ 1)%Z with 2%Z. ring. }
  unfold twos_complement. cbv zeta. fold v. rewrite Em.
  rewrite N.pow_add_r in *. change (2 ^ 1) with 2 in *.
  set (p := 2 ^ k) in *.
  destruct (N.ltb_spec n 8) as [Hn8|Hn8]; cbn [andb].
  - destruct (N.leb_spec p v), (Z.ltb_spec (2 * Z.of_N v) (2 * Z.of_N p)); try lia.
    unfold i64_of_bits. destruct (N.ltb_spec v (2 ^ 63)) as [|Hge]; [reflexivity|].
    exfalso. assert (p <= 2 ^ 55); [|change (2 ^ 55) with 36028797018963968 in *; change (2 ^ 63) with 9223372036854775808 in *; lia].
    subst p. apply N.pow_le_mono_r; lia.
  - assert (Ep : p = 2 ^ 63) by (subst p; f_equal; lia).
    unfold i64_of_bits. rewrite Ep. change (2 ^ 64)%Z with (2 * Z.of_N (2 ^ 63))%Z.
    destruct (N.ltb_spec v (2 ^ 63)), (Z.ltb_spec (2 * Z.of_N v) (2 * Z.of_N (2 ^ 63))); lia.
Qed.

Lemma twos_complement_small l : bytes_ok l -> len l <= 8 -> (Z.abs (twos_complement l) <= 2 ^ 64)%Z.
Proof.
  intros Hb Hl. pose proof (le_number_lt l Hb) as H.
  assert (E : Z.of_N (2 ^ (8 * len l)) = (2 ^ (8 * Z.of_nat (length l)))%Z).
  { rewrite N2Z.inj_pow. f_equal. unfold len; lia. }
  unfold twos_complement; cbv zeta. rewrite <- E.
  assert (2 ^ (8 * len l) <= 2 ^ 64) by (apply N.pow_le_mono_r; lia).
  change (2 ^ 64)%Z with (Z.of_N (2 ^ 64)).
  set (p := 2 ^ (8 * len l)) in *. set (q := 2 ^ 64) in *. clearbody p q.
  destruct (Z.ltb_spec (2 * Z.of_N (le_number l)) (Z.of_N p)); lia.
Qed.

(** *** Decimal numbers *)
Lemma decimal_app a b : decimal (a ++ b) = decimal a + 10 ^ len a * decimal b.
Proof.
  induction a as [|d a IH]; cbn [app decimal].
  - change (len (@nil N)) with 0. change (10 ^ 0) with 1. lia.
  - rewrite IH, len_cons, N.pow_add_r. change (10 ^ 1) with 10. ring.
Qed.

Lemma decimal_lt l : Forall (fun d => d < 10) l -> decimal l < 10 ^ len l.
Proof.
  induction 1 as [|d l Hd _ IH]; cbn [decimal]; [reflexivity|].
  rewrite len_cons, N.pow_add_r. change (10 ^ 1) with 10. nia.
Qed.

Lemma nibble_digits b : b < 256 -> N.land b 0x0F = b mod 16 /\ N.land (N.shiftr b 4) 0x0F = b / 16.
Proof.
  intros H; split; apply N.eqb_eq.
  - exact (sweep256 (fun b => N.land b 0x0F =? b mod 16) eq_refl b H).
  - exact (sweep256 (fun b => N.land (N.shiftr b 4) 0x0F =? b / 16) eq_refl b H).
Qed.

Lemma pow10_small i : i <= 15 -> (0 < Z.of_N (10 ^ i) <= 1000000000000000)%Z.
Proof.
  intros H. assert (10 ^ i <= 10 ^ 15) by (apply N.pow_le_mono_r; lia).
  change (10 ^ 15) with 1000000000000000 in *.
  assert (10 ^ i <> 0) by (apply N.pow_nonzero; discriminate). lia.
Qed.

Lemma digit_step v w a d i :
  val v (IZR (Z.of_N a)) -> val w (IZR (Z.of_N (10 ^ i))) -> a < 10 ^ i -> d < 10 -> i + 1 <= 15 ->
  val (f64_add v (f64_mul (f64_of_Z (Z.of_N d)) w)) (IZR (Z.of_N (a + d * 10 ^ i))) /\
  val (f64_mul w (f64_of_Z 10)) (IZR (Z.of_N (10 ^ (i + 1)))) /\ a + d * 10 ^ i < 10 ^ (i + 1).
Proof.
  intros Hv Hw Ha Hd Hi.
  pose proof (pow10_small (i + 1) Hi) as Hp. rewrite N.pow_add_r in *. change (10 ^ 1) with 10 in *.
  set (p := 10 ^ i) in *. clearbody p.
  change (2 ^ 53)%Z with 9007199254740992%Z in *.
  split; [|split].
  - replace (Z.of_N (a + d * p)) with (Z.of_N a + Z.of_N d * Z.of_N p)%Z by lia.
    apply add_exact; [assumption| |nia].
    apply mul_exact; [apply f64_of_Z_exact; lia|assumption|nia].
  - replace (Z.of_N (p * 10)) with (Z.of_N p * 10)%Z by lia.
    apply mul_exact; [assumption|apply f64_of_Z_exact; lia|nia].
  - nia.
Qed.

Lemma bcd_loop_spec nd l : forall pre rest v w a,
  bytes_ok l -> let i := 2 * len pre in i + 2 * len l <= nd -> nd <= 15 ->
  val v (IZR (Z.of_N a)) -> val w (IZR (Z.of_N (10 ^ i))) -> a < 10 ^ i ->
  (all_decimal l /\ exists v', bcd_value_loop (pre ++ l ++ rest) nd false (2 * length l) i v w = Ok v' /\
     val v' (IZR (Z.of_N (a + 10 ^ i * decimal (nibbles l))))) \/
  (~ all_decimal l /\ bcd_value_loop (pre ++ l ++ rest) nd false (2 * length l) i v w =
     Err (DataInformationError InvalidValueInformation)).
Proof.
  cbv zeta. induction l as [|b l IH]; intros pre rest v w a Hb Hi Hnd Hv Hw Ha.
  - left; split; [constructor|]. exists v; split; [reflexivity|]. cbn. rewrite N.mul_0_r, N.add_0_r. assumption.
  - apply bytes_ok_cons in Hb; destruct Hb as [Hb1 Hb2]. unfold byte_ok in Hb1.
    destruct (nibble_digits b Hb1) as [Elo Ehi]. rewrite len_cons in Hi.
    replace (2 * length (b :: l))%nat with (S (S (2 * length l))) by (cbn [length]; lia).
    cbn [bcd_value_loop].
    assert (G0 : get (pre ++ (b :: l) ++ rest) (2 * len pre / 2) = Some b).
    { replace (2 * len pre / 2) with (len pre) by lia. rewrite get_app_r by lia. rewrite N.sub_diag. reflexivity. }
    assert (G1 : get (pre ++ (b :: l) ++ rest) ((2 * len pre + 1) / 2) = Some b).
    { replace ((2 * len pre + 1) / 2) with (len pre) by lia. rewrite get_app_r by lia. rewrite N.sub_diag. reflexivity. }
    rewrite G0, G1; cbn [ok_or bind].
    replace ((2 * len pre) mod 2 =? 0) with true by lia.
    replace ((2 * len pre + 1) mod 2 =? 0) with false by lia.
    rewrite Elo, Ehi.
    destruct (N.ltb_spec 9 (b mod 16)) as [H1|H1].
    { right; split; [|reflexivity]. intros C. inversion C; subst; lia. }
    destruct (digit_step v w a (b mod 16) (2 * len pre)) as (Hv1 & Hw1 & Ha1); [assumption|assumption|assumption|lia|lia|].
    destruct (N.ltb_spec 9 (b / 16)) as [H2|H2].
    { right; split; [|reflexivity]. intros C. inversion C as [|? ? _ C']; inversion C'; subst; lia. }
    destruct (digit_step _ _ _ (b / 16) (2 * len pre + 1) Hv1 Hw1 Ha1) as (Hv2 & Hw2 & Ha2); [lia|lia|].
    replace (2 * len pre + 1 + 1) with (2 * len (pre ++ [b])) in * by (rewrite len_app; change (len [b]) with 1; lia).
    specialize (IH (pre ++ [b]) rest _ _ _ Hb2 ltac:(rewrite len_app; change (len [b]) with 1; lia) Hnd Hv2 Hw2 Ha2).
    rewrite <- app_assoc in IH. cbn [app] in IH. cbn [app].
    destruct IH as [(Hd & v' & E & Hv')|(Hd & E)].
    + left; split.
      * unfold all_decimal, nibbles in *. cbn [flat_map app]. constructor; [lia|]. constructor; [lia|assumption].
      * exists v'; split; [exact E|].
        match type of Hv' with val _ (IZR (Z.of_N ?x)) => match goal with |- val _ (IZR (Z.of_N ?y)) =>
          replace y with x; [assumption|] end end.
        rewrite len_app. change (len [b]) with 1. unfold nibbles at 2. cbn [flat_map app decimal]. fold (nibbles l).
        replace (2 * (len pre + 1)) with (2 * len pre + 2) by lia.
        rewrite !N.pow_add_r. change (10 ^ 1) with 10; change (10 ^ 2) with 100. ring.
    + right; split; [|exact E]. intros C. apply Hd. unfold all_decimal, nibbles in *. cbn [flat_map app] in C.
      inversion C as [|? ? _ C']; inversion C'; subst; assumption.
Qed.

Lemma bcd_loop_ext (data data' : list N) nd (lsb lsb' : bool) :
  (forall i, i < nd -> get data (if lsb then (nd - i - 1) / 2 else i / 2) =
                       get data' (if lsb' then (nd - i - 1) / 2 else i / 2)) ->
  forall todo i v w, i + N.of_nat todo <= nd ->
  bcd_value_loop data nd lsb todo i v w = bcd_value_loop data' nd lsb' todo i v w.
Proof.
  intros H; induction todo as [|todo IH]; intros i v w Hi; [reflexivity|].
  cbn [bcd_value_loop]. rewrite (H i) by lia.
  destruct (get data' _) as [x|]; [|reflexivity]. cbn [ok_or bind].
  destruct (9 <? _); [reflexivity|]. apply IH; lia.
Qed.

Lemma get_rev {A} (l : list A) k : k < len l -> get (rev l) k = get l (len l - 1 - k).
Proof.
  unfold get, len; intros H.
  assert (Hk : (N.to_nat k < length l)%nat) by lia.
  destruct l as [|a l]; [cbn in Hk; lia|].
  rewrite (nth_error_nth' (rev (a :: l)) a) by (rewrite rev_length; assumption).
  rewrite rev_nth by assumption.
  rewrite (nth_error_nth' (a :: l) a) by lia.
  f_equal. f_equal. lia.
Qed.

Lemma len_rev {A} (l : list A) : len (rev l) = len l.
Proof. unfold len; rewrite rev_length; reflexivity. Qed.

Lemma bcd_number body rest n sign lsb :
  bytes_ok body -> len body = n -> n <= 7 -> (sign = 1 \/ sign = -1)%Z ->
  (all_decimal (ordered lsb body) /\ exists x,
     bcd_to_value_internal (body ++ rest) (2 * n) sign lsb = Ok {| d_value := Some (Number x); d_size := n |} /\
     val x (IZR (sign * Z.of_N (decimal (nibbles (ordered lsb body)))))) \/
  (~ all_decimal (ordered lsb body) /\
     bcd_to_value_internal (body ++ rest) (2 * n) sign lsb = Err (DataInformationError InvalidValueInformation)).
Proof.
  intros Hb Hl Hn Hs. unfold bcd_to_value_internal.
  replace ((2 * n + 1) / 2) with n by lia.
  destruct (N.ltb_spec (len (body ++ rest)) n) as [H|_]; [rewrite len_app in H; lia|].
  assert (Hbo : bytes_ok (ordered lsb body)).
  { destruct lsb; [|assumption]. unfold bytes_ok in *. cbn. apply Forall_rev; assumption. }
  assert (Hlo : len (ordered lsb body) = n) by (destruct lsb; cbn; rewrite ?len_rev; assumption).
  rewrite (bcd_loop_ext (body ++ rest) ([] ++ ordered lsb body ++ []) (2 * n) lsb false); [| |lia].
  2:{ intros i Hi. rewrite app_nil_r. cbn [app]. destruct lsb; cbn [ordered].
      - rewrite get_app_l by lia. rewrite get_rev by lia. f_equal. lia.
      - rewrite get_app_l by lia. reflexivity. }
  replace (N.to_nat (2 * n)) with (2 * length (ordered lsb body))%nat by (unfold len in Hlo; lia).
  change 0 with (2 * len (@nil N)) at 1 2.
  assert (Hdec : all_decimal (ordered lsb body) ->
            (Z.of_N (decimal (nibbles (ordered lsb body))) <= 100000000000000)%Z).
  { intros Hd. apply decimal_lt in Hd. unfold nibbles in Hd at 2.
    assert (E : forall l, len (flat_map (fun b => [b mod 16; b / 16]) l) = 2 * len l).
    { induction l as [|x l IH]; [reflexivity|]. cbn [flat_map app]. rewrite !len_cons, IH. lia. }
    rewrite E, Hlo in Hd. assert (10 ^ (2 * n) <= 10 ^ 14) by (apply N.pow_le_mono_r; lia).
    change (10 ^ 14) with 100000000000000 in *. lia. }
  destruct (bcd_loop_spec (2 * n) (ordered lsb body) [] [] (S754_zero false) (f64_of_Z 1) 0) as [(Hd & v' & E & Hv)|(Hd & E)];
    try assumption; try reflexivity; try lia.
  - change (len (@nil N)) with 0. lia.
  - apply (f64_of_Z_exact 0); lia.
  - apply (f64_of_Z_exact 1); lia.
  - left; split; [assumption|]. rewrite E; cbn [bind]. eexists; split; [reflexivity|].
    specialize (Hdec Hd). rewrite N.add_0_l in Hv. change (10 ^ (2 * len (@nil N))) with 1 in Hv. rewrite N.mul_1_l in Hv.
    rewrite Z.mul_comm. change (2 ^ 53)%Z with 9007199254740992%Z in *.
    apply mul_exact; [assumption| |]; [apply f64_of_Z_exact|]; change (2 ^ 53)%Z with 9007199254740992%Z; lia.
  - right; split; [assumption|]. rewrite E; reflexivity.
Qed.

(** *** Real numbers *)
Lemma normalize_exact z e s :
  (Z.abs z < 2 ^ 53)%Z -> (-1074 <= e <= 200)%Z -> z <> 0%Z ->
  val (SpecFloat.binary_normalize 53 1024 z e s) (F2R (Float radix2 z e)) /\
  sign_SF (SpecFloat.binary_normalize 53 1024 z e s) = (z <? 0)%Z.
Proof.
  intros Hz He H0. rewrite binary_normalize_equiv.
  pose proof (binary_normalize_correct 53 1024 _ _ mode_NE z e s) as C. cbv zeta in C.
  assert (Hf : generic_format radix2 fe (F2R (Float radix2 z e))).
  { apply generic_format_FLT. apply FLT_spec with (Float radix2 z e); [reflexivity|exact Hz|]. apply He. }
  rewrite (round_generic radix2 fe (round_mode mode_NE)) in C by assumption.
  rewrite Rlt_bool_true in C.
  2:{ rewrite <- F2R_Zabs. apply Rlt_trans with (F2R (Float radix2 (2 ^ 53) e)).
      - apply F2R_lt. exact Hz.
      - replace (F2R (Float radix2 (2 ^ 53) e)) with (bpow radix2 (53 + e)).
        + apply bpow_lt. lia.
        + rewrite bpow_plus. unfold F2R; cbn [Fnum Fexp]. f_equal. }
  destruct C as (C1 & C2 & C3). split.
  - eexists; split; [reflexivity|]. split; assumption.
  - assert (Es : forall b : B64, is_finite b = true -> sign_SF (B2SF b) = Bsign b) by (intros [| | |]; reflexivity).
    rewrite Es, C3 by assumption. destruct (Z.ltb_spec z 0).
    + rewrite Rcompare_Lt; [reflexivity|]. apply F2R_lt_0. assumption.
    + rewrite Rcompare_Gt; [reflexivity|]. apply F2R_gt_0. simpl; lia.
Qed.

Lemma same_number_FF b x :
  match Binary.B2FF 24 128 b with
  | Binary.F754_zero s => x = S754_zero s
  | Binary.F754_infinity s => x = S754_infinity s
  | Binary.F754_nan _ _ => x = S754_nan
  | Binary.F754_finite s m e => is_f64 x (F2R (Float radix2 (cond_Zopp s (Zpos m)) e)) /\ sign_SF x = s
  end -> same_number b x.
Proof. destruct b; exact (fun H => H). Qed.

Lemma f32_bits w : w < 2 ^ 32 -> same_number (b32_of_bits (Z.of_N w)) (f64_of_f32_bits w).
Proof.
  intros Hw. apply same_number_FF. unfold b32_of_bits, binary_float_of_bits. rewrite Binary.B2FF_FF2B.
  unfold binary_float_of_bits_aux, split_bits.
  change (2 ^ 23)%Z with 8388608%Z. change (2 ^ 8)%Z with 256%Z.
  change (8388608 * 256)%Z with 2147483648%Z.
  unfold f64_of_f32_bits.
  replace (N.land (N.shiftr w 23) 0xFF) with ((w / 8388608) mod 256).
  2:{ rewrite N.shiftr_div_pow2. change 0xFF with (N.ones 8). rewrite N.land_ones. reflexivity. }
  replace (N.land w 0x7FFFFF) with (w mod 8388608).
  2:{ change 0x7FFFFF with (N.ones 23). rewrite N.land_ones. reflexivity. }
  replace (N.testbit w 31) with (2147483648 <=? Z.of_N w)%Z.
  2:{ rewrite top_bit by exact Hw. change (2 ^ 31) with 2147483648.
      destruct (Z.leb_spec 2147483648 (Z.of_N w)), (N.leb_spec 2147483648 w); lia. }
  set (s := (2147483648 <=? Z.of_N w)%Z).
  replace (Z.of_N w mod 8388608)%Z with (Z.of_N (w mod 8388608)) by (rewrite N2Z.inj_mod; reflexivity).
  replace (Z.of_N w / 8388608 mod 256)%Z with (Z.of_N ((w / 8388608) mod 256))
    by (rewrite N2Z.inj_mod, N2Z.inj_div; reflexivity).
  assert (Hm : w mod 8388608 < 8388608) by (apply N.mod_lt; discriminate).
  assert (He : (w / 8388608) mod 256 < 256) by (apply N.mod_lt; discriminate).
  set (m := w mod 8388608) in *. set (e := (w / 8388608) mod 256) in *. clearbody m e s.
  change (Z.pow_pos 2 8) with 256%Z. change (Z.pow_pos 2 23) with 8388608%Z.
  change (Zpower 2 8) with 256%Z. change (Zpower 2 23) with 8388608%Z.
  assert (Hemin : (SpecFloat.emin (23 + 1) (Z.pow_pos 2 (8 - 1)) = -149)%Z) by reflexivity.
  assert (K : forall n ex, (0 < n < 16777216)%Z -> (-149 <= ex <= 200)%Z ->
     is_f64 (SpecFloat.binary_normalize 53 1024 (if s then - n else n)%Z ex s)
       (F2R (Float radix2 (cond_Zopp s n) ex)) /\
     sign_SF (SpecFloat.binary_normalize 53 1024 (if s then - n else n)%Z ex s) = s).
  { intros n ex Hn Hex.
    destruct (normalize_exact (if s then - n else n) ex s) as [K1 K2].
    - change (2 ^ 53)%Z with 9007199254740992%Z. destruct s; lia.
    - lia.
    - destruct s; lia.
    - split; [|rewrite K2; destruct s; lia]. apply val_is_f64. destruct s; exact K1. }
  destruct (N.eqb_spec e 255) as [->|He255].
  { change (Z.of_N 255) with 255%Z. cbn [Zeq_bool Z.compare Pos.compare Pos.compare_cont].
    change (Zeq_bool 255 0) with false. change (Zeq_bool 255 (256 - 1)) with true. cbn match.
    destruct (N.eqb_spec m 0) as [->|Hm0]; [reflexivity|].
    destruct m; [contradiction|]. reflexivity. }
  assert (E255 : Zeq_bool (Z.of_N e) (256 - 1) = false) by (apply Zeq_bool_false; lia).
  rewrite E255.
  destruct (N.eqb_spec e 0) as [->|He0].
  { change (Zeq_bool (Z.of_N 0) 0) with true. cbn match.
    destruct m as [|p]; [reflexivity|]. cbn [N.eqb].
    specialize (K (Zpos p) (-149)%Z ltac:(lia) ltac:(lia)). exact K. }
  assert (E0 : Zeq_bool (Z.of_N e) 0 = false) by (apply Zeq_bool_false; lia).
  rewrite E0.
  specialize (K (Z.of_N m + 8388608)%Z (Z.of_N e - 150)%Z ltac:(lia) ltac:(lia)).
  replace (Z.of_N (m + 8388608)) with (Z.of_N m + 8388608)%Z by lia.
  destruct (Z.of_N m + 8388608)%Z as [|p|p] eqn:Ep; try lia.
  replace (Z.of_N e + SpecFloat.emin (23 + 1) (2 ^ (8 - 1)) - 1)%Z with (Z.of_N e - 150)%Z.
  - exact K.
  - change (SpecFloat.emin (23 + 1) (2 ^ (8 - 1))) with (-149)%Z. lia.
Qed.
