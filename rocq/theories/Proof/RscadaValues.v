(** Numbers in the libmbus XML. *)
From Coq Require Import List NArith ZArith QArith Lia Bool String Reals Lra Qreals.
From Flocq Require Import Core IEEE754.BinarySingleNaN.
Import ListNotations.
From Verif Require Import Model.Base Model.Text Model.Core Model.F64 Model.DataInfo Model.ValueInfo Model.Record Model.Show Model.Output Model.Rscada
  Spec.EscapeSpec Spec.TextSpec Spec.FloatSpec Spec.RecordSpec Spec.VifSpec Spec.XmlSpec Spec.RscadaSpec
  Proof.BaseFacts Proof.CoreFacts Proof.FloatFacts Proof.NumberFacts Proof.DecimalFacts Proof.ScaledFacts Proof.ShowFacts
  Proof.RecordFacts Proof.HeaderFacts Proof.HeaderProps Proof.NumberProps Proof.OutputValues Proof.VifFacts Proof.XmlFacts Proof.RscadaFacts Proof.RscadaRecords.
Open Scope N_scope.

(** *** Integers *)
Lemma wrap_small z : (- 2 ^ 63 <= z < 2 ^ 63)%Z -> wrap_i64 z = z.
Proof. intros H. unfold wrap_i64. rewrite Z.mod_small by lia. lia. Qed.
Lemma fold_rev_bytes (g : N -> N) l : (forall b, In b l -> g b < 256) ->
  (forall m b, l = m ++ [b] -> g b < 128) -> (length l <= 8)%nat ->
  fold_left (fun v b => wrap_i64 (wrap_i64 (v * 256) + Z.of_N (g b))) (rev l) 0%Z = Z.of_N (le_number (map g l)) /\
  (2 * Z.of_N (le_number (map g l)) < 2 ^ (8 * Z.of_nat (length l)) \/ l = [])%Z.
Proof.
  intros Hg. induction l as [|b l IH]; intros Ht Hl; [split; [reflexivity|right; reflexivity]|].
  cbn [rev map le_number]. rewrite fold_left_app. cbn [fold_left].
  destruct l as [|c l].
  - cbn [rev fold_left map le_number length]. assert (g b < 128) by (apply (Ht []); reflexivity).
    rewrite (wrap_small (0 * 256)) by lia. rewrite wrap_small by lia. split; [lia|left].
    change (2 ^ (8 * Z.of_nat 1))%Z with 256%Z. lia.
  - destruct IH as [E B].
    + intros x Hx. apply Hg. right. exact Hx.
    + intros m x Ex. apply (Ht (b :: m)). cbn [app]. now rewrite <- Ex.
    + cbn [length] in *. lia.
    + rewrite E. destruct B as [B|B]; [|discriminate]. set (n := Z.of_N (le_number (map g (c :: l)))) in *.
      assert (P : (2 ^ (8 * Z.of_nat (length (c :: l))) <= 2 ^ 56)%Z) by (apply Z.pow_le_mono_r; cbn [length] in *; lia).
      assert (H : g b < 256) by (apply Hg; left; reflexivity).
      assert (Hn : (0 <= n)%Z) by (subst n; lia).
      change (2 ^ 56)%Z with 72057594037927936%Z in P.
      rewrite (wrap_small (n * 256)) by lia. rewrite wrap_small by lia. split; [subst n; lia|]. left.
      assert (Q : (2 ^ (8 * Z.of_nat (length (b :: c :: l))) = 256 * 2 ^ (8 * Z.of_nat (length (c :: l))))%Z).
      { change 256%Z with (2 ^ 8)%Z. rewrite <- Z.pow_add_r by lia. f_equal. cbn [length]. lia. }
      assert (V : (2 ^ (8 * Z.of_nat (length (c :: l))) = 2 * 2 ^ (8 * Z.of_nat (length (c :: l)) - 1))%Z).
      { rewrite <- Z.pow_succ_r by (cbn [length]; lia). f_equal. lia. }
      rewrite Q. rewrite N2Z.inj_add, N2Z.inj_mul. fold n. lia.
Qed.
Lemma int_decode_value l : bytes_ok l -> l <> [] -> (length l <= 8)%nat -> int_decode l = f64_of_Z (twos_complement l).
Proof.
  intros B Hn Hl. destruct (list_snoc l) as [->|(m & b & El)]; [congruence|].
  unfold int_decode. assert (La : last_opt l = Some b) by (rewrite El; apply last_opt_snoc). rewrite La. cbv zeta.
  pose proof (high_bit l B b m El) as Hb. rewrite Hb.
  assert (Bb : b < 256). { rewrite El in B. apply bytes_ok_app in B as [_ B]. inversion B; assumption. }
  assert (Hs : forall b', b' < 256 -> (N.land b' 0x80 =? 0) = (b' <? 128)).
  { intros b' H'. apply eqb_prop. exact (sweep256 (fun b => Bool.eqb (N.land b 0x80 =? 0) (b <? 128)) eq_refl b' H'). }
  assert (Hx : forall b', b' < 256 -> N.lxor b' 0xFF = 255 - b').
  { intros b' H'. apply N.eqb_eq. exact (sweep256 (fun b => N.lxor b 0xFF =? 255 - b) eq_refl b' H'). }
  rewrite (Hs b Bb) in Hb. unfold twos_complement.
  destruct (2 * Z.of_N (le_number l) <? 2 ^ (8 * Z.of_nat (length l)))%Z eqn:Sg; cbn [negb] in *.
  - f_equal. destruct (fold_rev_bytes (fun b => b) l) as [E _].
    + intros x Hx'. unfold bytes_ok in B. rewrite Forall_forall in B. exact (B x Hx').
    + intros m' b' E'. rewrite El in E'. apply app_inj_tail in E' as [_ <-]. destruct (N.ltb_spec b 128); [assumption|discriminate Hb].
    + exact Hl.
    + rewrite map_id in E. exact E.
  - f_equal. destruct (fold_rev_bytes (fun b => N.lxor b 0xFF) l) as [E _].
    + intros x Hx'. unfold bytes_ok in B. rewrite Forall_forall in B. rewrite Hx by exact (B x Hx'). lia.
    + intros m' b' E'. rewrite El in E'. apply app_inj_tail in E' as [_ <-]. rewrite Hx by exact Bb.
      destruct (N.ltb_spec b 128); [discriminate Hb|lia].
    + exact Hl.
    + rewrite E.
      assert (Em : map (fun b => N.lxor b 0xFF) l = map (fun b => 255 - b) l).
      { apply map_ext_in. intros x Hx'. apply Hx. unfold bytes_ok in B. rewrite Forall_forall in B. exact (B x Hx'). }
      rewrite Em. destruct (complement_ok l B) as [C _]. rewrite <- pow256_Z. lia.
Qed.

(** *** Decimal digits *)
Lemma bcd_decode_value l : bytes_ok l -> all_decimal l -> bcd_decode l = f64_of_Z (Z.of_N (FloatSpec.decimal (nibbles l))).
Proof.
  intros B D. unfold bcd_decode.
  assert (Sh : forall b, N.shiftr b 4 = b / 16) by (intros; rewrite N.shiftr_div_pow2; reflexivity).
  assert (E : forall l, all_decimal l -> fold_left (fun value byte =>
    let value := (value * 10)%Z in
    let value := if N.shiftr byte 4 <? 0xA then (value + Z.of_N (N.shiftr byte 4))%Z else value in
    (value * 10 + Z.of_N (N.land byte 0x0F))%Z) (rev l) 0%Z = Z.of_N (FloatSpec.decimal (nibbles l))).
  { clear. intros l D. induction l as [|b l IH]; [reflexivity|]. cbn [rev]. rewrite fold_left_app. cbn [fold_left].
    unfold all_decimal in *. cbn [nibbles flat_map app] in *. inversion D as [|x y D1 D2]; subst. inversion D2 as [|x y D3 D4]; subst.
    rewrite IH by exact D4. cbv zeta. rewrite N.shiftr_div_pow2. change (2 ^ 4) with 16.
    destruct (N.ltb_spec (b / 16) 0xA); [|lia]. rewrite land_15. cbn [FloatSpec.decimal].
    change (flat_map (fun b => [b mod 16; b / 16]) l) with (nibbles l). lia. }
  cbv zeta. rewrite E by exact D. f_equal. destruct (list_snoc l) as [->|(m & b & El)]; [reflexivity|].
  assert (La : last_opt l = Some b) by (rewrite El; apply last_opt_snoc). rewrite La, Sh. destruct (N.eqb_spec (b / 16) 0xF) as [K|K]; [|reflexivity].
  exfalso. unfold all_decimal in D. rewrite El in D. unfold nibbles in D. rewrite flat_map_app in D. apply Forall_app in D as [_ D].
  cbn in D. inversion D as [|x y _ D2]; subst. inversion D2; subst. lia.
Qed.

(** *** Six digits after the point *)
Lemma dec_pad_number w n : n < 10 ^ N.of_nat w -> (0 < w)%nat ->
  Forall digit_char (dec_pad w n) /\ length (dec_pad w n) = w /\ number (dec_pad w n) = n.
Proof.
  intros H Hw. unfold dec_pad. destruct (dec_text n) as (A1 & A2 & A3 & A4).
  assert (L : forall k n, n < 10 ^ N.of_nat k -> (0 < k)%nat -> (length (dec n) <= k)%nat).
  { clear. induction k as [|k IH]; intros n H Hk; [lia|]. rewrite dec_unfold, app_length. cbn [length].
    destruct (N.ltb_spec n 10); [cbn; lia|]. destruct k as [|k].
    - change (10 ^ N.of_nat 1) with 10 in H. lia.
    - specialize (IH (n / 10)). assert (length (dec (n / 10)) <= S k)%nat; [|lia]. apply IH; [|lia].
      rewrite Nat2N.inj_succ, N.pow_succ_r' in H. apply N.div_lt_upper_bound; lia. }
  specialize (L w n H Hw).
  assert (Z1 : forall k, Forall digit_char (zeros k) /\ length (zeros k) = k /\ (forall s, number (zeros k ++ s) = number s)).
  { clear. induction k as [|k (I1 & I2 & I3)]; [repeat split; constructor|]. unfold zeros in *; cbn [repeat app length]. repeat split.
    - constructor; [unfold digit_char; lia|exact I1].
    - cbn; now rewrite I2.
    - intros s. unfold number in *. cbn [fold_left]. change (10 * 0 + (48 - 48)) with 0. apply I3. }
  destruct (Z1 (w - length (dec n))%nat) as (Z2 & Z3 & Z4).
  split; [apply Forall_app; split; assumption|]. split; [rewrite app_length, Z3; lia|]. rewrite Z4. exact A4.
Qed.
Lemma number_app a b : number (a ++ b) = number a * 10 ^ len b + number b.
Proof.
  unfold number. rewrite fold_left_app. generalize (fold_left (fun n c => 10 * n + (c - 48)) a 0). clear a.
  assert (G : forall b n, fold_left (fun n c => 10 * n + (c - 48)) b n = n * 10 ^ len b + fold_left (fun n c => 10 * n + (c - 48)) b 0).
  { clear. induction b as [|c b IH]; intros n; [cbn; lia|]. cbn [fold_left]. rewrite IH. rewrite (IH (10 * 0 + (c - 48))).
    rewrite len_cons, N.pow_add_r. change (10 ^ 1) with 10. lia. }
  intros n. apply G.
Qed.
Lemma micro_text (s : bool) n :
  decimal_text ((if s then [45] else []) ++ dec (n / 1000000) ++ txt "." ++ dec_pad 6 (n mod 1000000))
    (inject_Z (cond_Zopp s (Z.of_N n)) / inject_Z 1000000)%Q.
Proof.
  destruct (dec_text (n / 1000000)) as (A1 & A2 & _ & A4).
  destruct (dec_pad_number 6 (n mod 1000000)) as (P1 & P2 & P3); [apply N.mod_lt; discriminate|lia|].
  exists s, (dec (n / 1000000)), (dec_pad 6 (n mod 1000000)).
  split; [|split; [exact A2|split; [exact A1|split; [exact P1|]]]].
  - destruct (dec_pad 6 (n mod 1000000)) eqn:E; [discriminate P2|reflexivity].
  - rewrite number_app, A4, P3, P2. unfold len. rewrite P2. change (10 ^ N.of_nat 6) with 1000000. change (10 ^ Z.of_nat 6)%Z with 1000000%Z.
    replace (n / 1000000 * 1000000 + n mod 1000000) with n by (pose proof (N.div_mod n 1000000); lia).
    destruct s; cbn [cond_Zopp]; [|now rewrite Qmult_1_l].
    rewrite inject_Z_opp. unfold Qdiv. ring.
Qed.

Lemma show6 x r k : val x r -> (Rabs (r * 1000000 - IZR k) < / 2)%R ->
  decimal_text (show_f64_6 x) (inject_Z k / inject_Z 1000000)%Q.
Proof.
  intros V H. destruct (val_is_f64 _ _ V) as (_ & Fi & E). destruct x as [s|s| |s m e]; try discriminate Fi.
  - cbn [SF2R] in E. subst r.
    assert (k = 0)%Z.
    { destruct (Z.eq_dec k 0) as [|Hk]; [assumption|exfalso]. rewrite Rmult_0_l, Rminus_0_l, Rabs_Ropp, <- abs_IZR in H.
      assert (1 <= Z.abs k)%Z by lia. apply IZR_le in H0. lra. }
    subst k. exists s, [48], (repeat 48 6). split; [destruct s; reflexivity|]. split; [discriminate|].
    split; [constructor; [unfold digit_char; lia|constructor]|].
    split; [cbn [repeat]; repeat (constructor; [unfold digit_char; lia|]); constructor|]. destruct s; reflexivity.
  - cbn [SF2R] in E.
    assert (K : exists n, show_f64_6 (S754_finite s m e) = (if s then [45] else []) ++ dec (n / 1000000) ++ txt "." ++ dec_pad 6 (n mod 1000000)
      /\ (Rabs (IZR (Z.of_N n) - IZR (Z.pos m) * bpow radix2 e * 1000000) <= / 2)%R).
    { unfold show_f64_6. cbv zeta. eexists. split; [reflexivity|].
      destruct (Z.leb_spec 0 e) as [He|He].
      - rewrite N2Z.inj_mul, N2Z.inj_pow, Z2N.id, N2Z.inj_mul by exact He. cbn [Z.of_N].
        rewrite <- (IZR_Zpower radix2 e He). change (Zpower radix2 e) with (2 ^ e)%Z. rewrite !mult_IZR.
        match goal with |- (Rabs ?x <= _)%R => replace x with 0%R by ring end. rewrite Rabs_R0. lra.
      - set (p := N.pos m * 1000000). set (d := 2 ^ Z.to_N (- e)).
        assert (Nd : d <> 0) by (apply N.pow_nonzero; discriminate).
        assert (Ed : Z.of_N d = (2 ^ (- e))%Z) by (unfold d; rewrite N2Z.inj_pow, Z2N.id by lia; reflexivity).
        assert (Rd : (IZR (Z.of_N d) = / bpow radix2 e)%R).
        { rewrite Ed. change 2%Z with (radix_val radix2). rewrite IZR_Zpower by lia. rewrite bpow_opp. reflexivity. }
        assert (Pe : (0 < bpow radix2 e)%R) by apply bpow_gt_0.
        pose proof (N.div_mod p d Nd) as Dm. pose proof (N.mod_lt p d Nd) as Ml.
        assert (Q : forall n, (2 * Z.abs (Z.of_N n * Z.of_N d - Z.of_N p) <= Z.of_N d)%Z ->
          (Rabs (IZR (Z.of_N n) - IZR (Z.pos m) * bpow radix2 e * 1000000) <= / 2)%R).
        { intros n Hn. apply IZR_le in Hn. rewrite mult_IZR, abs_IZR, minus_IZR, mult_IZR, Rd in Hn.
          assert (Ep : IZR (Z.of_N p) = (IZR (Z.pos m) * 1000000)%R) by (unfold p; rewrite N2Z.inj_mul, mult_IZR; reflexivity).
          rewrite Ep in Hn. set (N0 := IZR (Z.of_N n)) in *. set (M := IZR (Z.pos m)) in *. set (b := bpow radix2 e) in *.
          assert (X : (N0 - M * b * 1000000 = (N0 * / b - M * 1000000) * b)%R) by (field; lra).
          rewrite X, Rabs_mult, (Rabs_right b) by lra.
          apply (Rmult_le_compat_r b) in Hn; [|lra]. rewrite Rinv_l in Hn by lra. lra. }
        apply Q. destruct (N.ltb_spec (2 * (p mod d)) d); [nia|]. destruct (N.ltb_spec d (2 * (p mod d))); [nia|].
        destruct (N.even (p / d)); nia. }
    destruct K as (n & -> & Hn).
    assert (X : cond_Zopp s (Z.of_N n) = k).
    { assert (Y : (Rabs (IZR (cond_Zopp s (Z.of_N n)) - r * 1000000) <= / 2)%R).
      { rewrite <- E. unfold F2R. cbn [Fnum Fexp]. destruct s; cbn [cond_Zopp]; [|exact Hn].
        rewrite opp_IZR. change (Z.neg m) with (- Z.pos m)%Z. rewrite opp_IZR.
        match goal with |- (Rabs ?x <= _)%R =>
          replace x with (- (IZR (Z.of_N n) - IZR (Z.pos m) * bpow radix2 e * 1000000))%R by ring end.
        rewrite Rabs_Ropp. exact Hn. }
      assert (W : (Rabs (IZR (cond_Zopp s (Z.of_N n) - k)) < 1)%R).
      { rewrite minus_IZR. replace (IZR (cond_Zopp s (Z.of_N n)) - IZR k)%R
          with ((IZR (cond_Zopp s (Z.of_N n)) - r * 1000000) + (r * 1000000 - IZR k))%R by ring.
        eapply Rle_lt_trans; [apply Rabs_triang|]. lra. }
      rewrite <- abs_IZR in W. apply lt_IZR in W. lia. }
    rewrite <- X. apply micro_text.
Qed.

(** *** Multiplication by a decimal literal *)
#[local] Existing Instance FloatFacts.prec_gt_0_53.
#[local] Existing Instance FloatFacts.prec_lt_emax_53.
#[local] Instance valid_fe : Valid_exp fe. Proof. exact (FLT_exp_valid (-1074) 53). Qed.
#[local] Instance monotone_fe : Monotone_exp fe. Proof. exact (FLT_exp_monotone (-1074) 53). Qed.
Lemma nearest_error p : (Rabs p <= 2147483648)%R -> (Rabs (nearest p - p) <= / 4194304)%R.
Proof.
  intros H. rewrite <- nearest_fexp.
  eapply Rle_trans; [apply (error_le_half_ulp radix2 fe (fun x => negb (Z.even x)) p)|].
  assert (U : (ulp radix2 fe p <= ulp radix2 fe (bpow radix2 31))%R).
  { apply ulp_le; auto with typeclass_instances.
    rewrite (Rabs_right (bpow radix2 31)) by (apply Rle_ge, bpow_ge_0). exact H. }
  rewrite ulp_bpow in U. change (fe (31 + 1)) with (-21)%Z in U. change (bpow radix2 (-21)) with (/ 2097152)%R in U. lra.
Qed.
Lemma mul_near x y a b : val x a -> val y b -> (Rabs (a * b) <= 2147483648)%R ->
  val (f64_mul x y) (nearest (a * b)).
Proof.
  intros (bx & -> & Fx & Rx) (by_ & -> & Fy & Ry) H. rewrite mul_equiv. eexists; split; [reflexivity|].
  pose proof (Bmult_correct 53 1024 _ _ mode_NE bx by_) as C. rewrite Rx, Ry in C. rewrite Rlt_bool_true in C.
  - destruct C as (C1 & C2 & _). split; [rewrite C2, Fx, Fy; reflexivity|]. rewrite C1. apply nearest_fexp.
  - apply Rle_lt_trans with (bpow radix2 31); [|apply bpow_lt; lia].
    apply abs_round_le_generic; [auto with typeclass_instances..|apply generic_format_bpow; vm_compute; discriminate|exact H].
Qed.
Lemma finite_val s m e : SpecFloat.bounded 53 1024 m e = true ->
  val (S754_finite s m e) (F2R (Float radix2 (cond_Zopp s (Zpos m)) e)).
Proof. intros H. exists (B754_finite s m e H). repeat split. Qed.
Lemma literal_close e : (-6 <= e < 0)%Z ->
  exists c, val (f64_literal 1 e) c /\ (Rabs (c - / IZR (10 ^ (- e))) <= / IZR (10 ^ (- e)) * / 9007199254740992)%R.
Proof.
  intros H. assert (D : (e = -6 \/ e = -5 \/ e = -4 \/ e = -3 \/ e = -2 \/ e = -1)%Z) by lia.
  repeat (destruct D as [D|D]); subst e;
    match goal with |- context [f64_literal 1 ?e] => let v := eval vm_compute in (f64_literal 1 e) in change (f64_literal 1 e) with v end;
    (eexists; split; [apply finite_val; reflexivity|]);
    match goal with |- context [IZR (10 ^ ?e)] => let v := eval vm_compute in (10 ^ e)%Z in change (10 ^ e)%Z with v end;
    unfold F2R; cbn [Fnum Fexp cond_Zopp bpow];
    match goal with |- context [Z.pow_pos ?a ?b] => let v := eval vm_compute in (Z.pow_pos a b) in change (Z.pow_pos a b) with v end;
    apply Rabs_le; lra.
Qed.
Lemma scaled_value z m e : (0 < m)%Z -> (-6 <= e)%Z ->
  (e < 0 -> m = 1 /\ Z.abs z <= 2000000000 * 10 ^ (- e))%Z -> (0 <= e -> Z.abs z <= 2 ^ 53 /\ m * 10 ^ e <= 2 ^ 53 /\ Z.abs (z * (m * 10 ^ e)) <= 2 ^ 53)%Z ->
  exists r, val (f64_mul (f64_of_Z z) (f64_literal m e)) r /\ (Rabs (r * 1000000 - IZR (z * m * 10 ^ (e + 6))) < / 2)%R.
Proof.
  intros Hm He Hneg Hpos. destruct (Z.lt_ge_cases e 0) as [L|L].
  - destruct (Hneg L) as [-> Hz]. clear Hneg Hpos. destruct (literal_close e (conj He L)) as (c & Vc & Hc).
    set (t := IZR (10 ^ (- e))) in *. assert (T : (1 <= t <= 1000000)%R).
    { subst t. split; apply IZR_le; [|change 1000000%Z with (10 ^ 6)%Z; apply Z.pow_le_mono_r; lia].
      change 1%Z with (10 ^ 0)%Z. apply Z.pow_le_mono_r; lia. }
    assert (Vz : val (f64_of_Z z) (IZR z)).
    { apply f64_of_Z_exact. assert (10 ^ (- e) <= 10 ^ 6)%Z by (apply Z.pow_le_mono_r; lia). change (10 ^ 6)%Z with 1000000%Z in *.
      change (2 ^ 53)%Z with 9007199254740992%Z. lia. }
    apply IZR_le in Hz. rewrite abs_IZR, mult_IZR in Hz. fold t in Hz.
    set (a := IZR z) in *.
    assert (Ha : (Rabs (a * / t) <= 2000000000)%R).
    { rewrite Rabs_mult, (Rabs_right (/ t)) by (apply Rle_ge, Rlt_le, Rinv_0_lt_compat; lra).
      apply (Rmult_le_compat_r (/ t)) in Hz; [|apply Rlt_le, Rinv_0_lt_compat; lra].
      rewrite Rmult_assoc, Rinv_r in Hz by lra. lra. }
    assert (Hp : (Rabs (a * c - a * / t) <= 2000000000 * / 9007199254740992)%R).
    { rewrite <- Rmult_minus_distr_l, Rabs_mult. eapply Rle_trans; [apply Rmult_le_compat_l; [apply Rabs_pos|exact Hc]|].
      rewrite <- Rmult_assoc. apply Rmult_le_compat_r; [lra|].
      rewrite <- (Rabs_right (/ t)) by (apply Rle_ge, Rlt_le, Rinv_0_lt_compat; lra). rewrite <- Rabs_mult. exact Ha. }
    assert (Hq : (Rabs (a * c) <= 2147483648)%R).
    { replace (a * c)%R with ((a * c - a * / t) + a * / t)%R by ring. eapply Rle_trans; [apply Rabs_triang|]. lra. }
    exists (nearest (a * c)). split; [apply mul_near; assumption|].
    pose proof (nearest_error _ Hq) as Hn.
    assert (K : (IZR (z * 1 * 10 ^ (e + 6)) = a * / t * 1000000)%R).
    { rewrite Z.mul_1_r, mult_IZR. fold a. rewrite Rmult_assoc. f_equal.
      assert (P : (10 ^ (e + 6) * 10 ^ (- e) = 1000000)%Z) by (rewrite <- Z.pow_add_r by lia; replace (e + 6 + - e)%Z with 6%Z by lia; reflexivity).
      apply (f_equal IZR) in P. rewrite mult_IZR in P. fold t in P. rewrite <- P. field. lra. }
    rewrite K. replace (nearest (a * c) * 1000000 - a * / t * 1000000)%R
      with (((nearest (a * c) - a * c) + (a * c - a * / t)) * 1000000)%R by ring.
    rewrite Rabs_mult, (Rabs_right 1000000) by lra.
    eapply Rle_lt_trans; [apply Rmult_le_compat_r; [lra|]; apply Rabs_triang|]. lra.
  - destruct (Hpos L) as (Hz & Hme & Hp). exists (IZR (z * (m * 10 ^ e))). split.
    + apply mul_exact; [apply f64_of_Z_exact; exact Hz| |exact Hp]. unfold f64_literal. destruct (Z.leb_spec 0 e); [|lia].
      apply f64_of_Z_exact. assert (0 < 10 ^ e)%Z by (apply Z.pow_pos_nonneg; lia). rewrite Z.abs_eq by nia. exact Hme.
    + rewrite Z.pow_add_r by lia. change (10 ^ 6)%Z with 1000000%Z. rewrite <- mult_IZR, <- minus_IZR.
      match goal with |- (Rabs (IZR ?x) < _)%R => replace x with 0%Z by ring end. rewrite Rabs_R0. lra.
Qed.

(** *** Records with a primary code *)
Lemma header_vib cf data h b : bytes_ok data -> header_try_from cf data = Ok h -> rh_vib (drh_raw h) = Some b ->
  exists l, bytes_ok l /\ vib_try_from cf l = Ok b.
Proof.
  unfold header_try_from. intros B H Hv. apply bind_ok in H as (raw & Hr & H). apply bind_ok in H as (ph & _ & H).
  apply Ok_inj in H. subst h. cbn [drh_raw] in Hv. unfold raw_header_try_from in Hr.
  apply bind_ok in Hr as (db & _ & Hr). destruct (negb _); [|apply Ok_inj in Hr; subst raw; discriminate Hv].
  apply bind_ok in Hr as (rest & Hg & Hr). apply ok_or_ok in Hg.
  apply bind_ok in Hr as (vb & Hvb & Hr). apply Ok_inj in Hr. subst raw. injection Hv as ->.
  unfold from_die in Hvb. apply map_err_ok in Hvb. exists rest. split; [|exact Hvb].
  apply get_from_ok in Hg as [_ ->]. rewrite <- (firstn_skipn (N.to_nat (dib_get_size db)) data), bytes_ok_app in B. tauto.
Qed.
Lemma plain_vib cf data h b : bytes_ok data -> header_try_from cf data = Ok h -> rh_vib (drh_raw h) = Some b -> vib_vif b < 0x7C ->
  b = {| vib_vif := vib_vif b; vib_vifes := None; vib_plaintext := None |}.
Proof.
  intros B H Hv L. destruct (header_vib _ _ _ _ B H Hv) as (l & Bl & Hl). destruct (vib_ok _ _ _ Hl) as (r & _ & Hs).
  destruct (vib_accepts _ _ _ Bl Hl) as (r' & _ & _ & Hc & _ & Hp).
  assert (P : vib_plaintext b = None).
  { destruct (vib_plaintext b); [|reflexivity]. exfalso. destruct (proj1 Hp ltac:(discriminate)) as [K|[K _]]; lia. }
  assert (X : has_extension (vib_vif b) = false) by (rewrite has_extension_spec by lia; apply N.leb_gt; lia).
  unfold vib_shape in Hs. rewrite X in Hs. destruct b as [vif vs pl]; cbn [vib_vif vib_vifes vib_plaintext] in *.
  subst pl. f_equal. destruct vs; [destruct Hs as [[K _] _]; discriminate K|reflexivity].
Qed.

Lemma row_limits vif r n : primary vif r n ->
  (0 < vr_seconds r <= 86400 /\ primary_scale r n <= 7 /\ (primary_scale r n <> 0 -> vr_seconds r = 1))%Z.
Proof. revert vif r n. refine (rows_all _ _). repeat constructor; vm_compute; intros K; try reflexivity; try discriminate K; congruence. Qed.
Lemma decimal_text_eq s p q : (p == q)%Q -> decimal_text s p -> decimal_text s q.
Proof. intros E (neg & ip & fp & A & B & C & D & F). exists neg, ip, fp. repeat split; try assumption. now rewrite <- E. Qed.
Lemma ten_power_six e : (-6 <= e)%Z -> (inject_Z (10 ^ (e + 6)) / inject_Z 1000000 == ten_power e)%Q.
Proof.
  intros H. replace e with (Z.of_nat (Z.to_nat (e + 6)) + - Z.of_nat 6)%Z at 2 by lia.
  rewrite ten_power_add, ten_power_nat, ten_power_opp, Z2Nat.id by lia. reflexivity.
Qed.
Lemma exact_text z m e : (0 < m <= 86400)%Z -> (e <= 7)%Z -> (e <> 0 -> m = 1)%Z -> six_digits (z * m) e ->
  decimal_text (show_f64_6 (f64_mul (f64_of_Z z) (f64_literal m e))) (inject_Z (z * m) * ten_power e).
Proof.
  intros Hm He Hme (H6 & Hneg & Hpos).
  destruct (scaled_value z m e) as (r & V & Hr).
  - lia.
  - exact H6.
  - intros L. split; [apply Hme; lia|]. rewrite (Hme ltac:(lia)), Z.mul_1_r in Hneg. apply Hneg, L.
  - intros L. specialize (Hpos L). assert (0 < 10 ^ e)%Z by (apply Z.pow_pos_nonneg; lia).
    assert (10 ^ e <= 10 ^ 7)%Z by (apply Z.pow_le_mono_r; lia). change (10 ^ 7)%Z with 10000000%Z in *.
    change (2 ^ 53)%Z with 9007199254740992%Z in *. rewrite Z.mul_assoc. rewrite Z.abs_mul in *. rewrite (Z.abs_mul z m) in Hpos.
    rewrite (Z.abs_mul z m). repeat split; nia.
  - eapply decimal_text_eq; [|apply (show6 _ _ _ V Hr)].
    rewrite inject_Z_mult. unfold Qdiv. rewrite <- Qmult_assoc.
    fold (inject_Z (10 ^ (e + 6)) / inject_Z 1000000)%Q. rewrite ten_power_six by exact H6. reflexivity.
Qed.

Lemma real_fields powi vif row n cf head rest h dif r body x :
  header_of cf head rest h dif vif -> primary vif row n -> dr_header r = h -> dr_raw_bytes r = head ++ body ->
  dif <> 0x0F -> dif <> 0x1F -> variable_value_decode dif vif None body = Some (DReal x) ->
  lookup (txt "Unit") (record_fields powi r) = Some (vr_xml_unit row) /\
  lookup (txt "Quantity") (record_fields powi r) = Some (vr_xml_quantity row) /\
  lookup (txt "Value") (record_fields powi r) =
    Some (show_f64_6 (f64_mul x (f64_literal (vr_seconds row) (primary_scale row n)))).
Proof.
  intros (B & Hh & Hl & Hdif & b & Hb & Hvif) Hp Hr Hraw H0F H1F Hx.
  assert (Eb : b = {| vib_vif := vif; vib_vifes := None; vib_plaintext := None |}).
  { rewrite <- Hvif. eapply plain_vib; [exact B|exact Hh|exact Hb|]. rewrite Hvif. apply (xml_row _ _ _ Hp). }
  assert (Ef : normalize_record powi r = Some {| nr_function := function_string dif;
     nr_storage_number := xml_storage_number dif (difes_of h);
     nr_tariff := match difes_of h with [] => None | _ => Some (xml_tariff (difes_of h)) end; nr_device := xml_device (difes_of h);
     nr_unit := vr_xml_unit row; nr_quantity := vr_xml_quantity row;
     nr_value := DReal (f64_mul x (f64_literal (vr_seconds row) (primary_scale row n))) |}).
  { unfold normalize_record. rewrite (significand_data r h head body Hr Hl Hraw), Hr, Hdif, Hb.
    apply N.eqb_neq in H0F, H1F. rewrite H0F, H1F. cbn [orb]. rewrite Eb. cbn [vib_vif vib_vifes vib_plaintext hd_error].
    rewrite Hx, (xml_scaled powi vif row n) by exact Hp. reflexivity. }
  unfold record_fields. rewrite Ef. cbn [nr_function nr_storage_number nr_tariff nr_device nr_unit nr_quantity nr_value].
  assert (Bl : blanked (vr_xml_unit row) = vr_xml_unit row /\ blanked (vr_xml_quantity row) = vr_xml_quantity row).
  { clear -Hp. revert vif row n Hp. refine (rows_all _ _). repeat constructor. }
  destruct Bl as [-> ->]. destruct (difes_of h); cbn [app]; repeat split; look; reflexivity.
Qed.
Lemma integer_decoded dif vif w body : integer_width (dif mod 16) = Some w -> ~ date_vif vif -> vif < 0x7C -> len body = w ->
  variable_value_decode dif vif None body = Some (DReal (int_decode body)).
Proof.
  intros Hw Hd Hv Hl. unfold variable_value_decode.
  assert (V : N.land vif 0x7F = vif). { change 0x7F with (N.ones 7). rewrite N.land_ones. apply N.mod_small. change (2 ^ 7) with 128. lia. }
  rewrite V, land_15. unfold date_vif in Hd. rewrite N.mod_small in Hd by lia.
  destruct (N.eqb_spec vif 0x6C); [tauto|]. destruct (N.eqb_spec vif 0x6D); [tauto|]. cbn [orb]. rewrite !andb_false_r. cbn [andb orb].
  unfold integer_width in Hw.
  assert (D : In (dif mod 16, w) [(1,1);(2,2);(3,3);(4,4);(6,6);(7,8)]).
  { destruct (dif mod 16) as [|[[[]|[]|]|[[]|[]|]|]]; inversion Hw; subst; cbn; tauto. }
  cbn [In] in D. destruct D as [D|[D|[D|[D|[D|[D|[]]]]]]]; apply pair_equal_spec in D; destruct D as [D1 D2];
    rewrite <- D1; cbn [N.eqb Pos.eqb]; rewrite (get_to_all body) by congruence; reflexivity.
Qed.
Lemma bcd_decoded dif vif w body : bcd_width (dif mod 16) = Some w -> len body = w ->
  variable_value_decode dif vif None body = Some (DReal (bcd_decode body)).
Proof.
  intros Hw Hl. unfold variable_value_decode. rewrite land_15. unfold bcd_width in Hw.
  assert (D : In (dif mod 16, w) [(9,1);(10,2);(11,3);(12,4);(14,6)]).
  { destruct (dif mod 16) as [|[[[[]|[]|]|[[]|[]|]|]|[[[]|[]|]|[[]|[]|]|]|]]; inversion Hw; subst; cbn; tauto. }
  cbn [In] in D. destruct D as [D|[D|[D|[D|[D|[]]]]]]; apply pair_equal_spec in D; destruct D as [D1 D2];
    rewrite <- D1; cbn [N.eqb Pos.eqb]; rewrite (get_to_all body) by congruence; reflexivity.
Qed.
Lemma special_widths dif : dif mod 16 <> 15 -> dif <> 0x0F /\ dif <> 0x1F.
Proof. intros H. split; intros ->; apply H; reflexivity. Qed.

Lemma xml_integer cf head rest hdr h dif vif row n w r powi i id fields :
  header_of cf head rest h dif vif -> primary vif row n -> ~ date_vif vif -> integer_width (dif mod 16) = Some w ->
  data_record_parse cf (head ++ rest) hdr = Ok r -> record_element (render_variable_record powi i r) = Some (id, fields) ->
  exists body rest', rest = body ++ rest' /\ len body = w /\ xml_number fields row n (twos_complement body).
Proof.
  intros Hh Hp Hd Hw Hr E. rewrite record_element_fields in E. injection E as _ <-.
  destruct (integer_record _ _ _ hdr _ _ _ _ Hh Hd Hw) as [(_ & E)|(body & rest' & r' & x & E & L & Er & Eh & Eb & Ev & _)];
    rewrite Hr in *; [discriminate E|]. injection Er as <-.
  exists body, rest'. split; [exact E|]. split; [exact L|].
  assert (Bb : bytes_ok body). { destruct Hh as (B & _). rewrite E, !bytes_ok_app in B. tauto. }
  destruct (integer_coding _ _ Hw) as [Lw _].
  destruct (special_widths dif) as [N1 N2]. { intros K. rewrite K in Hw. discriminate Hw. }
  destruct (real_fields powi vif row n cf head rest h dif r body (int_decode body) Hh Hp Eh Eb N1 N2) as (F1 & F2 & F3).
  { eapply integer_decoded; try eassumption. apply (xml_row _ _ _ Hp). }
  split; [exact F1|]. split; [exact F2|]. eexists. split; [exact F3|]. intros Hs.
  rewrite int_decode_value; [|exact Bb|intros ->; cbn in L; lia|unfold len in L; lia].
  destruct (row_limits _ _ _ Hp) as (R1 & R2 & R3). now apply exact_text.
Qed.
Lemma xml_bcd cf head rest hdr h dif vif row n w r powi i id fields :
  header_of cf head rest h dif vif -> primary vif row n -> ~ date_vif vif -> bcd_width (dif mod 16) = Some w ->
  data_record_parse cf (head ++ rest) hdr = Ok r -> record_element (render_variable_record powi i r) = Some (id, fields) ->
  exists body rest', rest = body ++ rest' /\ len body = w /\ all_decimal body /\
    xml_number fields row n (Z.of_N (FloatSpec.decimal (nibbles body))).
Proof.
  intros Hh Hp Hd Hw Hr E. rewrite record_element_fields in E. injection E as _ <-.
  destruct (bcd_record _ _ _ hdr _ _ _ _ Hh Hd Hw) as [(_ & _ & E)|[(_ & E)|(body & rest' & r' & x & E & L & Er & Eh & Eb & Ev & Ad & _)]];
    rewrite Hr in *; [discriminate E..|]. injection Er as <-.
  assert (Bb : bytes_ok body). { destruct Hh as (B & _). rewrite E, !bytes_ok_app in B. tauto. }
  exists body, rest'. split; [exact E|]. split; [exact L|]. split; [exact Ad|].
  destruct (special_widths dif) as [N1 N2]. { intros K. rewrite K in Hw. discriminate Hw. }
  destruct (real_fields powi vif row n cf head rest h dif r body (bcd_decode body) Hh Hp Eh Eb N1 N2) as (F1 & F2 & F3).
  { eapply bcd_decoded; eassumption. }
  split; [exact F1|]. split; [exact F2|]. eexists. split; [exact F3|]. intros Hs.
  rewrite bcd_decode_value by assumption.
  destruct (row_limits _ _ _ Hp) as (R1 & R2 & R3). now apply exact_text.
Qed.

(** *** What the library says about records with a primary VIF *)
Lemma native_information cf head rest h dif vif row n : header_of cf head rest h dif vif -> primary vif row n ->
  exists units, ph_value_information (drh_processed h) =
    Some {| vi_decimal_offset_exponent := 0; vi_labels := [vr_label row]; vi_decimal_scale_exponent := primary_scale row n; vi_units := units |} /\
    (~ duration row -> units = vr_units row) /\ (duration row -> units = []).
Proof.
  intros (B & Hh & Hl & Hdif & b & Hb & Hvif) Hp.
  assert (Eb : b = {| vib_vif := vif; vib_vifes := None; vib_plaintext := None |}).
  { rewrite <- Hvif. eapply plain_vib; [exact B|exact Hh|exact Hb|]. rewrite Hvif. apply (xml_row _ _ _ Hp). }
  destruct (native_row _ _ _ Hp) as (units & E & U). exists units. split; [|exact U].
  unfold header_try_from in Hh. apply bind_ok in Hh as (raw & _ & Hh). apply bind_ok in Hh as (ph & Hph & Hh).
  apply Ok_inj in Hh. subst h. cbn [drh_raw drh_processed] in *. unfold processed_header_try_from in Hph. rewrite Hb, Eb, E in Hph.
  cbn [from_die map_err bind] in Hph. apply bind_ok in Hph as (d & _ & Hph). apply Ok_inj in Hph. subst ph. reflexivity.
Qed.
