(** Decimal numbers of variable length with up to eighteen digits. *)
From Coq Require Import Reals Psatz.
From Flocq Require Import Core IEEE754.BinarySingleNaN IEEE754.Bits.
From Verif Require Import Proof.BaseFacts Proof.CoreFacts Model.Core Model.F64 Model.DataInfo Model.ValueInfo
  Model.Record Spec.RecordSpec Spec.FloatSpec Proof.RecordFacts Proof.HeaderFacts Proof.HeaderProps
  Proof.DateFacts Proof.FloatFacts Proof.NumberFacts Proof.NumberProps Proof.RscadaValues.

Fixpoint weight (n : nat) : f64 :=
  match n with O => f64_of_Z 1 | S m => f64_mul (weight m) (f64_of_Z 10) end.

Lemma weight_small n : (n <= 15)%nat -> val (weight n) (IZR (Z.of_N (10 ^ N.of_nat n))).
Proof.
  induction n as [|n IH]; intros H; [apply (f64_of_Z_exact 1); lia|].
  specialize (IH ltac:(lia)). cbn [weight]. rewrite Nat2N.inj_succ, N.pow_succ_r', N.mul_comm.
  pose proof (pow10_small (N.of_nat (S n)) ltac:(lia)) as P. rewrite Nat2N.inj_succ, N.pow_succ_r' in P.
  rewrite N2Z.inj_mul. apply mul_exact; [exact IH|apply (f64_of_Z_exact 10); lia|].
  change (2 ^ 53)%Z with 9007199254740992%Z. lia.
Qed.
Lemma integer_val m e z : SpecFloat.bounded 53 1024 m e = true -> (0 <= e)%Z -> (Zpos m * 2 ^ e = z)%Z -> val (S754_finite false m e) (IZR z).
Proof.
  intros H He <-. pose proof (finite_val false m e H) as V.
  replace (IZR (Zpos m * 2 ^ e)) with (F2R (Float radix2 (cond_Zopp false (Zpos m)) e)); [exact V|].
  unfold F2R; cbn [Fnum Fexp cond_Zopp]. rewrite mult_IZR. f_equal. rewrite <- (IZR_Zpower radix2) by exact He. reflexivity.
Qed.
Lemma weight_val n : (n <= 17)%nat -> val (weight n) (IZR (Z.of_N (10 ^ N.of_nat n))).
Proof.
  intros H. destruct (Nat.le_gt_cases n 15) as [L|L]; [apply weight_small; exact L|].
  assert (D : n = 16%nat \/ n = 17%nat) by lia.
  destruct D as [->| ->];
    match goal with |- context [weight ?k] => let v := eval vm_compute in (weight k) in
      assert (E : weight k = v) by (vm_compute; reflexivity); rewrite E end;
    apply integer_val; [reflexivity|lia|reflexivity|reflexivity|lia|reflexivity].
Qed.
(** a digit times its weight is exact *)
Lemma digit_weight d i : d < 10 -> (i <= 17)%nat ->
  val (f64_mul (f64_of_Z (Z.of_N d)) (weight i)) (IZR (Z.of_N (d * 10 ^ N.of_nat i))).
Proof.
  intros Hd Hi. rewrite N2Z.inj_mul.
  destruct (Nat.le_gt_cases i 14) as [L|L].
  { apply mul_exact; [apply f64_of_Z_exact; lia|apply weight_val; lia|].
    pose proof (pow10_small (N.of_nat i) ltac:(lia)) as P. assert (10 ^ N.of_nat i <= 10 ^ 14) by (apply N.pow_le_mono_r; lia).
    change (10 ^ 14) with 100000000000000 in *. change (2 ^ 53)%Z with 9007199254740992%Z. nia. }
  destruct (N.eq_dec d 0) as [->|Nd].
  { change (Z.of_N 0 * Z.of_N (10 ^ N.of_nat i))%Z with (0 * Z.of_N (10 ^ N.of_nat i))%Z.
    apply mul_exact; [apply (f64_of_Z_exact 0); lia|apply weight_val; lia|lia]. }
  assert (Di : (i = 15 \/ i = 16 \/ i = 17)%nat) by lia.
  assert (Dd : d = 1 \/ d = 2 \/ d = 3 \/ d = 4 \/ d = 5 \/ d = 6 \/ d = 7 \/ d = 8 \/ d = 9) by lia.
  destruct Di as [->|[->| ->]]; repeat (destruct Dd as [->|Dd]; [|]); try subst d;
    match goal with |- val ?x _ => let v := eval vm_compute in x in
      assert (E : x = v) by (vm_compute; reflexivity); rewrite E end;
    first [apply integer_val; [reflexivity|lia|reflexivity] |
           match goal with |- val (S754_finite false ?m ?e) (IZR ?z) =>
             let z' := eval vm_compute in z in change z with z';
             let V := fresh in pose proof (finite_val false m e eq_refl) as V;
             match type of V with val _ ?r => replace (IZR z') with r; [exact V|] end;
             unfold F2R; cbn [Fnum Fexp cond_Zopp bpow]; rewrite ?Z.pow_pos_fold; cbn; lra end].
Qed.

(** *** The sum of the digits: exact up to 2^53, and never off by more than 73 *)
#[local] Existing Instances FloatFacts.prec_gt_0_53 FloatFacts.prec_lt_emax_53 FloatFacts.valid_fe.

Lemma add_close x y r q e : val x r -> val y q -> (-1000 <= e <= 1000)%Z -> (Rabs (r + q) < bpow radix2 e)%R ->
  exists c, val (f64_add x y) c /\ (Rabs (c - (r + q)) <= bpow radix2 (e - 54))%R.
Proof.
  intros (bx & -> & Fx & Rx) (by_ & -> & Fy & Ry) He H. rewrite add_equiv.
  pose proof (Bplus_correct 53 1024 _ _ mode_NE bx by_ Fx Fy) as C. rewrite Rx, Ry in C.
  rewrite Rlt_bool_true in C.
  2:{ apply Rle_lt_trans with (bpow radix2 e); [|apply bpow_lt; lia].
      apply abs_round_le_generic; [auto with typeclass_instances..| |apply Rlt_le; exact H].
      apply generic_format_bpow. rewrite fexp_FLT. unfold FLT_exp. lia. }
  destruct C as (C1 & C2 & _). eexists. split; [eexists; split; [reflexivity|]; split; [exact C2|reflexivity]|].
  rewrite C1. pose proof (error_le_half_ulp radix2 fe (fun z => negb (Z.even z)) (r + q)) as E.
  change (Rabs (round radix2 fe (round_mode mode_NE) (r + q) - (r + q)) <= / 2 * ulp radix2 fe (r + q))%R in E.
  eapply Rle_trans; [exact E|].
  replace (e - 54)%Z with ((-1) + (e - 53))%Z by lia. rewrite bpow_plus. change (bpow radix2 (-1)) with (/ 2)%R.
  apply Rmult_le_compat_l; [lra|].
  destruct (Req_dec (r + q) 0) as [Z0|NZ].
  - rewrite Z0. change (ulp radix2 (FLT_exp (-1074) 53) 0 <= bpow radix2 (e - 53))%R. rewrite (@ulp_FLT_0 radix2 (-1074) 53 FloatFacts.prec_gt_0_53). apply bpow_le. lia.
  - rewrite ulp_neq_0 by exact NZ. apply bpow_le. unfold cexp. pose proof (mag_le_bpow radix2 (r + q) e NZ H) as M.
    rewrite fexp_FLT. unfold FLT_exp. lia.
Qed.

Definition slack (i : nat) : R := if (i <=? 15)%nat then 0 else if (i <=? 16)%nat then 1 else if (i <=? 17)%nat then 9 else 73.
Definition sum_to (i : nat) (v : f64) (a : N) : Prop :=
  a < 10 ^ N.of_nat i /\ (a <= 2 ^ 53 -> val v (IZR (Z.of_N a))) /\
  exists r, val v r /\ (Rabs (r - IZR (Z.of_N a)) <= slack i)%R.

Lemma long_step i v a d : sum_to i v a -> d < 10 -> (i <= 17)%nat ->
  sum_to (S i) (f64_add v (f64_mul (f64_of_Z (Z.of_N d)) (weight i))) (a + d * 10 ^ N.of_nat i).
Proof.
  intros (Ha & Hv & r & Vr & Hr) Hd Hi. pose proof (digit_weight d i Hd Hi) as Hw. change (2 ^ 53) with 9007199254740992 in *.
  assert (Hb : a + d * 10 ^ N.of_nat i < 10 ^ N.of_nat (S i)).
  { rewrite Nat2N.inj_succ, N.pow_succ_r'. nia. }
  assert (Hx : a + d * 10 ^ N.of_nat i <= 9007199254740992 ->
     val (f64_add v (f64_mul (f64_of_Z (Z.of_N d)) (weight i))) (IZR (Z.of_N (a + d * 10 ^ N.of_nat i)))).
  { intros H. assert (V : val v (IZR (Z.of_N a))) by (apply Hv; lia). rewrite N2Z.inj_add.
    apply add_exact; [exact V|exact Hw|change (2 ^ 53)%Z with 9007199254740992%Z; lia]. }
  split; [exact Hb|]. split; [exact Hx|].
  destruct (Nat.le_gt_cases i 14) as [L|L].
  - exists (IZR (Z.of_N (a + d * 10 ^ N.of_nat i))). split.
    + apply Hx. assert (10 ^ N.of_nat (S i) <= 10 ^ 15) by (apply N.pow_le_mono_r; lia).
      change (10 ^ 15) with 1000000000000000 in *. lia.
    + unfold Rminus. rewrite Rplus_opp_r, Rabs_R0. unfold slack. destruct (Nat.leb_spec (S i) 15); [lra|lia].
  - assert (Bd : (0 <= IZR (Z.of_N a) + IZR (Z.of_N (d * 10 ^ N.of_nat i)) <= IZR (Z.of_N (10 ^ N.of_nat (S i))))%R).
    { rewrite <- plus_IZR. split; apply IZR_le; lia. }
    assert (G : forall e, (-1000 <= e <= 1000)%Z -> (slack i + IZR (Z.of_N (10 ^ N.of_nat (S i))) < bpow radix2 e)%R ->
      (slack i + bpow radix2 (e - 54) <= slack (S i))%R ->
      exists r0, val (f64_add v (f64_mul (f64_of_Z (Z.of_N d)) (weight i))) r0 /\
        (Rabs (r0 - IZR (Z.of_N (a + d * 10 ^ N.of_nat i))) <= slack (S i))%R).
    { intros e He B1 B2. destruct (add_close _ _ _ _ e Vr Hw He) as (c & Vc & Hc).
      { apply Rabs_def2b in Hr || idtac. apply Rabs_le_inv in Hr. apply Rabs_def1; lra. }
      exists c. split; [exact Vc|]. rewrite N2Z.inj_add, plus_IZR.
      apply Rabs_le_inv in Hr. apply Rabs_le_inv in Hc. apply Rabs_le. lra. }
    assert (D : (i = 15 \/ i = 16 \/ i = 17)%nat) by lia.
    destruct D as [->|[->| ->]]; [apply (G 54%Z)|apply (G 57%Z)|apply (G 60%Z)]; try lia;
      unfold slack; cbn [Nat.leb];
      match goal with |- context [Z.of_N (10 ^ N.of_nat ?k)] => let z := eval vm_compute in (Z.of_N (10 ^ N.of_nat k)) in
        change (Z.of_N (10 ^ N.of_nat k)) with z | _ => idtac end;
      cbn; rewrite ?Z.pow_pos_fold; lra.
Qed.

Lemma long_loop nd l : forall pre rest v a,
  bytes_ok l -> let i := 2 * len pre in i + 2 * len l <= nd -> nd <= 18 -> sum_to (N.to_nat i) v a ->
  (all_decimal l /\ exists v', bcd_value_loop (pre ++ l ++ rest) nd false (2 * length l) i v (weight (N.to_nat i)) = Ok v' /\
     sum_to (N.to_nat i + 2 * length l) v' (a + 10 ^ i * decimal (nibbles l))) \/
  (~ all_decimal l /\ bcd_value_loop (pre ++ l ++ rest) nd false (2 * length l) i v (weight (N.to_nat i)) =
     Err (DataInformationError InvalidValueInformation)).
Proof.
  cbv zeta. induction l as [|b l IH]; intros pre rest v a Hb Hi Hnd Hv.
  - left; split; [constructor|]. exists v; split; [reflexivity|]. cbn. rewrite N.mul_0_r, N.add_0_r, Nat.add_0_r. assumption.
  - apply bytes_ok_cons in Hb; destruct Hb as [Hb1 Hb2]. unfold byte_ok in Hb1.
    destruct (nibble_digits b Hb1) as [Elo Ehi]. rewrite len_cons in Hi.
    replace (2 * length (b :: l))%nat with (S (S (2 * length l))) by (cbn [length]; lia).
    cbn [bcd_value_loop].
    assert (G0 : get (pre ++ (b :: l) ++ rest) (2 * len pre / 2) = Some b).
    { replace (2 * len pre / 2) with (len pre) by lia. rewrite get_app_r by lia. rewrite N.sub_diag. reflexivity. }
    assert (G1 : get (pre ++ (b :: l) ++ rest) ((2 * len pre + 1) / 2) = Some b).
    { replace ((2 * len pre + 1) / 2) with (len pre) by lia. rewrite get_app_r by lia. rewrite N.sub_diag. reflexivity. }
    rewrite G0, G1; cbn [ok_or bind].
    replace ((2 * len pre) mod 2 =? 0) with true by lia.
    replace ((2 * len pre + 1) mod 2 =? 0) with false by lia.
    rewrite Elo, Ehi.
    destruct (N.ltb_spec 9 (b mod 16)) as [H1|H1].
    { right; split; [|reflexivity]. intros C. inversion C; subst; lia. }
    destruct (N.ltb_spec 9 (b / 16)) as [H2|H2].
    { right; split; [|reflexivity]. intros C. inversion C as [|? ? _ C']; inversion C'; subst; lia. }
    change (f64_mul (weight (N.to_nat (2 * len pre))) (f64_of_Z 10)) with (weight (S (N.to_nat (2 * len pre)))).
    change (f64_mul (weight (S (N.to_nat (2 * len pre)))) (f64_of_Z 10)) with (weight (S (S (N.to_nat (2 * len pre))))).
    pose proof (long_step (N.to_nat (2 * len pre)) v a (b mod 16) Hv ltac:(lia) ltac:(lia)) as Hv1.
    pose proof (long_step (S (N.to_nat (2 * len pre))) _ _ (b / 16) Hv1 ltac:(lia) ltac:(lia)) as Hv2.
    specialize (IH (pre ++ [b]) rest _ _ Hb2 ltac:(rewrite len_app; change (len [b]) with 1; lia) Hnd
      ltac:(replace (N.to_nat (2 * len (pre ++ [b]))) with (S (S (N.to_nat (2 * len pre)))) by (rewrite len_app; change (len [b]) with 1; lia); exact Hv2)).
    replace (2 * len (pre ++ [b])) with (2 * len pre + 1 + 1) in IH by (rewrite len_app; change (len [b]) with 1; lia).
    replace (N.to_nat (2 * len pre + 1 + 1)) with (S (S (N.to_nat (2 * len pre)))) in IH by lia.
    rewrite <- app_assoc in IH. cbn [app] in IH. cbn [app].
    destruct IH as [(Hd & v' & E & Hv')|(Hd & E)].
    + left; split.
      * unfold all_decimal, nibbles in *. cbn [flat_map app]. constructor; [lia|]. constructor; [lia|assumption].
      * exists v'; split; [exact E|].
        match type of Hv' with sum_to ?m _ ?x => match goal with |- sum_to ?m' _ ?y =>
          replace y with x; [replace m' with m by lia; exact Hv'|] end end.
        unfold nibbles at 2. cbn [flat_map app decimal]. fold (nibbles l).
        rewrite Nat2N.inj_succ, N2Nat.id, N.pow_succ_r', !N.pow_add_r. change (10 ^ 1) with 10. ring.
    + right; split; [|exact E]. intros C. apply Hd. unfold all_decimal, nibbles in *. cbn [flat_map app] in C.
      inversion C as [|? ? _ C']; inversion C'; subst; assumption.
Qed.

Lemma mul_sign x r s : val x r -> (s = 1 \/ s = -1)%Z -> val (f64_mul x (f64_of_Z s)) (IZR s * r).
Proof.
  intros (bx & -> & Fx & <-) Hs. destruct (f64_of_Z_exact s ltac:(lia)) as (by_ & -> & Fy & Ry). rewrite mul_equiv.
  pose proof (Bmult_correct 53 1024 _ _ mode_NE bx by_) as C. rewrite Ry in C.
  assert (G : generic_format radix2 fe (B2R bx * IZR s)).
  { destruct Hs as [-> | ->]; [rewrite Rmult_1_r|replace (B2R bx * -1)%R with (- B2R bx)%R by ring; apply generic_format_opp];
      apply generic_format_B2R. }
  rewrite (round_generic radix2 fe (round_mode mode_NE)) in C by exact G.
  rewrite Rlt_bool_true in C.
  2:{ rewrite Rabs_mult. replace (Rabs (IZR s)) with 1%R; [rewrite Rmult_1_r; apply abs_B2R_lt_emax|].
      destruct Hs as [-> | ->]; [rewrite Rabs_R1; reflexivity|rewrite Rabs_left; lra]. }
  destruct C as (C1 & C2 & _). eexists. split; [reflexivity|]. rewrite C2, Fx, Fy. split; [reflexivity|]. rewrite C1. ring.
Qed.

Lemma long_number body rest n sign lsb :
  bytes_ok body -> len body = n -> n <= 9 -> (sign = 1 \/ sign = -1)%Z ->
  (all_decimal (ordered lsb body) /\ exists x,
     bcd_to_value_internal (body ++ rest) (2 * n) sign lsb = Ok {| d_value := Some (Number x); d_size := n |} /\
     (decimal (nibbles (ordered lsb body)) <= 2 ^ 53 -> val x (IZR (sign * Z.of_N (decimal (nibbles (ordered lsb body)))))) /\
     exists r, val x r /\ (Rabs (r - IZR (sign * Z.of_N (decimal (nibbles (ordered lsb body))))) <= 73)%R) \/
  (~ all_decimal (ordered lsb body) /\
     bcd_to_value_internal (body ++ rest) (2 * n) sign lsb = Err (DataInformationError InvalidValueInformation)).
Proof.
  intros Hb Hl Hn Hs. unfold bcd_to_value_internal.
  replace ((2 * n + 1) / 2) with n by lia.
  destruct (N.ltb_spec (len (body ++ rest)) n) as [H|_]; [rewrite len_app in H; lia|].
  assert (Hbo : bytes_ok (ordered lsb body)).
  { destruct lsb; [|assumption]. unfold bytes_ok in *. cbn. apply Forall_rev; assumption. }
  assert (Hlo : len (ordered lsb body) = n) by (destruct lsb; cbn; rewrite ?len_rev; assumption).
  rewrite (bcd_loop_ext (body ++ rest) ([] ++ ordered lsb body ++ []) (2 * n) lsb false); [| |lia].
  2:{ intros i Hi. rewrite app_nil_r. cbn [app]. destruct lsb; cbn [ordered].
      - rewrite get_app_l by lia. rewrite get_rev by lia. f_equal. lia.
      - rewrite get_app_l by lia. reflexivity. }
  replace (N.to_nat (2 * n)) with (2 * length (ordered lsb body))%nat by (unfold len in Hlo; lia).
  destruct (long_loop (2 * n) (ordered lsb body) [] [] (S754_zero false) 0) as [(Hd & v' & E & Hv)|(Hd & E)];
    try assumption; try lia.
  - change (len (@nil N)) with 0. lia.
  - split; [reflexivity|]. assert (V : val (S754_zero false) (IZR (Z.of_N 0))) by (apply (f64_of_Z_exact 0); lia).
    split; [intros _; exact V|]. exists (IZR (Z.of_N 0)). split; [exact V|]. unfold Rminus.
    rewrite Rplus_opp_r, Rabs_R0. change (slack (N.to_nat (2 * len (@nil N)))) with 0%R. lra.
  - left; split; [assumption|]. change (2 * len (@nil N)) with 0 in E. change (weight (N.to_nat 0)) with (f64_of_Z 1) in E.
    rewrite E; cbn [bind]. eexists; split; [reflexivity|].
    destruct Hv as (_ & Hv & r & Vr & Hr). rewrite N.add_0_l in *. change (10 ^ (2 * len (@nil N))) with 1 in *. rewrite N.mul_1_l in *.
    split.
    + intros Hd'. specialize (Hv Hd'). rewrite Z.mul_comm. change (2 ^ 53) with 9007199254740992 in *.
      apply mul_exact; [assumption| |]; [apply f64_of_Z_exact|]; change (2 ^ 53)%Z with 9007199254740992%Z; lia.
    + exists (IZR sign * r)%R. split; [apply mul_sign; assumption|]. rewrite mult_IZR.
      assert (Hs' : (slack (N.to_nat (2 * len (@nil N)) + 2 * length (ordered lsb body)) <= 73)%R).
      { unfold slack. repeat match goal with |- context [(?a <=? ?b)%nat] => destruct (a <=? b)%nat end; lra. }
      rewrite <- Rmult_minus_distr_l, Rabs_mult. destruct Hs as [-> | ->].
      * rewrite Rabs_R1, Rmult_1_l. lra.
      * replace (Rabs (IZR (-1))) with 1%R by (rewrite Rabs_left; lra). rewrite Rmult_1_l. lra.
  - right; split; [assumption|]. change (2 * len (@nil N)) with 0 in E. change (weight (N.to_nat 0)) with (f64_of_Z 1) in E. rewrite E; reflexivity.
Qed.

(** LVAR C0..C9 and D0..D9: up to eighteen digits; [D] is negative *)
Lemma long_bcd_record cf head n rest hdr h dif vif sign k :
  header_of cf head (n :: rest) h dif vif -> ~ date_vif vif -> dif mod 16 = 13 ->
  k <= 9 -> (n = 0xC0 + k /\ sign = 1%Z) \/ (n = 0xD0 + k /\ sign = (-1)%Z) ->
  (k <= len rest /\ ~ all_decimal (firstn (N.to_nat k) rest) /\
   data_record_parse cf (head ++ n :: rest) hdr = Err (DataInformationError InvalidValueInformation)) \/
  reads (data_record_parse cf (head ++ n :: rest) hdr) h head (n :: rest) (1 + k)
    (fun body x => all_decimal (tl body) /\
       (decimal (nibbles (ordered (lsb_first hdr) (tl body))) <= 2 ^ 53 ->
        is_number (IZR (sign * Z.of_N (decimal (nibbles (ordered (lsb_first hdr) (tl body)))))) x) /\
       exists r, is_number r x /\
         (Rabs (r - IZR (sign * Z.of_N (decimal (nibbles (ordered (lsb_first hdr) (tl body)))))) <= 73)%R).
Proof.
  intros Hh Hd H13 Hk Hn. rewrite (variable_record _ _ _ _ _ _ _ _ Hh Hd H13).
  assert (P : parse_variable_length cf (n :: rest) (lsb_first hdr) =
     (bytes <- ok_or (get_range (n :: rest) 1 (1 + k)) RInsufficientData ;;
      d <- bcd_to_value_internal bytes (2 * k) sign (lsb_first hdr) ;;
      Ok (plus_one d))).
  { unfold parse_variable_length. change (get (n :: rest) 0) with (Some n). cbn [ok_or bind].
    destruct Hn as [[-> ->]|[-> ->]].
    - destruct (N.leb_spec (0xC0 + k) 0xBF); [lia|]. destruct (N.leb_spec 0xC0 (0xC0 + k)); [|lia].
      destruct (N.leb_spec (0xC0 + k) 0xC9); [|lia]. cbn [andb]. cbv zeta.
      replace (0xC0 + k - 0xC0) with k by lia. reflexivity.
    - destruct (N.leb_spec (0xD0 + k) 0xBF); [lia|]. destruct (N.leb_spec (0xD0 + k) 0xC9); [lia|].
      destruct (N.leb_spec 0xD0 (0xD0 + k)); [|lia]. destruct (N.leb_spec (0xD0 + k) 0xD9); [|lia].
      rewrite andb_false_r. cbn [andb]. cbv zeta.
      replace (0xD0 + k - 0xD0) with k by lia. reflexivity. }
  rewrite P. clear P.
  assert (Hs : (sign = 1 \/ sign = -1)%Z) by tauto. clear Hn.
  destruct (N.lt_ge_cases (len rest) k) as [Hl|Hl].
  - right; left; split; [rewrite len_cons; lia|]. rewrite get_range_1 by assumption. reflexivity.
  - destruct (take_w rest k Hl) as (body & rest' & -> & Hlb).
    destruct Hh as (Hbo & _). apply bytes_ok_app in Hbo; destruct Hbo as [_ Hbo].
    apply bytes_ok_cons in Hbo; destruct Hbo as [_ Hbo].
    apply bytes_ok_app in Hbo; destruct Hbo as [Hbo _]. rewrite (firstn_w body rest' k Hlb).
    assert (Ho : all_decimal (ordered (lsb_first hdr) body) <-> all_decimal body).
    { destruct (lsb_first hdr); [|reflexivity]. cbn [ordered]. unfold all_decimal, nibbles.
      rewrite !Forall_flat_map. split; intros F; [rewrite <- (rev_involutive body)|]; apply Forall_rev; assumption. }
    rewrite get_range_1_ok by assumption. cbn [ok_or bind].
    destruct (long_number body [] k sign (lsb_first hdr) Hbo Hlb ltac:(lia) Hs)
      as [(Had & x & E & Hx & r & Vr & Hr)|(Had & E)]; rewrite app_nil_r in E; rewrite E; cbn [bind].
    + right; right. exists (n :: body), rest'. do 2 eexists. cbn [plus_one d_size]. rewrite (firstn_S_w n body rest' k Hlb).
      rewrite len_cons. split; [reflexivity|]. split; [lia|]. split; [reflexivity|].
      split; [reflexivity|]. split; [reflexivity|]. split; [reflexivity|]. cbn [tl].
      split; [apply Ho; assumption|]. split.
      * intros Hdec. eexists; split; [reflexivity|]. apply val_is_f64; exact (Hx Hdec).
      * exists r. split; [eexists; split; [reflexivity|]; apply val_is_f64; exact Vr|exact Hr].
    + left; split; [assumption|]. split; [|reflexivity]. intros C; apply Had, Ho, C.
Qed.
