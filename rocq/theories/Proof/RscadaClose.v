(** How near the numbers in the libmbus XML are to those transmitted. *)
From Coq Require Import List NArith ZArith QArith Lia Bool String Reals Lra Qreals.
From Flocq Require Import Core IEEE754.BinarySingleNaN Relative IEEE754.Bits.
Import ListNotations.
From Verif Require Import Model.Base Model.Text Model.Core Model.F64 Model.DataInfo Model.ValueInfo Model.Record Model.Show Model.Output Model.Rscada
  Spec.EscapeSpec Spec.TextSpec Spec.FloatSpec Spec.RecordSpec Spec.VifSpec Spec.XmlSpec Spec.RscadaSpec Spec.RoundSpec
  Proof.BaseFacts Proof.CoreFacts Proof.FloatFacts Proof.NumberFacts Proof.DecimalFacts Proof.ScaledFacts Proof.ShowFacts
  Proof.RecordFacts Proof.HeaderFacts Proof.HeaderProps Proof.NumberProps Proof.OutputValues Proof.VifFacts Proof.XmlFacts Proof.RscadaFacts Proof.RscadaRecords
  Proof.RscadaValues.
Open Scope N_scope.

Lemma show6_nearest x r : val x r -> six_places r (show_f64_6 x).
Proof.
  intros V. destruct (val_is_f64 _ _ V) as (_ & Fi & E). destruct x as [s|s| |s m e]; try discriminate Fi.
  - cbn [SF2R] in E. subst r. exists 0%Z. split.
    + apply (show6 _ _ 0%Z V). rewrite Rmult_0_l, Rminus_0_r, Rabs_R0. lra.
    + rewrite Rmult_0_l, Rminus_0_r, Rabs_R0. split; [lra|reflexivity].
  - cbn [SF2R] in E.
    assert (K : exists n, show_f64_6 (S754_finite s m e) = (if s then [45] else []) ++ dec (n / 1000000) ++ txt "." ++ dec_pad 6 (n mod 1000000)
      /\ (Rabs (IZR (Z.of_N n) - IZR (Z.pos m) * bpow radix2 e * 1000000) <= / 2)%R
      /\ (Rabs (IZR (Z.of_N n) - IZR (Z.pos m) * bpow radix2 e * 1000000) = / 2 -> N.even n = true)%R).
    { unfold show_f64_6. cbv zeta. eexists. split; [reflexivity|].
      destruct (Z.leb_spec 0 e) as [He|He].
      - rewrite N2Z.inj_mul, N2Z.inj_pow, Z2N.id, N2Z.inj_mul by exact He. cbn [Z.of_N].
        rewrite <- (IZR_Zpower radix2 e He). change (Zpower radix2 e) with (2 ^ e)%Z. rewrite !mult_IZR.
        match goal with |- (Rabs ?x <= _)%R /\ _ => replace x with 0%R by ring end. rewrite Rabs_R0. split; lra.
      - set (p := N.pos m * 1000000). set (d := 2 ^ Z.to_N (- e)).
        assert (Nd : d <> 0) by (apply N.pow_nonzero; discriminate).
        assert (Ed : Z.of_N d = (2 ^ (- e))%Z) by (unfold d; rewrite N2Z.inj_pow, Z2N.id by lia; reflexivity).
        assert (Rd : (IZR (Z.of_N d) = / bpow radix2 e)%R).
        { rewrite Ed. change 2%Z with (radix_val radix2). rewrite IZR_Zpower by lia. rewrite bpow_opp. reflexivity. }
        assert (Pe : (0 < bpow radix2 e)%R) by apply bpow_gt_0.
        pose proof (N.div_mod p d Nd) as Dm. pose proof (N.mod_lt p d Nd) as Ml.
        assert (Q : forall n, (2 * Z.abs (Z.of_N n * Z.of_N d - Z.of_N p) <= Z.of_N d)%Z ->
          ((2 * Z.abs (Z.of_N n * Z.of_N d - Z.of_N p) = Z.of_N d)%Z -> N.even n = true) ->
          (Rabs (IZR (Z.of_N n) - IZR (Z.pos m) * bpow radix2 e * 1000000) <= / 2)%R /\
          (Rabs (IZR (Z.of_N n) - IZR (Z.pos m) * bpow radix2 e * 1000000) = / 2 -> N.even n = true)%R).
        { intros n Hn Hev.
          assert (Ep : IZR (Z.of_N p) = (IZR (Z.pos m) * 1000000)%R) by (unfold p; rewrite N2Z.inj_mul, mult_IZR; reflexivity).
          assert (X : (Rabs (IZR (Z.of_N n) - IZR (Z.pos m) * bpow radix2 e * 1000000) =
                       IZR (Z.abs (Z.of_N n * Z.of_N d - Z.of_N p)) * bpow radix2 e)%R).
          { rewrite abs_IZR, minus_IZR, mult_IZR, Rd, Ep. set (b := bpow radix2 e) in *.
            rewrite <- (Rabs_right b) at 3 by lra. rewrite <- Rabs_mult. f_equal. field. lra. }
          rewrite X. split.
          - apply IZR_le in Hn. rewrite mult_IZR, Rd in Hn. apply (Rmult_le_compat_r (bpow radix2 e)) in Hn; [|lra].
            rewrite Rinv_l in Hn by lra. lra.
          - intros Y. apply Hev. apply eq_IZR. rewrite mult_IZR, Rd. apply Rmult_eq_reg_r with (bpow radix2 e); [|lra].
            rewrite Rinv_l by lra. lra. }
        apply Q; destruct (N.ltb_spec (2 * (p mod d)) d); [nia| |nia| ]; destruct (N.ltb_spec d (2 * (p mod d))); [nia| |nia| ].
        + destruct (N.even (p / d)); nia.
        + intros _. destruct (N.even (p / d)) eqn:Ev; [exact Ev|]. rewrite N.add_1_r, N.even_succ, <- N.negb_even, Ev. reflexivity. }
    destruct K as (n & -> & Hn & He).
    exists (cond_Zopp s (Z.of_N n)). split; [apply micro_text|].
    assert (Y : (Rabs (r * 1000000 - IZR (cond_Zopp s (Z.of_N n))) = Rabs (IZR (Z.of_N n) - IZR (Z.pos m) * bpow radix2 e * 1000000))%R).
    { rewrite <- E. unfold F2R. cbn [Fnum Fexp]. destruct s; cbn [cond_Zopp].
      - rewrite opp_IZR. change (Z.neg m) with (- Z.pos m)%Z. rewrite opp_IZR. f_equal. ring.
      - rewrite <- Rabs_Ropp. f_equal. ring. }
    rewrite Y. split; [exact Hn|]. intros K. specialize (He K).
    assert (Z.even (Z.of_N n) = true) by (destruct n as [|[]]; try exact He; reflexivity).
    destruct s; cbn [cond_Zopp]; [now rewrite Z.even_opp|assumption].
Qed.

(** *** Relative errors *)
#[local] Existing Instance FloatFacts.prec_gt_0_53.
#[local] Existing Instance FloatFacts.prec_lt_emax_53.
#[local] Instance valid_fe : Valid_exp fe. Proof. exact (FLT_exp_valid (-1074) 53). Qed.
Definition unit_error : R := / 9007199254740992.
Lemma nearest_relative p : p = 0%R \/ (bpow radix2 (-1000) <= Rabs p)%R -> (Rabs (nearest p - p) <= Rabs p * unit_error)%R.
Proof.
  intros [->|H].
  - unfold nearest. rewrite round_0 by apply valid_rnd_N. rewrite Rminus_0_r, Rabs_R0, Rmult_0_l. apply Rle_refl.
  - unfold nearest. eapply Rle_trans; [apply (relative_error_N_FLT radix2 (-1074) 53 ltac:(reflexivity) (fun x => negb (Z.even x)))|].
    + eapply Rle_trans; [|exact H]. apply bpow_le. lia.
    + assert (Eb : bpow radix2 (- (53) + 1) = (/ 4503599627370496)%R) by reflexivity. rewrite Eb. unfold unit_error. pose proof (Rabs_pos p). set (q := Rabs p) in *. lra.
Qed.
Lemma mul_relative x y a b : val x a -> val y b -> (Rabs (a * b) <= bpow radix2 1000)%R -> (a * b = 0)%R \/ (bpow radix2 (-1000) <= Rabs (a * b))%R ->
  exists r, val (f64_mul x y) r /\ (Rabs (r - a * b) <= Rabs (a * b) * unit_error)%R.
Proof.
  intros (bx & -> & Fx & Rx) (by_ & -> & Fy & Ry) H Hs. rewrite mul_equiv. exists (nearest (a * b)). split; [|now apply nearest_relative].
  eexists; split; [reflexivity|].
  pose proof (Bmult_correct 53 1024 _ _ mode_NE bx by_) as C. rewrite Rx, Ry in C. rewrite Rlt_bool_true in C.
  - destruct C as (C1 & C2 & _). split; [rewrite C2, Fx, Fy; reflexivity|]. rewrite C1. apply nearest_fexp.
  - apply Rle_lt_trans with (bpow radix2 1000); [|apply bpow_lt; lia].
    apply abs_round_le_generic; [auto with typeclass_instances..|apply generic_format_bpow; vm_compute; discriminate|exact H].
Qed.

Lemma literal_relative m e : (0 < m <= 86400)%Z -> (-9 <= e <= 7)%Z -> (e <> 0 -> m = 1)%Z ->
  exists c, val (f64_literal m e) c /\ (Rabs (c - IZR m * powerRZ 10 e) <= Rabs (IZR m * powerRZ 10 e) * unit_error)%R /\
    (/ 2000000000 <= IZR m * powerRZ 10 e <= 864000000000)%R.
Proof.
  intros Hm He H1. destruct (Z.lt_ge_cases e 0) as [L|L].
  - rewrite (H1 ltac:(lia)). clear Hm H1. rewrite Rmult_1_l.
    assert (D : (e = -9 \/ e = -8 \/ e = -7 \/ e = -6 \/ e = -5 \/ e = -4 \/ e = -3 \/ e = -2 \/ e = -1)%Z) by lia.
    assert (X : forall k : positive, powerRZ 10 (Z.neg k) = (/ IZR (10 ^ Z.pos k))%R).
    { intros k. cbn [powerRZ]. f_equal. rewrite pow_IZR. f_equal. now rewrite positive_nat_Z. }
    repeat (destruct D as [D|D]); subst e;
      match goal with |- context [f64_literal 1 ?e] => let v := eval vm_compute in (f64_literal 1 e) in change (f64_literal 1 e) with v end;
      rewrite X; match goal with |- context [IZR (10 ^ ?e)] => let v := eval vm_compute in (10 ^ e)%Z in change (10 ^ e)%Z with v end;
      (eexists; split; [apply finite_val; reflexivity|]);
      unfold F2R; cbn [Fnum Fexp cond_Zopp bpow];
      match goal with |- context [Z.pow_pos ?a ?b] => let v := eval vm_compute in (Z.pow_pos a b) in change (Z.pow_pos a b) with v end;
      unfold unit_error; (split; [rewrite (Rabs_right (/ _)) by lra; apply Rabs_le; lra|lra]).
  - assert (X : (powerRZ 10 e = IZR (10 ^ e))%R).
    { destruct e as [|k|k]; [reflexivity| |lia]. cbn [powerRZ]. rewrite pow_IZR. f_equal. now rewrite positive_nat_Z. }
    rewrite X, <- mult_IZR. exists (IZR (m * 10 ^ e)).
    assert (P : (1 <= 10 ^ e <= 10 ^ 7)%Z).
    { split; [change 1%Z with (10 ^ 0)%Z|]; apply Z.pow_le_mono_r; lia. }
    change (10 ^ 7)%Z with 10000000%Z in P.
    split; [|split].
    + unfold f64_literal. destruct (Z.leb_spec 0 e); [|lia]. apply f64_of_Z_exact. change (2 ^ 53)%Z with 9007199254740992%Z. nia.
    + rewrite Rminus_eq_0, Rabs_R0. apply Rmult_le_pos; [apply Rabs_pos|unfold unit_error; lra].
    + split; [|apply IZR_le; nia]. apply Rle_trans with 1%R; [lra|]. apply IZR_le. nia.
Qed.

(** the product of a number near [A] and a scale near [S] *)
Lemma product_near a c A S : (Rabs (a - A) <= Rabs A * unit_error)%R -> (Rabs (c - S) <= Rabs S * unit_error)%R ->
  (Rabs (a * c - A * S) <= Rabs (A * S) * (2 * unit_error + unit_error * unit_error))%R.
Proof.
  intros Ha Hc. replace (a * c - A * S)%R with ((a - A) * c + A * (c - S))%R by ring.
  eapply Rle_trans; [apply Rabs_triang|]. rewrite !Rabs_mult.
  assert (C : (Rabs c <= Rabs S * (1 + unit_error))%R).
  { replace c with ((c - S) + S)%R by ring. eapply Rle_trans; [apply Rabs_triang|]. lra. }
  pose proof (Rabs_pos A). pose proof (Rabs_pos c). pose proof (Rabs_pos S). pose proof (Rabs_pos (a - A)).
  assert (U : (0 < unit_error)%R) by (unfold unit_error; lra).
  assert (X1 : (Rabs (a - A) * Rabs c <= (Rabs A * unit_error) * (Rabs S * (1 + unit_error)))%R) by (apply Rmult_le_compat; assumption).
  assert (X2 : (Rabs A * Rabs (c - S) <= Rabs A * (Rabs S * unit_error))%R) by (apply Rmult_le_compat_l; assumption).
  nra.
Qed.
Lemma scaled_near x a A m e : val x a -> (Rabs (a - A) <= Rabs A * unit_error)%R -> A = 0%R \/ (bpow radix2 (-200) <= Rabs A)%R -> (Rabs A <= bpow radix2 200)%R ->
  (0 < m <= 86400)%Z -> (-9 <= e <= 7)%Z -> (e <> 0 -> m = 1)%Z ->
  close_text (A * IZR m * powerRZ 10 e) (show_f64_6 (f64_mul x (f64_literal m e))).
Proof.
  intros V Ha H0 H1 Hm He Hme. destruct (literal_relative m e Hm He Hme) as (c & Vc & Hc & Hb).
  rewrite Rmult_assoc. set (S := (IZR m * powerRZ 10 e)%R) in *.
  pose proof (product_near a c A S Ha Hc) as Hp.
  assert (U : unit_error = (/ 9007199254740992)%R) by reflexivity.
  assert (As : Rabs (A * S) = (Rabs A * S)%R) by (rewrite Rabs_mult, (Rabs_right S); lra).
  assert (PA : (0 <= Rabs A)%R) by apply Rabs_pos.
  set (q := (2 * unit_error + unit_error * unit_error)%R) in *.
  assert (Hq : (0 <= q <= / 4)%R) by (unfold q; rewrite U; lra).
  assert (T1 : (Rabs (a * c) <= 2 * Rabs (A * S))%R).
  { replace (a * c)%R with ((a * c - A * S) + A * S)%R by ring. eapply Rle_trans; [apply Rabs_triang|]. pose proof (Rabs_pos (A * S)). nra. }
  assert (T2 : (Rabs (A * S) <= 2 * Rabs (a * c))%R).
  { replace (A * S)%R with (- (a * c - A * S) + a * c)%R at 1 by ring. eapply Rle_trans; [apply Rabs_triang|]. rewrite Rabs_Ropp.
    pose proof (Rabs_pos (A * S)). pose proof (Rabs_pos (a * c)).
    assert (Rabs (A * S) <= Rabs (a * c - A * S) + Rabs (a * c))%R.
    { replace (A * S)%R with (- (a * c - A * S) + a * c)%R at 1 by ring. eapply Rle_trans; [apply Rabs_triang|]. rewrite Rabs_Ropp. lra. }
    nra. }
  destruct (mul_relative x (f64_literal m e) a c V Vc) as (r & Vr & Hr).
  - eapply Rle_trans; [exact T1|]. rewrite As.
    apply Rle_trans with (bpow radix2 200 * bpow radix2 800)%R; [|rewrite <- bpow_plus; apply bpow_le; lia].
    assert (P : (2 * 864000000000 <= bpow radix2 800)%R).
    { apply Rle_trans with (bpow radix2 60); [|apply bpow_le; lia]. change (bpow radix2 60) with 1152921504606846976%R. lra. }
    apply Rle_trans with (Rabs A * (2 * 864000000000))%R; [nra|]. apply Rmult_le_compat; lra.
  - destruct H0 as [->|H0].
    + left. rewrite Rmult_0_l, Rabs_R0 in T1. pose proof (Rabs_pos (a * c)).
      destruct (Req_dec (a * c) 0) as [K|K]; [exact K|]. apply Rabs_pos_lt in K. lra.
    + right. apply Rmult_le_reg_l with 2%R; [lra|]. eapply Rle_trans; [|exact T2]. rewrite As.
      apply Rle_trans with (bpow radix2 (-200) * / 2000000000)%R; [|apply Rmult_le_compat; try lra; apply bpow_ge_0].
      apply Rle_trans with (bpow radix2 (-200) * bpow radix2 (-40))%R; [|apply Rmult_le_compat_l; [apply bpow_ge_0|]; change (bpow radix2 (-40)) with (/ 1099511627776)%R; lra].
      rewrite <- bpow_plus. change 2%R with (bpow radix2 1). rewrite <- bpow_plus. apply bpow_le. lia.
  - exists r. split; [|now apply show6_nearest].
    replace (r - A * S)%R with ((r - a * c) + (a * c - A * S))%R by ring. eapply Rle_trans; [apply Rabs_triang|].
    assert (T3 : (Rabs (a * c) <= Rabs (A * S) * (1 + q))%R).
    { replace (a * c)%R with ((a * c - A * S) + A * S)%R by ring. eapply Rle_trans; [apply Rabs_triang|]. lra. }
    assert (PS : (0 <= Rabs (A * S))%R) by apply Rabs_pos. set (W := Rabs (A * S)) in *.
    assert (Rabs (r - a * c) <= W * ((1 + q) * unit_error))%R.
    { eapply Rle_trans; [exact Hr|]. rewrite <- Rmult_assoc. apply Rmult_le_compat_r; [rewrite U; lra|exact T3]. }
    assert (((1 + q) * unit_error + q) <= / 2251799813685248)%R by (unfold q; rewrite U; lra). nra.
Qed.
Lemma row_lower vif r n : primary vif r n -> (-9 <= primary_scale r n)%Z.
Proof. revert vif r n. refine (rows_all _ _). repeat constructor; vm_compute; intros K; discriminate K. Qed.

Lemma integer_size z : (Z.abs z <= 2 ^ 64)%Z -> let A := IZR z in
  exists a, val (f64_of_Z z) a /\ (Rabs (a - A) <= Rabs A * unit_error)%R /\ (A = 0%R \/ (bpow radix2 (-200) <= Rabs A)%R) /\ (Rabs A <= bpow radix2 200)%R.
Proof.
  intros H A. assert (D : A = 0%R \/ (1 <= Rabs A)%R).
  { destruct (Z.eq_dec z 0) as [E|E]; [left; unfold A; now rewrite E|right]. unfold A. rewrite <- abs_IZR. apply IZR_le. lia. }
  exists (nearest A). split; [now apply f64_of_Z_val|]. split; [|split].
  - apply nearest_relative. destruct D as [D|D]; [now left|right]. eapply Rle_trans; [|exact D]. change 1%R with (bpow radix2 0). apply bpow_le. lia.
  - destruct D as [D|D]; [now left|right]. eapply Rle_trans; [|exact D]. change 1%R with (bpow radix2 0). apply bpow_le. lia.
  - unfold A. rewrite <- abs_IZR. apply IZR_le in H. eapply Rle_trans; [exact H|]. change (IZR (2 ^ 64)) with (bpow radix2 64). apply bpow_le. lia.
Qed.
Lemma integer_close z row n vif : (Z.abs z <= 2 ^ 64)%Z -> primary vif row n ->
  close_text (in_unit row n (IZR z)) (show_f64_6 (f64_mul (f64_of_Z z) (f64_literal (vr_seconds row) (primary_scale row n)))).
Proof.
  intros H Hp. destruct (row_limits _ _ _ Hp) as (R1 & R2 & R3). pose proof (row_lower _ _ _ Hp) as Rl.
  destruct (integer_size z H) as (a & Va & Ha & H0 & H1). unfold in_unit. now apply scaled_near with (a := a).
Qed.

Lemma twos_bound l : (length l <= 8)%nat -> bytes_ok l -> (Z.abs (twos_complement l) <= 2 ^ 64)%Z.
Proof.
  intros L B. pose proof (le_number_lt l B) as H. unfold twos_complement.
  assert (P : (2 ^ (8 * Z.of_nat (length l)) <= 2 ^ 64)%Z) by (apply Z.pow_le_mono_r; lia).
  assert (Q : (Z.of_N (le_number l) < 2 ^ (8 * Z.of_nat (length l)))%Z).
  { apply N2Z.inj_lt in H. rewrite N2Z.inj_pow in H. unfold len in H.
    replace (8 * Z.of_nat (length l))%Z with (Z.of_N (8 * N.of_nat (length l))) by lia. exact H. }
  destruct (Z.ltb_spec (2 * Z.of_N (le_number l)) (2 ^ (8 * Z.of_nat (length l)))); lia.
Qed.
Lemma integer_close_xml cf head rest hdr h dif vif row n w r powi i id fields :
  header_of cf head rest h dif vif -> primary vif row n -> ~ date_vif vif -> integer_width (dif mod 16) = Some w ->
  data_record_parse cf (head ++ rest) hdr = Ok r -> record_element (render_variable_record powi i r) = Some (id, fields) ->
  exists body rest', rest = body ++ rest' /\ len body = w /\ close_number fields row n (IZR (twos_complement body)).
Proof.
  intros Hh Hp Hd Hw Hr E. rewrite record_element_fields in E. injection E as _ <-.
  destruct (integer_record _ _ _ hdr _ _ _ _ Hh Hd Hw) as [(_ & E)|(body & rest' & r' & x & E & L & Er & Eh & Eb & Ev & _)];
    rewrite Hr in *; [discriminate E|]. injection Er as <-.
  exists body, rest'. split; [exact E|]. split; [exact L|].
  assert (Bb : bytes_ok body). { destruct Hh as (B & _). rewrite E, !bytes_ok_app in B. tauto. }
  destruct (integer_coding _ _ Hw) as [Lw _].
  destruct (special_widths dif) as [N1 N2]. { intros K. rewrite K in Hw. discriminate Hw. }
  destruct (real_fields powi vif row n cf head rest h dif r body (int_decode body) Hh Hp Eh Eb N1 N2) as (F1 & F2 & F3).
  { eapply integer_decoded; try eassumption. apply (xml_row _ _ _ Hp). }
  split; [exact F1|]. split; [exact F2|]. eexists. split; [exact F3|].
  rewrite int_decode_value; [|exact Bb|intros ->; cbn in L; lia|unfold len in L; lia].
  eapply integer_close; [|exact Hp]. apply twos_bound; [unfold len in L; lia|exact Bb].
Qed.
Lemma decimal_bound l : Forall (fun d => d < 10) l -> FloatSpec.decimal l < 10 ^ len l.
Proof.
  induction 1 as [|d l Hd _ IH]; [reflexivity|]. cbn [FloatSpec.decimal]. rewrite len_cons, N.pow_add_r. change (10 ^ 1) with 10. nia.
Qed.
Lemma bcd_close_xml cf head rest hdr h dif vif row n w r powi i id fields :
  header_of cf head rest h dif vif -> primary vif row n -> ~ date_vif vif -> bcd_width (dif mod 16) = Some w ->
  data_record_parse cf (head ++ rest) hdr = Ok r -> record_element (render_variable_record powi i r) = Some (id, fields) ->
  exists body rest', rest = body ++ rest' /\ len body = w /\ all_decimal body /\
    close_number fields row n (IZR (Z.of_N (FloatSpec.decimal (nibbles body)))).
Proof.
  intros Hh Hp Hd Hw Hr E. rewrite record_element_fields in E. injection E as _ <-.
  destruct (bcd_record _ _ _ hdr _ _ _ _ Hh Hd Hw) as [(_ & _ & E)|[(_ & E)|(body & rest' & r' & x & E & L & Er & Eh & Eb & Ev & Ad & _)]];
    rewrite Hr in *; [discriminate E..|]. injection Er as <-.
  assert (Bb : bytes_ok body). { destruct Hh as (B & _). rewrite E, !bytes_ok_app in B. tauto. }
  exists body, rest'. split; [exact E|]. split; [exact L|]. split; [exact Ad|].
  destruct (special_widths dif) as [N1 N2]. { intros K. rewrite K in Hw. discriminate Hw. }
  destruct (real_fields powi vif row n cf head rest h dif r body (bcd_decode body) Hh Hp Eh Eb N1 N2) as (F1 & F2 & F3).
  { eapply bcd_decoded; eassumption. }
  split; [exact F1|]. split; [exact F2|]. eexists. split; [exact F3|].
  rewrite bcd_decode_value by assumption. eapply integer_close; [|exact Hp].
  pose proof (decimal_bound _ Ad) as Bd.
  assert (Ln : len (nibbles body) <= 12).
  { assert (w <= 6). { unfold bcd_width in Hw. destruct (dif mod 16) as [|[[[[]|[]|]|[[]|[]|]|]|[[[]|[]|]|[[]|[]|]|]|]]; inversion Hw; lia. }
    assert (Ln : forall l, len (nibbles l) = 2 * len l).
    { clear. induction l as [|b l IH]; [reflexivity|]. change (nibbles (b :: l)) with (b mod 16 :: b / 16 :: nibbles l). rewrite !len_cons, IH. lia. }
    rewrite Ln. lia. }
  assert (10 ^ len (nibbles body) <= 10 ^ 12) by (apply N.pow_le_mono_r; [discriminate|exact Ln]).
  change (10 ^ 12) with 1000000000000 in *. change (2 ^ 64)%Z with 18446744073709551616%Z. lia.
Qed.

(** *** Real numbers *)
Lemma single_close b row n vif f fields : primary vif row n -> same_number b f ->
  lookup (txt "Unit") fields = Some (vr_xml_unit row) -> lookup (txt "Quantity") fields = Some (vr_xml_quantity row) ->
  lookup (txt "Value") fields = Some (show_f64_6 (f64_mul f (f64_literal (vr_seconds row) (primary_scale row n)))) ->
  close_single fields row n b.
Proof.
  intros Hp S F1 F2 F3. destruct (row_limits _ _ _ Hp) as (R1 & R2 & R3). pose proof (row_lower _ _ _ Hp) as Rl.
  assert (Sg : exists m e' Hb, f64_literal (vr_seconds row) (primary_scale row n) = B2SF (B754_finite false m e' Hb : B64)).
  { destruct (literal_relative (vr_seconds row) (primary_scale row n)) as (c & (bc & Ec & Fc & Rc) & Hc & Hb); [lia..|exact R3|].
    rewrite Ec. assert (P : (0 < c)%R).
    { set (S' := (IZR (vr_seconds row) * powerRZ 10 (primary_scale row n))%R) in *. rewrite (Rabs_right S') in Hc by lra.
      apply Rabs_le_inv in Hc. unfold unit_error in Hc. lra. }
    destruct bc as [s|s| |s m e' Hb']; try discriminate Fc.
    - cbn in Rc. lra.
    - destruct s; [|eauto]. exfalso. cbn [B2R] in Rc. subst c. unfold F2R in P. cbn [Fnum Fexp cond_Zopp] in P.
      pose proof (bpow_gt_0 radix2 e') as Q. assert (IZR (- Z.pos m) < 0)%R by (apply IZR_lt; lia). clear -P Q H. nra. }
  destruct b as [s|s|s pl Hpl|s m e Hb]; cbn [close_single same_number] in *.
  - split; [exact F1|]. split; [exact F2|]. eexists. split; [exact F3|]. unfold in_unit. subst f.
    apply scaled_near with (a := 0%R); try assumption; try lia.
    + exists (B754_zero s). repeat split.
    + rewrite Rminus_0_r, Rabs_R0, Rmult_0_l. apply Rle_refl.
    + now left.
    + rewrite Rabs_R0. apply bpow_ge_0.
  - rewrite F3. subst f. destruct Sg as (m & e' & Hb & ->). destruct s; reflexivity.
  - rewrite F3. subst f. destruct Sg as (m & e' & Hb & ->). reflexivity.
  - destruct S as (S & _). split; [exact F1|]. split; [exact F2|]. eexists. split; [exact F3|]. unfold in_unit.
    set (A := F2R (Float radix2 (cond_Zopp s (Zpos m)) e)) in *.
    assert (V : val f A).
    { destruct S as (S1 & S2 & S3). destruct f as [s'|s'| |s' m' e']; try discriminate S2.
      - exists (B754_zero s'). repeat split. exact S3.
      - exists (B754_finite s' m' e' S1). repeat split. exact S3. }
    assert (Bd : (-149 <= e <= 104 /\ Zpos m < 2 ^ 24)%Z).
    { clear -Hb. unfold SpecFloat.bounded in Hb. apply andb_true_iff in Hb as [Hc He]. apply Z.leb_le in He. split.
      - split; [|exact He]. unfold canonical_mantissa in Hc. apply Zeq_bool_eq in Hc. unfold fexp, SpecFloat.emin in Hc. lia.
      - unfold canonical_mantissa in Hc. apply Zeq_bool_eq in Hc. unfold fexp, SpecFloat.emin in Hc.
        pose proof (digits2_Pnat_correct m) as D.
        assert (Zpos (digits2_pos m) <= 24)%Z by lia.
        rewrite Zpos_digits2_pos in *. apply Zpower_gt_Zdigits with (beta := radix2) (e := 24%Z) in H. cbn in H. exact H. }
    assert (Am : (Rabs A = IZR (Zpos m) * bpow radix2 e)%R).
    { unfold A. rewrite <- F2R_Zabs. unfold F2R. cbn [Fnum Fexp]. f_equal. f_equal. destruct s; reflexivity. }
    apply scaled_near with (a := A); try assumption; try lia.
    + rewrite Rminus_eq_0, Rabs_R0. apply Rmult_le_pos; [apply Rabs_pos|unfold unit_error; lra].
    + right. rewrite Am. apply Rle_trans with (1 * bpow radix2 e)%R; [rewrite Rmult_1_l; apply bpow_le; lia|].
      apply Rmult_le_compat_r; [apply bpow_ge_0|]. apply IZR_le. lia.
    + rewrite Am. apply Rle_trans with (bpow radix2 24 * bpow radix2 e)%R; [|rewrite <- bpow_plus; apply bpow_le; lia].
      apply Rmult_le_compat_r; [apply bpow_ge_0|]. change (bpow radix2 24) with (IZR (2 ^ 24)). apply IZR_le. lia.
Qed.
Lemma real_close_xml cf head rest hdr h dif vif row n r powi i id fields :
  header_of cf head rest h dif vif -> primary vif row n -> ~ date_vif vif -> dif mod 16 = 5 ->
  data_record_parse cf (head ++ rest) hdr = Ok r -> record_element (render_variable_record powi i r) = Some (id, fields) ->
  exists body rest', rest = body ++ rest' /\ len body = 4 /\ close_single fields row n (b32_of_bits (Z.of_N (le_number body))).
Proof.
  intros Hh Hp Hd Hw Hr E. rewrite record_element_fields in E. injection E as _ <-.
  destruct (real_record _ _ _ hdr _ _ _ Hh Hd Hw) as [(_ & E)|(body & rest' & r' & x & E & L & Er & Eh & Eb & Ev & _)];
    rewrite Hr in *; [discriminate E|]. injection Er as <-.
  exists body, rest'. split; [exact E|]. split; [exact L|].
  assert (Bb : bytes_ok body). { destruct Hh as (B & _). rewrite E, !bytes_ok_app in B. tauto. }
  destruct (special_widths dif) as [N1 N2]. { rewrite Hw. discriminate. }
  pose proof (le_number_lt body Bb) as Lt.
  assert (Lt32 : le_number body < 2 ^ 32) by (rewrite L in Lt; exact Lt).
  destruct body as [|b0 [|b1 [|b2 [|b3 [|]]]]]; unfold len in L; cbn [length] in L; try lia.
  destruct (real_fields powi vif row n cf head rest h dif r [b0; b1; b2; b3] (f64_of_f32_bits (le_number [b0; b1; b2; b3])) Hh Hp Eh Eb N1 N2) as (F1 & F2 & F3).
  { unfold variable_value_decode. rewrite land_15, Hw. cbn [N.eqb Pos.eqb]. change (get_to [b0; b1; b2; b3] 4) with (Some [b0; b1; b2; b3]). cbv iota beta.
    assert (El : le_number [b0; b1; b2; b3] = b0 + 256 * b1 + 65536 * b2 + 16777216 * b3) by (cbn [le_number]; lia). now rewrite El. }
  eapply single_close; [exact Hp|apply f32_bits, Lt32|exact F1|exact F2|exact F3].
Qed.
