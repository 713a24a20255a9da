(** The executable floats of the model, by way of Flocq. *)
From Coq Require Import Reals Psatz.
From Flocq Require Import Core IEEE754.BinarySingleNaN.
From Verif Require Import Proof.BaseFacts Model.F64 Spec.FloatSpec.

#[local] Instance prec_gt_0_53 : Prec_gt_0 53. Proof. reflexivity. Qed.
#[local] Instance prec_lt_emax_53 : Prec_lt_emax 53 1024. Proof. reflexivity. Qed.

Notation B64 := (binary_float 53 1024).

Lemma round_nearest_even_equiv s m l :
  SpecFloat.round_nearest_even m l = choice_mode mode_NE s m l.
Proof.
  destruct l as [|c]; [reflexivity|]. destruct c; [|reflexivity..].
  simpl; unfold Round.cond_incr; destruct (Z.even m); reflexivity.
Qed.

Lemma binary_round_aux_equiv sx mx ex lx :
  SpecFloat.binary_round_aux 53 1024 sx mx ex lx = BinarySingleNaN.binary_round_aux 53 1024 mode_NE sx mx ex lx.
Proof.
  unfold SpecFloat.binary_round_aux, BinarySingleNaN.binary_round_aux.
  set (q := SpecFloat.shr_fexp _ _ _ _ _). destruct q as [mrs e]; simpl.
  rewrite (round_nearest_even_equiv sx). reflexivity.
Qed.

Lemma binary_round_equiv s m e :
  SpecFloat.binary_round 53 1024 s m e = BinarySingleNaN.binary_round 53 1024 mode_NE s m e.
Proof.
  unfold SpecFloat.binary_round, BinarySingleNaN.binary_round, shl_align_fexp.
  set (q := SpecFloat.shl_align _ _ _). destruct q as [mz ez]. apply binary_round_aux_equiv.
Qed.

Lemma binary_normalize_equiv m e z :
  SpecFloat.binary_normalize 53 1024 m e z
  = B2SF (BinarySingleNaN.binary_normalize 53 1024 _ _ mode_NE m e z).
Proof.
  destruct m as [|p|p]; [reflexivity|..]; simpl; rewrite B2SF_SF2B; apply binary_round_equiv.
Qed.

Lemma mul_equiv (x y : B64) : f64_mul (B2SF x) (B2SF y) = B2SF (Bmult mode_NE x y).
Proof.
  destruct x as [sx|sx| |sx mx ex Bx], y as [sy|sy| |sy my ey By]; try reflexivity.
  simpl. rewrite B2SF_SF2B. apply binary_round_aux_equiv.
Qed.

Lemma add_equiv (x y : B64) : f64_add (B2SF x) (B2SF y) = B2SF (Bplus mode_NE x y).
Proof.
  destruct x as [sx|sx| |sx mx ex Bx], y as [sy|sy| |sy my ey By];
    try reflexivity; try (simpl; destruct (Bool.eqb sx sy); reflexivity).
  apply binary_normalize_equiv.
Qed.

(** a finite f64 with value [r] *)
Definition val (x : f64) (r : R) : Prop :=
  exists b : B64, x = B2SF b /\ is_finite b = true /\ B2R b = r.

Lemma val_is_f64 x r : val x r -> is_f64 x r.
Proof.
  intros (b & -> & Hf & Hr). repeat split.
  - apply valid_binary_B2SF.
  - rewrite is_finite_SF_B2SF; assumption.
  - rewrite SF2R_B2SF; assumption.
Qed.

Notation fe := (SpecFloat.fexp 53 1024).

#[local] Instance valid_fe : Valid_exp fe. Proof. exact (FLT_exp_valid (-1074) 53). Qed.

Lemma fexp_FLT e : fe e = FLT_exp (-1074) 53 e.
Proof. reflexivity. Qed.

Lemma nearest_fexp r : round radix2 fe (round_mode mode_NE) r = nearest r.
Proof. reflexivity. Qed.

Lemma int_format z : (Z.abs z <= 2 ^ 53)%Z -> generic_format radix2 fe (IZR z).
Proof.
  intros H. destruct (Z.eq_dec (Z.abs z) (2 ^ 53)) as [E|E].
  - assert (z = 2 ^ 53 \/ z = - (2 ^ 53))%Z as [-> | ->] by lia.
    + change (IZR (2 ^ 53)) with (IZR (Zpower radix2 53)). rewrite IZR_Zpower by lia.
      apply generic_format_bpow. vm_compute; discriminate.
    + rewrite opp_IZR. apply generic_format_opp.
      change (IZR (2 ^ 53)) with (IZR (Zpower radix2 53)). rewrite IZR_Zpower by lia.
      apply generic_format_bpow. vm_compute; discriminate.
  - assert (H' : (Z.abs z < 2 ^ 53)%Z) by lia.
    apply generic_format_FLT. apply FLT_spec with (Float radix2 z 0).
    + unfold F2R; simpl; ring.
    + exact H'.
    + discriminate.
Qed.

Lemma nearest_int z : (Z.abs z <= 2 ^ 53)%Z -> nearest (IZR z) = IZR z.
Proof.
  intros H. rewrite <- nearest_fexp. apply round_generic; [auto with typeclass_instances|].
  apply int_format; assumption.
Qed.

Lemma small_lt_emax z : (Z.abs z <= 2 ^ 64)%Z ->
  Rlt_bool (Rabs (round radix2 fe (round_mode mode_NE) (IZR z))) (bpow radix2 1024) = true.
Proof.
  intros H. apply Rlt_bool_true.
  apply Rle_lt_trans with (bpow radix2 64); [|apply bpow_lt; lia].
  apply abs_round_le_generic; [auto with typeclass_instances..| |].
  - apply generic_format_bpow. vm_compute; discriminate.
  - rewrite <- abs_IZR. change (bpow radix2 64) with (IZR (2 ^ 64)). apply IZR_le; assumption.
Qed.

Lemma f64_of_Z_val z : (Z.abs z <= 2 ^ 64)%Z -> val (f64_of_Z z) (nearest (IZR z)).
Proof.
  intros H. unfold f64_of_Z. rewrite binary_normalize_equiv.
  eexists; split; [reflexivity|].
  pose proof (binary_normalize_correct 53 1024 _ _ mode_NE z 0 false) as C. cbv zeta in C.
  assert (E : F2R (Float radix2 z 0) = IZR z) by (unfold F2R; simpl; ring).
  rewrite E in C. rewrite small_lt_emax in C by assumption. destruct C as (C1 & C2 & _).
  split; [assumption|]. rewrite C1. apply nearest_fexp.
Qed.

Lemma f64_of_Z_exact z : (Z.abs z <= 2 ^ 53)%Z -> val (f64_of_Z z) (IZR z).
Proof. intros H. rewrite <- (nearest_int z H). apply f64_of_Z_val. lia. Qed.

Lemma add_exact x y a b :
  val x (IZR a) -> val y (IZR b) -> (Z.abs (a + b) <= 2 ^ 53)%Z -> val (f64_add x y) (IZR (a + b)).
Proof.
  intros (bx & -> & Fx & Rx) (by_ & -> & Fy & Ry) H. rewrite add_equiv.
  eexists; split; [reflexivity|].
  pose proof (Bplus_correct 53 1024 _ _ mode_NE bx by_ Fx Fy) as C.
  rewrite Rx, Ry, <- plus_IZR in C. rewrite small_lt_emax in C by lia.
  destruct C as (C1 & C2 & _). split; [assumption|].
  rewrite C1. change (nearest (IZR (a + b)) = IZR (a + b)). apply nearest_int; assumption.
Qed.

Lemma mul_exact x y a b :
  val x (IZR a) -> val y (IZR b) -> (Z.abs (a * b) <= 2 ^ 53)%Z -> val (f64_mul x y) (IZR (a * b)).
Proof.
  intros (bx & -> & Fx & Rx) (by_ & -> & Fy & Ry) H. rewrite mul_equiv.
  eexists; split; [reflexivity|].
  pose proof (Bmult_correct 53 1024 _ _ mode_NE bx by_) as C.
  rewrite Rx, Ry, <- mult_IZR in C. rewrite small_lt_emax in C by lia.
  destruct C as (C1 & C2 & _). split; [rewrite C2, Fx, Fy; reflexivity|].
  rewrite C1. change (nearest (IZR (a * b)) = IZR (a * b)). apply nearest_int; assumption.
Qed.
