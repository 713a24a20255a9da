(** Facts about numbers and bytes as text. *)
From Coq Require Import List NArith ZArith Lia Bool String Reals Lra.
From Flocq Require Import Core IEEE754.BinarySingleNaN.
Import ListNotations.
From Verif Require Import Model.Base Model.Text Model.F64 Model.Hex Model.Decimal Model.Show Spec.TextSpec Spec.FloatSpec Spec.CoreSpec
  Proof.BaseFacts Proof.DecimalFacts Proof.ScaledFacts.
Open Scope N_scope.

(** ** Decimal numbers *)
Lemma dec_fuel k : forall f f' n, n < 2 ^ N.of_nat k -> (k < f)%nat -> (k < f')%nat -> dec_loop f n = dec_loop f' n.
Proof.
  induction k as [|k IH]; intros f f' n H Hf Hf'; (destruct f; [lia|]); (destruct f'; [lia|]); cbn [dec_loop].
  - change (2 ^ N.of_nat 0) with 1 in H. assert (n = 0) by lia. subst n. reflexivity.
  - destruct (N.ltb_spec n 10); [reflexivity|]. f_equal. apply IH; [|lia|lia].
    rewrite Nat2N.inj_succ, N.pow_succ_r' in H. apply N.div_lt_upper_bound; lia.
Qed.
Lemma size_bound n : n < 2 ^ N.of_nat (N.to_nat (N.size n)).
Proof. rewrite N2Nat.id. apply N.size_gt. Qed.
Lemma dec_unfold n : dec n = (if n <? 10 then [] else dec (n / 10)) ++ [48 + n mod 10].
Proof.
  unfold dec at 1. cbn [dec_loop]. destruct (N.ltb_spec n 10) as [|H]; [reflexivity|]. f_equal. unfold dec.
  assert (S1 : (1 <= N.to_nat (N.size n))%nat).
  { destruct n; [lia|]. cbn [N.size]. pose proof (Pos2Nat.is_pos (Pos.size p)). lia. }
  apply (dec_fuel (N.to_nat (N.size (n / 10)))); [apply size_bound| |lia].
  pose proof (size_bound n) as Hb.
  assert (n / 10 < 2 ^ N.of_nat (N.to_nat (N.size n) - 1)).
  { apply N.div_lt_upper_bound; [lia|].
    replace (N.to_nat (N.size n)) with (S (N.to_nat (N.size n) - 1)) in Hb by lia.
    rewrite Nat2N.inj_succ, N.pow_succ_r' in Hb. lia. }
  assert (n / 10 <> 0) by (intros E; pose proof (N.div_mod n 10); lia).
  destruct (n / 10) as [|p] eqn:E; [congruence|].
  pose proof (N.size_log2 (N.pos p)). rewrite H2 by discriminate.
  assert (N.log2 (N.pos p) < N.of_nat (N.to_nat (N.size n) - 1)) by (apply N.log2_lt_pow2; lia). lia.
Qed.

Lemma decimal_zero ds : Forall (fun d => d <= 9) ds -> CoreSpec.decimal ds = 0 -> map (fun d => 48 + d) (rev ds) = zeros (length ds).
Proof.
  induction 1 as [|d ds Hd _ IH]; [reflexivity|]. cbn [CoreSpec.decimal]. intros H.
  assert (d = 0) by lia. subst d. cbn [rev length]. rewrite map_app, IH by lia. rewrite zeros_snoc. reflexivity.
Qed.
Lemma dec_pad_digits ds : Forall (fun d => d <= 9) ds -> ds <> [] ->
  dec_pad (length ds) (CoreSpec.decimal ds) = map (fun d => 48 + d) (rev ds).
Proof.
  induction 1 as [|d ds Hd H IH]; intros Hn; [congruence|]. cbn [CoreSpec.decimal length rev]. rewrite map_app. cbn [map].
  unfold dec_pad. rewrite dec_unfold.
  assert (M : (d + 10 * CoreSpec.decimal ds) mod 10 = d) by (rewrite N.mul_comm, N.mod_add, N.mod_small; lia).
  assert (D : (d + 10 * CoreSpec.decimal ds) / 10 = CoreSpec.decimal ds) by (rewrite N.mul_comm, N.div_add, N.div_small; lia).
  rewrite M, D. destruct (N.ltb_spec (d + 10 * CoreSpec.decimal ds) 10) as [L|L].
  - cbn [app length]. rewrite (decimal_zero ds H) by lia. replace (S (length ds) - 1)%nat with (length ds) by lia. reflexivity.
  - assert (ds <> []) by (intros ->; cbn in L; lia). rewrite <- (IH H0). unfold dec_pad.
    rewrite app_length. cbn [length].
    replace (S (length ds) - (length (dec (CoreSpec.decimal ds)) + 1))%nat with (length ds - length (dec (CoreSpec.decimal ds)))%nat by lia.
    rewrite app_assoc. reflexivity.
Qed.
Lemma spells_digits ds : forall bytes, spells ds bytes -> Forall (fun d => d <= 9) ds /\ length ds = (2 * length bytes)%nat.
Proof.
  induction ds as [ds IH] using (well_founded_induction (Wf_nat.well_founded_ltof _ (@length N))).
  destruct ds as [|lo [|hi ds]]; intros [|b bytes] S; try contradiction; [split; [constructor|reflexivity]|].
  destruct S as (L & H & _ & S). destruct (IH ds) with (bytes := bytes) as [F E]; [unfold ltof; cbn; lia|exact S|].
  split; [repeat constructor; assumption|]. cbn [length]. lia.
Qed.

(** the text of a number is its canonical decimal text *)
Lemma dec_text n : Forall digit_char (dec n) /\ dec n <> [] /\ no_leading_zero (dec n) /\ number (dec n) = n.
Proof.
  assert (G : forall k n, n < 2 ^ N.of_nat k -> Forall digit_char (dec n) /\ dec n <> [] /\ no_leading_zero (dec n) /\ number (dec n) = n).
  { clear n. induction k as [|k IH]; intros n H.
    - change (2 ^ N.of_nat 0) with 1 in H. assert (n = 0) by lia. subst n.
      split; [repeat constructor; unfold digit_char; cbn; lia|]. split; [discriminate|].
      split; [|reflexivity]. intros c rest E _. vm_compute in E. injection E as _ <-. reflexivity.
    - rewrite dec_unfold. destruct (N.ltb_spec n 10) as [L|L].
      + cbn [app]. rewrite N.mod_small by lia. split; [repeat constructor; unfold digit_char; lia|]. split; [discriminate|].
        split; [intros c rest E _; injection E as _ <-; reflexivity|]. unfold number. cbn [fold_left]. lia.
      + assert (B : n / 10 < 2 ^ N.of_nat k).
        { rewrite Nat2N.inj_succ, N.pow_succ_r' in H. apply N.div_lt_upper_bound; lia. }
        destruct (IH _ B) as (A1 & A2 & A3 & A4).
        pose proof (N.div_mod n 10) as Dm. pose proof (N.mod_lt n 10) as Ml.
        split; [apply Forall_app; split; [exact A1|repeat constructor; unfold digit_char; lia]|].
        split; [intros E; apply app_eq_nil in E; destruct E; discriminate|].
        split.
        * intros c rest E Ec. destruct (dec (n / 10)) as [|c' l] eqn:El; [congruence|]. cbn [app] in E. injection E as -> <-.
          specialize (A3 c l eq_refl Ec). subst l c. exfalso. unfold number in A4. cbn in A4. lia.
        * unfold number in *. rewrite fold_left_app, A4. cbn [fold_left]. lia. }
  apply (G (N.to_nat (N.size n))). apply size_bound.
Qed.
Lemma dec_Z_text z : integer_text (dec_Z z) z.
Proof.
  unfold dec_Z. destruct (dec_text (Z.abs_N z)) as (A1 & A2 & A3 & A4).
  exists (dec (Z.abs_N z)). split; [exact A2|]. split; [exact A1|]. split; [exact A3|]. rewrite A4.
  destruct (Z.ltb_spec z 0); [right; split; [reflexivity|lia]|left; split; [reflexivity|lia]].
Qed.

(** ** Hexadecimal *)
Lemma hex_string_app a b : hex_string (a ++ b) = hex_string a ++ hex_string b.
Proof. unfold hex_string. apply flat_map_app. Qed.
Lemma hex2_char b c : b < 256 -> In c (hex2 b) -> c <> 32.
Proof.
  intros H. unfold hex2, hex_digit_upper. pose proof (N.mod_lt b 16). assert (b / 16 < 16) by (apply N.div_lt_upper_bound; lia).
  intros [<-|[<-|[]]]; match goal with |- context [?x <? 10] => destruct (x <? 10) end; lia.
Qed.
Lemma hex2_string b : hex2 b = hex_string [b].
Proof. reflexivity. Qed.

(** ** Floating point numbers that are integers *)
Lemma show_f64_integer x z : is_f64 x (IZR z) ->
  integer_text (show_f64_0 x) z \/ (show_f64_0 x = txt "-0" /\ z = 0%Z).
Proof.
  intros (_ & Fi & E). destruct x as [s|s| |s m e]; try discriminate Fi.
  - cbn [SF2R] in E. apply (eq_IZR 0 z) in E. subst z. cbn [show_f64_0].
    destruct s; [right; split; reflexivity|left]. apply (dec_Z_text 0).
  - left. cbn [SF2R] in E.
    assert (K : exists n, show_f64_0 (S754_finite s m e) = (if s then [45] else []) ++ dec n /\ z = cond_Zopp s (Z.of_N n) /\ n <> 0).
    { unfold show_f64_0. destruct (Z.leb_spec 0 e) as [He|He].
      - exists (N.pos m * 2 ^ Z.to_N e). split; [reflexivity|]. split.
        + apply eq_IZR. rewrite <- E, N2Z.inj_mul, N2Z.inj_pow, Z2N.id by exact He. cbn [Z.of_N].
          unfold F2R. cbn [Fnum Fexp]. rewrite <- (IZR_Zpower radix2 e He), <- mult_IZR. f_equal. change (radix_val radix2) with 2%Z.
          destruct s; cbn [cond_Zopp]; [rewrite Z.mul_opp_l with (n := Z.pos m) || idtac|]; reflexivity.
        + assert (2 ^ Z.to_N e <> 0) by (apply N.pow_nonzero; discriminate). lia.
      - assert (Dp : (0 < 2 ^ (- e))%Z) by (apply Z.pow_pos_nonneg; lia).
        assert (Em : cond_Zopp s (Z.pos m) = (z * 2 ^ (- e))%Z).
        { apply eq_IZR. rewrite mult_IZR, <- E. change 2%Z with (radix_val radix2). rewrite IZR_Zpower by lia.
          unfold F2R. cbn [Fnum Fexp]. rewrite Rmult_assoc, <- bpow_plus. replace (e + - e)%Z with 0%Z by lia.
          cbn [bpow]. ring. }
        assert (Ed : Z.of_N (2 ^ Z.to_N (- e)) = (2 ^ (- e))%Z) by (rewrite N2Z.inj_pow, Z2N.id by lia; reflexivity).
        assert (Ea : N.pos m = Z.abs_N z * 2 ^ Z.to_N (- e)).
        { apply N2Z.inj. rewrite N2Z.inj_mul, Ed, N2Z.inj_abs_N. cbn [Z.of_N].
          rewrite <- (Z.abs_eq (2 ^ (- e))) by lia. rewrite <- Z.abs_mul, <- Em. destruct s; reflexivity. }
        assert (Nd : 2 ^ Z.to_N (- e) <> 0) by (apply N.pow_nonzero; discriminate).
        exists (Z.abs_N z).
        assert (Eq : N.pos m / 2 ^ Z.to_N (- e) = Z.abs_N z) by (rewrite Ea, N.div_mul; [reflexivity|exact Nd]).
        assert (Er : N.pos m mod 2 ^ Z.to_N (- e) = 0) by (rewrite Ea, N.mod_mul; [reflexivity|exact Nd]).
        rewrite Eq, Er. destruct (N.ltb_spec (2 * 0) (2 ^ Z.to_N (- e))); [|lia].
        split; [reflexivity|]. assert (Z.abs_N z <> 0) by (intros E0; rewrite E0 in Ea; discriminate Ea).
        split; [|assumption]. rewrite N2Z.inj_abs_N. destruct s; cbn [cond_Zopp] in *.
        * assert (z < 0)%Z by nia. lia.
        * assert (0 < z)%Z by nia. lia. }
    destruct K as (n & -> & -> & Hn). destruct (dec_text n) as (A1 & A2 & A3 & A4).
    exists (dec n). split; [exact A2|]. split; [exact A1|]. split; [exact A3|]. rewrite A4.
    destruct s; cbn [cond_Zopp app]; [right|left]; repeat split; lia.
Qed.
