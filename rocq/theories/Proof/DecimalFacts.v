(** Lemmas about the exact decimal arithmetic. *)
From Coq Require Import Lia ZArith String.
From Verif Require Import Model.Base Model.Text Model.Decimal Spec.TextSpec Proof.BaseFacts Proof.TextFacts.
From Verif Require Spec.FloatSpec.
Notation le_number := FloatSpec.le_number.
Notation twos_complement := FloatSpec.twos_complement.

(** *** Values of digit lists, least significant first *)
Fixpoint dval (ds : list N) : N := match ds with [] => 0 | d :: ds => d + 10 * dval ds end.
Definition cval (s : list N) : N := dval (map (fun c => c - 48) s).
Definition pow10 (n : nat) : N := 10 ^ N.of_nat n.

Lemma pow10_S n : pow10 (S n) = 10 * pow10 n.
Proof. unfold pow10. rewrite Nat2N.inj_succ, N.pow_succ_r'. reflexivity. Qed.
Lemma pow10_pos n : 0 < pow10 n.
Proof. unfold pow10. apply N.neq_0_lt_0, N.pow_nonzero. discriminate. Qed.
Lemma pow10_add a b : pow10 (a + b) = pow10 a * pow10 b.
Proof. unfold pow10. rewrite Nat2N.inj_add. apply N.pow_add_r. Qed.

Lemma dval_app a b : dval (a ++ b) = dval a + pow10 (length a) * dval b.
Proof.
  induction a as [|x a IH]; cbn [app dval length]; [unfold pow10; cbn; lia|].
  rewrite IH, pow10_S. lia.
Qed.

Lemma dval_bound ds : Forall (fun d => d < 10) ds -> dval ds < pow10 (length ds).
Proof.
  induction 1 as [|d ds Hd _ IH]; [reflexivity|]. cbn [dval length]. rewrite pow10_S. lia.
Qed.

Lemma number_snoc s c : number (s ++ [c]) = 10 * number s + (c - 48).
Proof. unfold number. rewrite fold_left_app. reflexivity. Qed.

Lemma number_rev s : number (rev s) = cval s.
Proof. induction s as [|c s IH]; [reflexivity|]. cbn [rev]. rewrite number_snoc, IH. unfold cval; cbn [map dval]. lia. Qed.

Lemma number_cval s : number s = cval (rev s).
Proof. rewrite <- number_rev, rev_involutive. reflexivity. Qed.

Lemma cval_app a b : cval (a ++ b) = cval a + pow10 (length a) * cval b.
Proof. unfold cval. rewrite map_app, dval_app, map_length. reflexivity. Qed.

Lemma number_app a b : number (a ++ b) = number a * pow10 (length b) + number b.
Proof. rewrite !number_cval, rev_app_distr, cval_app, rev_length. lia. Qed.

Lemma cval_cons c s : cval (c :: s) = (c - 48) + 10 * cval s.
Proof. reflexivity. Qed.

Lemma number_cons c s : number (c :: s) = (c - 48) * pow10 (length s) + number s.
Proof. change (c :: s) with ([c] ++ s). rewrite number_app. reflexivity. Qed.

Lemma digits_forall s : Forall digit_char s -> Forall (fun d => d < 10) (map (fun c => c - 48) s).
Proof. induction 1 as [|c s H _ IH]; constructor; [unfold digit_char in H; lia|assumption]. Qed.

Lemma cval_bound s : Forall digit_char s -> cval s < pow10 (length s).
Proof. intros H. unfold cval. pose proof (dval_bound _ (digits_forall _ H)) as B. rewrite map_length in B. exact B. Qed.

Lemma number_bound s : Forall digit_char s -> number s < pow10 (length s).
Proof. intros H. rewrite number_cval. rewrite <- rev_length. apply cval_bound. apply Forall_rev. exact H. Qed.

Lemma zeros_digits n : Forall digit_char (zeros n).
Proof. unfold zeros. induction n; cbn; constructor; [unfold digit_char; lia|assumption]. Qed.

Lemma number_zeros n : number (zeros n) = 0.
Proof. induction n as [|n IH]; [reflexivity|]. unfold zeros in *. cbn [repeat]. rewrite number_cons, IH. cbn; lia. Qed.

Lemma len_zeros n : length (zeros n) = n.
Proof. apply repeat_length. Qed.

Lemma number_app_zeros a n : number (a ++ zeros n) = number a * pow10 n.
Proof. rewrite number_app, number_zeros, len_zeros. lia. Qed.

Lemma number_zero s : Forall digit_char s -> number s = 0 <-> Forall (fun c => c = 48) s.
Proof.
  intros H. split.
  - intros E. induction H as [|c s Hc Hs IH]; [constructor|].
    rewrite number_cons in E. unfold digit_char in Hc. pose proof (pow10_pos (length s)).
    assert (c - 48 = 0) by nia. constructor; [lia|]. apply IH. lia.
  - intros Z. clear H. induction Z as [|c s -> _ IH]; [reflexivity|]. rewrite number_cons, IH. reflexivity.
Qed.

Lemma all_48 s : forallb (N.eqb 48) s = true <-> Forall (fun c => c = 48) s.
Proof.
  rewrite forallb_forall, Forall_forall. split; intros H x Hx; specialize (H x Hx).
  - apply N.eqb_eq in H. congruence.
  - subst x. reflexivity.
Qed.

(** *** signed_le_decimal *)
Definition pow256 (n : nat) : N := 256 ^ N.of_nat n.
Lemma pow256_S n : pow256 (S n) = 256 * pow256 n.
Proof. unfold pow256. rewrite Nat2N.inj_succ, N.pow_succ_r'. reflexivity. Qed.
Lemma pow256_pos n : 0 < pow256 n.
Proof. unfold pow256. apply N.neq_0_lt_0, N.pow_nonzero. discriminate. Qed.

Lemma le_number_bound l : bytes_ok l -> le_number l < pow256 (length l).
Proof.
  induction 1 as [|b l Hb _ IH]; [reflexivity|]. unfold byte_ok in Hb.
  cbn [FloatSpec.le_number length]. rewrite pow256_S. lia.
Qed.

Lemma le_number_app a b : le_number (a ++ b) = le_number a + pow256 (length a) * le_number b.
Proof.
  induction a as [|x a IH]; cbn [app FloatSpec.le_number length]; [unfold pow256; cbn; lia|].
  rewrite IH, pow256_S. lia.
Qed.

Lemma add_carry_ok v : bytes_ok v -> forall c, c <= 1 -> le_number v + c < pow256 (length v) ->
  le_number (add_carry v c) = le_number v + c /\ bytes_ok (add_carry v c).
Proof.
  induction 1 as [|b v Hb Hv IH]; intros c Hc Hlt.
  - cbn in *. unfold pow256 in Hlt. cbn in Hlt. split; [lia|constructor].
  - unfold byte_ok in Hb. cbn [add_carry FloatSpec.le_number length] in *. rewrite pow256_S in Hlt.
    rewrite N.shiftr_div_pow2. change (2 ^ 8) with 256.
    destruct (N.eqb_spec ((b + c) / 256) 0) as [E|E].
    + assert (b + c < 256) by (apply N.div_small_iff in E; [exact E|discriminate]).
      rewrite N.mod_small by assumption. split; [lia|]. constructor; [exact H|assumption].
    + assert (b + c = 256).
      { destruct (N.lt_ge_cases (b + c) 256) as [L|L]; [exfalso; apply E; apply N.div_small; exact L|lia]. }
      rewrite H. change (256 mod 256) with 0. change (256 / 256) with 1.
      destruct (IH 1 (N.le_refl _)) as [IH1 IH2]; [lia|]. split; [lia|].
      constructor; [reflexivity|assumption].
Qed.

Lemma complement_ok l : bytes_ok l -> le_number (map (fun b => 255 - b) l) + le_number l + 1 = pow256 (length l)
  /\ bytes_ok (map (fun b => 255 - b) l).
Proof.
  induction 1 as [|b l Hb Hl [IH1 IH2]]; [split; [reflexivity|constructor]|].
  unfold byte_ok in Hb. cbn [map FloatSpec.le_number length]. rewrite pow256_S. split; [lia|].
  constructor; [unfold byte_ok; lia|exact IH2].
Qed.

Lemma times256_ok ds : Forall (fun d => d < 10) ds -> forall c, c < 256 ->
  let '(rest, c') := times256 ds c in
  dval rest + pow10 (length ds) * c' = 256 * dval ds + c /\ length rest = length ds /\
  Forall (fun d => d < 10) rest /\ c' < 256.
Proof.
  induction 1 as [|d ds Hd _ IH]; intros c Hc; cbn [times256].
  - cbn. unfold pow10; cbn. repeat split; try lia. constructor.
  - assert (Hq : (d * 256 + c) / 10 < 256) by (apply N.div_lt_upper_bound; lia).
    specialize (IH _ Hq). destruct (times256 ds ((d * 256 + c) / 10)) as [rest c'].
    destruct IH as (E & L & F & B). cbn [dval length]. rewrite pow10_S, L.
    pose proof (N.div_mod (d * 256 + c) 10 ltac:(discriminate)) as DM.
    pose proof (N.mod_lt (d * 256 + c) 10 ltac:(discriminate)) as ML.
    repeat split; try assumption; [|constructor; assumption]. nia.
Qed.

Lemma push_carry_ok c : c < 256 -> dval (push_carry 6 c) = c /\ Forall (fun d => d < 10) (push_carry 6 c).
Proof.
  intros H.
  assert (A : (fun c => dval (push_carry 6 c) =? c) c = true).
  { revert c H. apply sweep256. vm_compute. reflexivity. }
  assert (B : (fun c => forallb (fun d => d <? 10) (push_carry 6 c)) c = true).
  { revert c H A. intros c H _. revert c H. apply sweep256. vm_compute. reflexivity. }
  cbn beta in A, B. apply N.eqb_eq in A. split; [exact A|].
  apply Forall_forall. intros d Hd. rewrite forallb_forall in B. apply N.ltb_lt. auto.
Qed.

Lemma digit_round_ok ds b : Forall (fun d => d < 10) ds -> ds <> [] -> b < 256 ->
  dval (digit_round ds b) = 256 * dval ds + b /\ Forall (fun d => d < 10) (digit_round ds b) /\ digit_round ds b <> [].
Proof.
  intros F Hne Hb. unfold digit_round. pose proof (times256_ok ds F b Hb) as T.
  destruct (times256 ds b) as [rest c]. destruct T as (E & L & Fr & Bc).
  destruct (push_carry_ok c Bc) as [P1 P2]. rewrite dval_app, P1, L. repeat split; [exact E| |].
  - apply Forall_app. split; assumption.
  - destruct rest; [destruct ds; [congruence|discriminate]|discriminate].
Qed.

Lemma digits_fold m : bytes_ok m -> forall ds, Forall (fun d => d < 10) ds -> ds <> [] ->
  let out := fold_left digit_round (rev m) ds in
  dval out = le_number m + pow256 (length m) * dval ds /\ Forall (fun d => d < 10) out /\ out <> [].
Proof.
  induction 1 as [|b m Hb Hm IH]; intros ds F Hne; cbv zeta.
  - cbn [rev fold_left FloatSpec.le_number length]. unfold pow256; cbn. repeat split; try assumption. lia.
  - cbn [rev]. rewrite fold_left_app. cbn [fold_left FloatSpec.le_number length]. rewrite pow256_S.
    destruct (IH ds F Hne) as (E & F' & Hne').
    destruct (digit_round_ok _ b F' Hne' Hb) as (E2 & F2 & N2). rewrite E2, E. repeat split; try assumption. lia.
Qed.

Lemma drop_zeros_ok ds : ds <> [] ->
  (forall m, Forall (fun d => d < 10) ds -> number (map (fun d => 48 + d) (m ++ ds)) = number (map (fun d => 48 + d) (m ++ ds))) ->
  exists k, ds = repeat 0 k ++ drop_leading_zeros ds /\ drop_leading_zeros ds <> [] /\
    (forall rest, drop_leading_zeros ds = 0 :: rest -> rest = []).
Proof.
  intros Hne _. induction ds as [|d ds IH]; [congruence|].
  destruct (N.eq_dec d 0) as [->|Hd].
  - destruct ds as [|e ds].
    + exists O. cbn. repeat split; [discriminate|]. intros rest H; inversion H; reflexivity.
    + destruct (IH ltac:(discriminate)) as (k & E & N1 & N2). exists (S k).
      change (drop_leading_zeros (0 :: e :: ds)) with (drop_leading_zeros (e :: ds)).
      split; [cbn [repeat app]; f_equal; exact E|]. auto.
  - exists O. assert (E : drop_leading_zeros (d :: ds) = d :: ds) by (destruct d; [congruence|reflexivity]).
    rewrite E. repeat split; [discriminate|]. intros rest H. inversion H; congruence.
Qed.

Lemma number_digits ds : number (map (fun d => 48 + d) ds) = dval (rev ds).
Proof.
  rewrite number_cval. unfold cval. rewrite map_rev, map_map.
  f_equal. f_equal. rewrite <- (map_id ds) at 2. apply map_ext. intros a. lia.
Qed.

Lemma dval_rev_zeros k ds : dval (rev (repeat 0 k ++ ds)) = dval (rev ds).
Proof.
  rewrite rev_app_distr, dval_app.
  assert (Z : forall k, dval (rev (repeat 0 k)) = 0).
  { clear. intros k. induction k as [|k IH]; [reflexivity|]. cbn [repeat rev]. rewrite dval_app, IH. cbn. lia. }
  rewrite Z. lia.
Qed.

Lemma digit_chars ds : Forall (fun d => d < 10) ds -> Forall digit_char (map (fun d => 48 + d) ds).
Proof. induction 1; constructor; [unfold digit_char; lia|assumption]. Qed.

Lemma text_digits ds : Forall (fun d => d < 10) ds -> ds <> [] ->
  let value := map (fun d => 48 + d) (drop_leading_zeros (rev ds)) in
  value <> [] /\ Forall digit_char value /\ no_leading_zero value /\ number value = dval ds.
Proof.
  intros F Hne. cbv zeta.
  assert (Hr : rev ds <> []) by (intros E; apply (f_equal (@rev N)) in E; rewrite rev_involutive in E; cbn in E; congruence).
  destruct (drop_zeros_ok (rev ds) Hr ltac:(reflexivity)) as (k & E & N1 & N2).
  assert (Fd : Forall (fun d => d < 10) (drop_leading_zeros (rev ds))).
  { apply Forall_rev in F. rewrite E in F. apply Forall_app in F. tauto. }
  repeat split.
  - destruct (drop_leading_zeros (rev ds)); [congruence|discriminate].
  - apply digit_chars. exact Fd.
  - intros c rest Hc Hz. destruct (drop_leading_zeros (rev ds)) as [|d r] eqn:Ed; [discriminate|].
    cbn [map] in Hc. inversion Hc; subst. assert (d = 0) by lia. subst d.
    rewrite (N2 r eq_refl). reflexivity.
  - rewrite number_digits. rewrite <- (dval_rev_zeros k), <- E, rev_involutive. reflexivity.
Qed.

Lemma high_bit l : bytes_ok l -> forall b m, l = m ++ [b] ->
  negb (N.land b 0x80 =? 0) = negb (2 * Z.of_N (le_number l) <? 2 ^ (8 * Z.of_nat (length l)))%Z.
Proof.
  intros H b m ->. apply bytes_ok_app in H. destruct H as [Hm Hb]. inversion Hb; subst. unfold byte_ok in *.
  f_equal. rewrite le_number_app. cbn [FloatSpec.le_number]. rewrite N.mul_0_r, N.add_0_r.
  pose proof (le_number_bound m Hm) as B.
  assert (A : (N.land b 128 =? 0) = (b <? 128)).
  { revert b H1 Hb. assert (S : forall b, b < 256 -> (fun b => eqb (N.land b 128 =? 0) (b <? 128)) b = true).
    { apply sweep256. vm_compute. reflexivity. }
    intros b Hlt _. apply eqb_prop. exact (S b Hlt). }
  rewrite A. clear A.
  rewrite app_length. cbn [length]. rewrite Nat.add_1_r.
  assert (P : (2 ^ (8 * Z.of_nat (S (length m))) = 256 * Z.of_N (pow256 (length m)))%Z).
  { unfold pow256. rewrite N2Z.inj_pow, nat_N_Z. change (Z.of_N 256) with (2 ^ 8)%Z.
    rewrite <- Z.pow_mul_r by lia. change 256%Z with (2 ^ 8)%Z.
    rewrite <- Z.pow_add_r by lia. f_equal. lia. }
  rewrite P. pose proof (pow256_pos (length m)).
  destruct (N.ltb_spec b 128); symmetry; [apply Z.ltb_lt|apply Z.ltb_ge]; nia.
Qed.

Lemma pow256_Z n : Z.of_N (pow256 n) = (2 ^ (8 * Z.of_nat n))%Z.
Proof.
  unfold pow256. rewrite N2Z.inj_pow, nat_N_Z. change (Z.of_N 256) with (2 ^ 8)%Z.
  rewrite <- Z.pow_mul_r by lia. reflexivity.
Qed.

Lemma text_eqb_neq a b : text_eqb a b = false <-> a <> b.
Proof. rewrite <- text_eqb_ok. destruct (text_eqb a b); split; congruence. Qed.

Lemma signed_le_decimal_ok data : bytes_ok data -> data <> [] ->
  exists s, signed_le_decimal data = Some s /\ integer_text s (twos_complement data).
Proof.
  intros Hb Hne. destruct (list_snoc data) as [->|(m & b & Ed)]; [congruence|].
  unfold signed_le_decimal. rewrite Ed, last_opt_snoc, <- Ed.
  pose proof (high_bit data Hb b m Ed) as Hneg. rewrite Hneg. clear Hneg.
  unfold FloatSpec.twos_complement.
  destruct (2 * Z.of_N (le_number data) <? 2 ^ (8 * Z.of_nat (length data)))%Z eqn:Sg; cbn [negb].
  - cbv zeta. cbn [andb]. eexists; split; [reflexivity|].
    destruct (digits_fold data Hb [0] ltac:(repeat constructor) ltac:(discriminate)) as (E & F & N0).
    destruct (text_digits _ F N0) as (T1 & T2 & T3 & T4).
    eexists; split; [exact T1|]. split; [exact T2|]. split; [exact T3|]. left. split; [reflexivity|].
    rewrite T4, E. cbn [dval]. f_equal. lia.
  - cbv zeta. apply Z.ltb_ge in Sg. rewrite <- pow256_Z in *.
    destruct (complement_ok data Hb) as (C1 & C2).
    destruct (add_carry_ok _ C2 1 (N.le_refl _)) as (A1 & A2).
    { rewrite map_length. pose proof (pow256_pos (length data)). lia. }
    destruct (digits_fold _ A2 [0] ltac:(repeat constructor) ltac:(discriminate)) as (E & F & N0).
    destruct (text_digits _ F N0) as (T1 & T2 & T3 & T4).
    set (value := map (fun d => 48 + d) _) in *.
    assert (V : Z.of_N (number value) = (Z.of_N (pow256 (length data)) - Z.of_N (le_number data))%Z).
    { rewrite T4, E, A1. cbn [dval]. lia. }
    pose proof (le_number_bound data Hb) as B.
    assert (Hnz : number value <> 0) by lia.
    assert (Hv : text_eqb value (txt "0") = false).
    { apply text_eqb_neq. intros Ev. rewrite Ev in Hnz. apply Hnz. reflexivity. }
    rewrite Hv. cbn [negb andb]. eexists; split; [reflexivity|].
    exists value. split; [exact T1|]. split; [exact T2|]. split; [exact T3|]. right. split; [reflexivity|]. split; lia.
Qed.

Lemma signed_le_decimal_none data : signed_le_decimal data = None <-> data = [].
Proof.
  split; [|intros ->; reflexivity]. intros H. destruct (list_snoc data) as [->|(m & b & ->)]; [reflexivity|].
  unfold signed_le_decimal in H. rewrite last_opt_snoc in H. discriminate.
Qed.
