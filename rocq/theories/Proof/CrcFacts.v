(** The CRC computed by the code is the polynomial remainder; burst detection. *)
From Verif Require Import Proof.BaseFacts Model.Wireless Spec.CrcSpec.

Lemma sweep16 (P : N -> bool) :
  forallb (fun h => forallb (fun l => P (256 * h + l)) (below 256)) (below 256) = true ->
  forall x, x < 65536 -> P x = true.
Proof.
  intros H x Hx. rewrite forallb_forall in H.
  assert (Hh : x / 256 < 256) by lia. assert (Hl : x mod 256 < 256) by lia.
  specialize (H (x / 256) (in_below 256 _ Hh)). rewrite forallb_forall in H.
  specialize (H (x mod 256) (in_below 256 _ Hl)).
  replace (256 * (x / 256) + x mod 256) with x in H by lia. exact H.
Qed.

Ltac xor_bits :=
  apply N.bits_inj; let n := fresh in intros n; rewrite ?N.lxor_spec;
  repeat match goal with |- context [N.testbit ?x n] => destruct (N.testbit x n) end; reflexivity.

Lemma crc_bit_div s : s < 65536 ->
  2 * s = N.lxor (if N.testbit s 15 then crc_poly else 0) (crc_bit s) /\ crc_bit s < 65536.
Proof.
  intros Hs.
  assert (H := sweep16 (fun s => (2 * s =? N.lxor (if N.testbit s 15 then crc_poly else 0) (crc_bit s))
                           && (crc_bit s <? 65536)) ltac:(vm_compute; reflexivity) s Hs).
  cbn beta in H. apply andb_prop in H as [H1 H2]. apply N.eqb_eq in H1. apply N.ltb_lt in H2. auto.
Qed.

Lemma double_lxor a b : 2 * N.lxor a b = N.lxor (2 * a) (2 * b).
Proof. rewrite <- !N.double_spec. destruct a, b; cbn; try reflexivity. Qed.

(** one division step *)
Lemma div_step v q s : s < 65536 -> v = N.lxor (gf2_mul q crc_poly) s ->
  exists q', 2 * v = N.lxor (gf2_mul q' crc_poly) (crc_bit s) /\ crc_bit s < 65536.
Proof.
  intros Hs ->. destruct (crc_bit_div s Hs) as [H1 H2].
  exists (N.testbit s 15 :: q). split; [|assumption].
  rewrite double_lxor, H1. cbn [gf2_mul].
  rewrite <- !N.lxor_assoc. f_equal. apply N.lxor_comm.
Qed.

Lemma lxor_lt16 a b : a < 65536 -> b < 65536 -> N.lxor a b < 65536.
Proof.
  intros Ha Hb. destruct (N.eq_0_gt_0_cases (N.lxor a b)) as [->|Hp]; [lia|].
  change 65536 with (2 ^ 16) in *. apply N.log2_lt_pow2; [assumption|].
  pose proof (N.log2_lxor a b) as Hl.
  destruct (N.eq_0_gt_0_cases a) as [->|Ha0].
  { rewrite N.lxor_0_l in *. apply N.log2_lt_pow2; assumption. }
  destruct (N.eq_0_gt_0_cases b) as [->|Hb0].
  { rewrite N.lxor_0_r in *. apply N.log2_lt_pow2; assumption. }
  apply N.log2_lt_pow2 in Ha; [|assumption]. apply N.log2_lt_pow2 in Hb; [|assumption]. lia.
Qed.

Lemma lxor_disjoint_add a b k : b < 2 ^ k -> N.lxor (a * 2 ^ k) b = a * 2 ^ k + b.
Proof.
  intros Hb. symmetry. rewrite N.add_nocarry_lxor; [reflexivity|].
  apply N.bits_inj_0. intros n. rewrite N.land_spec.
  destruct (N.lt_ge_cases n k) as [Hn|Hn].
  - rewrite N.mul_pow2_bits_low by assumption. reflexivity.
  - replace (N.testbit b n) with false; [apply andb_false_r|].
    symmetry. destruct (N.eq_0_gt_0_cases b) as [->|H0]; [apply N.bits_0|].
    apply N.bits_above_log2. apply N.log2_lt_pow2 in Hb; [lia|assumption].
Qed.

Lemma crc_byte_div v q s b : s < 65536 -> b < 256 -> v = N.lxor (gf2_mul q crc_poly) s ->
  exists q', N.lxor (256 * v) (256 * (256 * b)) = N.lxor (gf2_mul q' crc_poly) (crc_byte s b)
             /\ crc_byte s b < 65536.
Proof.
  intros Hs Hb Hv. unfold crc_byte. cbv zeta.
  rewrite N.shiftl_mul_pow2. change (2 ^ 8) with 256. rewrite (N.mul_comm b 256).
  set (t := 256 * b) in *.
  assert (Ht : t < 65536) by (unfold t; lia).
  assert (H0 : N.lxor v t = N.lxor (gf2_mul q crc_poly) (N.lxor s t)).
  { rewrite Hv. apply N.lxor_assoc. }
  assert (Hst : N.lxor s t < 65536) by (apply lxor_lt16; assumption).
  destruct (div_step _ _ _ Hst H0) as (q1 & E1 & L1).
  destruct (div_step _ _ _ L1 E1) as (q2 & E2 & L2).
  destruct (div_step _ _ _ L2 E2) as (q3 & E3 & L3).
  destruct (div_step _ _ _ L3 E3) as (q4 & E4 & L4).
  destruct (div_step _ _ _ L4 E4) as (q5 & E5 & L5).
  destruct (div_step _ _ _ L5 E5) as (q6 & E6 & L6).
  destruct (div_step _ _ _ L6 E6) as (q7 & E7 & L7).
  destruct (div_step _ _ _ L7 E7) as (q8 & E8 & L8).
  exists q8. split; [|assumption]. rewrite <- E8. rewrite !double_lxor.
  f_equal; lia.
Qed.

Lemma message_poly_snoc l b : message_poly (l ++ [b]) = 256 * message_poly l + b.
Proof. unfold message_poly. rewrite fold_left_app. reflexivity. Qed.

Lemma crc_state data : bytes_ok data ->
  exists q, message_poly data * 2 ^ 16 = N.lxor (gf2_mul q crc_poly) (fold_left crc_byte data 0)
            /\ fold_left crc_byte data 0 < 65536.
Proof.
  induction data as [|b l IH] using rev_ind; intros Hok.
  - exists []. split; reflexivity.
  - apply bytes_ok_app in Hok as [Hl Hb]. apply bytes_ok_cons in Hb as [Hb _].
    destruct (IH Hl) as (q & Hq & Hs).
    destruct (crc_byte_div _ _ _ _ Hs Hb Hq) as (q' & Hq' & Hs').
    rewrite fold_left_app. cbn [fold_left]. exists q'. split; [|assumption].
    rewrite <- Hq'. rewrite message_poly_snoc.
    replace (256 * (message_poly l * 2 ^ 16)) with (message_poly l * 2 ^ 24) by lia.
    rewrite lxor_disjoint_add; change (2 ^ 16) with 65536; change (2 ^ 24) with 16777216; lia.
Qed.

Lemma lxor_cancel_r a b : N.lxor (N.lxor a b) b = a.
Proof. rewrite N.lxor_assoc, N.lxor_nilpotent, N.lxor_0_r. reflexivity. Qed.

Lemma crc_is_crc data : bytes_ok data -> is_crc data (crc16_en13757 data).
Proof.
  intros Hok. destruct (crc_state data Hok) as (q & Hq & Hs).
  unfold crc16_en13757. split; [apply lxor_lt16; [assumption|reflexivity]|].
  exists q. rewrite lxor_cancel_r. assumption.
Qed.

(** ** uniqueness of the remainder *)
Lemma gf2_xor p q : forall q', exists q'', gf2_mul q'' p = N.lxor (gf2_mul q p) (gf2_mul q' p).
Proof.
  induction q as [|b q IH]; intros q'.
  - exists q'. reflexivity.
  - destruct q' as [|b' q'].
    + exists (b :: q). cbn [gf2_mul]. rewrite N.lxor_0_r. reflexivity.
    + destruct (IH q') as (q'' & E). exists (xorb b b' :: q''). cbn [gf2_mul].
      rewrite E, double_lxor.
      set (u := 2 * gf2_mul q p). set (w := 2 * gf2_mul q' p).
      replace (N.lxor (N.lxor (if b then p else 0) u) (N.lxor (if b' then p else 0) w))
        with (N.lxor (N.lxor (if b then p else 0) (if b' then p else 0)) (N.lxor u w)).
      * f_equal. destruct b, b'; cbn [xorb];
          rewrite ?N.lxor_nilpotent, ?N.lxor_0_r, ?N.lxor_0_l; reflexivity.
      * rewrite !N.lxor_assoc. f_equal. rewrite <- !N.lxor_assoc. f_equal. apply N.lxor_comm.
Qed.

Lemma log2_lxor_lt a b : N.log2 a < N.log2 b -> N.log2 (N.lxor a b) = N.log2 b.
Proof.
  intros H. apply N.log2_bits_unique.
  - rewrite N.lxor_spec, (N.bits_above_log2 a) by assumption.
    rewrite N.bit_log2 by (intros ->; cbn in H; lia). reflexivity.
  - intros m Hm. rewrite N.lxor_spec, !N.bits_above_log2 by lia. reflexivity.
Qed.

Lemma gf2_degree q : gf2_mul q crc_poly = 0 \/ 16 <= N.log2 (gf2_mul q crc_poly).
Proof.
  induction q as [|b q [IH|IH]]; cbn [gf2_mul].
  - left; reflexivity.
  - rewrite IH. destruct b; [right; vm_compute; discriminate|left; reflexivity].
  - right. set (r := gf2_mul q crc_poly) in *.
    assert (Hr : N.log2 (2 * r) = N.log2 r + 1).
    { rewrite N.log2_double; [lia|]. destruct (N.eq_0_gt_0_cases r) as [E|E]; [rewrite E in IH; cbn in IH; lia|assumption]. }
    rewrite log2_lxor_lt; [lia|]. rewrite Hr. destruct b.
    + change (N.log2 crc_poly) with 16. lia.
    + change (N.log2 0) with 0. lia.
Qed.

Lemma gf2_small q : gf2_mul q crc_poly < 65536 -> gf2_mul q crc_poly = 0.
Proof.
  intros H. destruct (gf2_degree q) as [E|E]; [assumption|].
  destruct (N.eq_0_gt_0_cases (gf2_mul q crc_poly)) as [E0|E0]; [assumption|].
  change 65536 with (2 ^ 16) in H. apply N.log2_lt_pow2 in H; [|assumption]. lia.
Qed.

Lemma is_crc_unique data c c' : is_crc data c -> is_crc data c' -> c = c'.
Proof.
  intros [Hc [q Hq]] [Hc' [q' Hq']]. change (2 ^ 16) with 65536 in Hc, Hc'.
  destruct (gf2_xor crc_poly q q') as (q'' & E).
  assert (H : gf2_mul q'' crc_poly = N.lxor c c').
  { rewrite E. rewrite Hq in Hq'.
    apply (f_equal (N.lxor (N.lxor c 0xFFFF))) in Hq'.
    rewrite (N.lxor_comm (gf2_mul q crc_poly)) in Hq'.
    rewrite <- N.lxor_assoc, N.lxor_nilpotent, N.lxor_0_l in Hq'. rewrite Hq'.
    set (g := gf2_mul q' crc_poly).
    rewrite (N.lxor_comm g). rewrite <- (N.lxor_assoc (N.lxor c 0xFFFF)).
    rewrite lxor_cancel_r. rewrite N.lxor_assoc. f_equal.
    rewrite (N.lxor_comm c' 0xFFFF), <- N.lxor_assoc, N.lxor_nilpotent. apply N.lxor_0_l. }
  assert (Hz : N.lxor c c' = 0).
  { rewrite <- H. apply gf2_small. rewrite H. apply lxor_lt16; assumption. }
  apply N.lxor_eq in Hz. assumption.
Qed.

Lemma crc_iff data c : bytes_ok data -> c = crc16_en13757 data <-> is_crc data c.
Proof.
  intros Hok. split; [intros ->; apply crc_is_crc; assumption|].
  intros H. exact (is_crc_unique _ _ _ H (crc_is_crc _ Hok)).
Qed.

(** ** bursts *)
Lemma gf2_div_x q k : forall d, gf2_mul q crc_poly = d * 2 ^ N.of_nat k ->
  exists q', gf2_mul q' crc_poly = d.
Proof.
  revert q; induction k as [|k IH]; intros q d H.
  - exists q. rewrite H. cbn. lia.
  - rewrite Nat2N.inj_succ, N.pow_succ_r' in H.
    destruct q as [|b q]; cbn [gf2_mul] in H.
    + exists []. cbn. destruct (N.eq_dec d 0) as [->|Hd]; [reflexivity|].
      assert (2 ^ N.of_nat k <> 0) by (apply N.pow_nonzero; discriminate). lia.
    + destruct b.
      * exfalso. apply (f_equal N.odd) in H.
        rewrite <- !N.bit0_odd, N.lxor_spec in H.
        rewrite (N.bit0_odd (2 * _)), N.odd_mul in H. change (N.odd 2) with false in H. cbn [andb] in H.
        change (N.testbit crc_poly 0) with true in H.
        rewrite N.bit0_odd in H. rewrite !N.odd_mul in H. change (N.odd 2) with false in H.
        cbn [andb] in H. rewrite andb_false_r in H. discriminate.
      * rewrite N.lxor_0_l in H. apply (IH q). lia.
Qed.

Lemma message_poly_len data : bytes_ok data -> message_poly data < 256 ^ len data.
Proof.
  induction data as [|b l IH] using rev_ind; intros Hok; [reflexivity|].
  apply bytes_ok_app in Hok as [Hl Hb]. apply bytes_ok_cons in Hb as [Hb _].
  rewrite message_poly_snoc, len_app. change (len [b]) with 1.
  rewrite N.add_1_r, N.pow_succ_r'. specialize (IH Hl). lia.
Qed.

(** any two messages (of whatever length) whose polynomials differ by a burst of at
    most 16 bits, wherever it lies *)
Lemma crc_burst m m' d k : bytes_ok m -> bytes_ok m' ->
  N.lxor (message_poly m) (message_poly m') = d * 2 ^ N.of_nat k -> 0 < d < 2 ^ 16 ->
  crc16_en13757 m <> crc16_en13757 m'.
Proof.
  intros Hm Hm' Hd Hr E.
  destruct (crc_is_crc m Hm) as [_ [q Hq]]. destruct (crc_is_crc m' Hm') as [_ [q' Hq']].
  rewrite E in Hq. destruct (gf2_xor crc_poly q q') as (q'' & Hq'').
  assert (H : gf2_mul q'' crc_poly = d * 2 ^ N.of_nat (k + 16)).
  { rewrite Hq''. rewrite Nat2N.inj_add, N.pow_add_r, N.mul_assoc, <- Hd.
    rewrite <- !N.shiftl_mul_pow2 in *. change (N.of_nat 16) with 16. rewrite N.shiftl_lxor.
    rewrite Hq, Hq'. set (r := N.lxor (crc16_en13757 m') 0xFFFF).
    rewrite (N.lxor_comm (gf2_mul q' crc_poly) r), <- N.lxor_assoc, lxor_cancel_r. reflexivity. }
  apply gf2_div_x in H as (q1 & H). change (2 ^ 16) with 65536 in Hr.
  assert (gf2_mul q1 crc_poly = 0) by (apply gf2_small; lia). lia.
Qed.

Lemma message_poly_app l m : message_poly (l ++ m) = message_poly l * 256 ^ len m + message_poly m.
Proof.
  induction m as [|b m IH] using rev_ind.
  - rewrite app_nil_r. cbn. lia.
  - rewrite app_assoc, !message_poly_snoc, len_app. change (len [b]) with 1.
    rewrite N.add_1_r, N.pow_succ_r', IH. lia.
Qed.

Lemma pow256 n : 256 ^ n = 2 ^ (8 * n).
Proof. change 256 with (2 ^ 8). rewrite <- N.pow_mul_r. reflexivity. Qed.

(** the case of two adjacent bytes *)
Lemma crc_two_bytes pre a b a' b' post :
  bytes_ok (pre ++ [a; b] ++ post) -> a' < 256 -> b' < 256 -> (a, b) <> (a', b') ->
  crc16_en13757 (pre ++ [a; b] ++ post) <> crc16_en13757 (pre ++ [a'; b'] ++ post).
Proof.
  intros Hok Ha' Hb' Hne.
  pose proof Hok as Hok1. apply bytes_ok_app in Hok1 as [Hpre Hok1].
  apply bytes_ok_app in Hok1 as [Hab Hpost].
  apply bytes_ok_cons in Hab as [Ha Hab]. apply bytes_ok_cons in Hab as [Hb _].
  apply (crc_burst _ _ (N.lxor (256 * a + b) (256 * a' + b')) (8 * length post)%nat); try assumption.
  - apply bytes_ok_app; split; [assumption|]. apply bytes_ok_app; split; [|assumption].
    apply bytes_ok_cons; split; [assumption|]. apply bytes_ok_cons; split; [assumption|]. apply Forall_nil.
  - rewrite !message_poly_app.
    change (message_poly [a; b]) with (256 * (256 * 0 + a) + b).
    change (message_poly [a'; b']) with (256 * (256 * 0 + a') + b').
    rewrite (len_app [a; b]), (len_app [a'; b']).
    change (len [a; b]) with 2. change (len [a'; b']) with 2.
    pose proof (message_poly_len post Hpost) as Hp.
    rewrite pow256 in Hp.
    set (k := 8 * len post) in *. replace (N.of_nat (8 * length post)) with k by (unfold k, len; lia).
    rewrite (N.pow_add_r 256). change (256 ^ 2) with 65536. rewrite pow256. fold k.
    set (x := message_poly pre). set (z := message_poly post) in *.
    set (u := 256 * (256 * 0 + a) + b). set (w := 256 * (256 * 0 + a') + b').
    replace (256 * a + b) with u by (unfold u; lia). replace (256 * a' + b') with w by (unfold w; lia).
    assert (Hu : u < 2 ^ 16) by (unfold u; change (2 ^ 16) with 65536; lia).
    assert (Hw : w < 2 ^ 16) by (unfold w; change (2 ^ 16) with 65536; lia).
    assert (F : forall v, v < 2 ^ 16 ->
      x * (65536 * 2 ^ k) + (v * 2 ^ k + z) = N.lxor (N.lxor (x * 2 ^ 16) v * 2 ^ k) z).
    { intros v Hv. rewrite lxor_disjoint_add by assumption. rewrite lxor_disjoint_add by assumption.
      change (2 ^ 16) with 65536. lia. }
    rewrite !F by assumption.
    rewrite <- !(N.shiftl_mul_pow2 _ k).
    replace (N.lxor u w) with (N.lxor (N.lxor (x * 2 ^ 16) u) (N.lxor (x * 2 ^ 16) w)) by xor_bits.
    rewrite (N.shiftl_lxor (N.lxor _ u)). xor_bits.
  - assert (Hx : N.lxor (256 * a + b) (256 * a' + b') < 65536) by (apply lxor_lt16; lia).
    change (2 ^ 16) with 65536. split; [|assumption].
    destruct (N.eq_0_gt_0_cases (N.lxor (256 * a + b) (256 * a' + b'))) as [E|E]; [|assumption].
    exfalso. apply N.lxor_eq in E. apply Hne. f_equal; lia.
Qed.

Lemma crc_one_byte pre a a' post :
  bytes_ok (pre ++ a :: post) -> a' < 256 -> a <> a' ->
  crc16_en13757 (pre ++ a :: post) <> crc16_en13757 (pre ++ a' :: post).
Proof.
  intros Hok Ha' Hne.
  destruct post as [|b post].
  - (* last byte: pair it with the byte before, or compute directly *)
    apply (crc_burst _ _ (N.lxor a a') 0%nat); try assumption.
    + apply bytes_ok_app in Hok as [Hp _]. apply bytes_ok_app; split; [assumption|].
      apply bytes_ok_cons; split; [assumption|]. apply Forall_nil.
    + apply bytes_ok_app in Hok as [_ Hok]. apply bytes_ok_cons in Hok as [Ha _].
      rewrite !message_poly_snoc. rewrite (N.mul_comm 256). change 256 with (2 ^ 8).
      rewrite <- !lxor_disjoint_add by assumption.
      change (N.of_nat 0) with 0. rewrite N.pow_0_r, N.mul_1_r. xor_bits.
    + apply bytes_ok_app in Hok as [_ Hok]. apply bytes_ok_cons in Hok as [Ha _].
      assert (Hx : N.lxor a a' < 65536) by (apply lxor_lt16; lia).
      change (2 ^ 16) with 65536. split; [|assumption].
      destruct (N.eq_0_gt_0_cases (N.lxor a a')) as [E|E]; [|assumption].
      apply N.lxor_eq in E. contradiction.
  - apply (crc_two_bytes pre a b a' b post); try assumption.
    + apply bytes_ok_app in Hok as [_ Hok]. apply bytes_ok_cons in Hok as [_ Hok].
      apply bytes_ok_cons in Hok as [Hb _]. assumption.
    + congruence.
Qed.
