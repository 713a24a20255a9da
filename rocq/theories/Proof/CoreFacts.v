(** Identity codings: manufacturer, identification number, device type, configuration. *)
From Verif Require Import Proof.BaseFacts Model.Core Model.Decrypt Spec.CoreSpec.

Lemma land_15 n : N.land n 0x0F = n mod 16.
Proof. change 0x0F with (N.ones 4). rewrite N.land_ones. reflexivity. Qed.
Lemma land_31 n : N.land n 0x1F = n mod 32.
Proof. change 0x1F with (N.ones 5). rewrite N.land_ones. reflexivity. Qed.
Lemma land_7 n : N.land n 7 = n mod 8.
Proof. change 7 with (N.ones 3). rewrite N.land_ones. reflexivity. Qed.
Lemma land_127 n : N.land n 0x7F = n mod 128.
Proof. change 0x7F with (N.ones 7). rewrite N.land_ones. reflexivity. Qed.
Lemma land_255 n : N.land n 0xFF = n mod 256.
Proof. change 0xFF with (N.ones 8). rewrite N.land_ones. reflexivity. Qed.
Lemma land_65535 n : N.land n 0xFFFF = n mod 65536.
Proof. change 0xFFFF with (N.ones 16). rewrite N.land_ones. reflexivity. Qed.
Lemma shiftr_4 n : N.shiftr n 4 = n / 16.
Proof. rewrite N.shiftr_div_pow2. reflexivity. Qed.
Lemma shiftr_8 n : N.shiftr n 8 = n / 256.
Proof. rewrite N.shiftr_div_pow2. reflexivity. Qed.
Lemma shiftr_13 n : N.shiftr n 13 = n / 8192.
Proof. rewrite N.shiftr_div_pow2. reflexivity. Qed.

(** ** manufacturer codes *)
Definition letters (c : manufacturer_code) : Prop :=
  capital (mc1 c) /\ capital (mc2 c) /\ capital (mc3 c).

Lemma mc_from_id_ok id c : id < 65536 ->
  mc_from_id id = Ok c <-> letters c /\ id = flag_id (mc1 c) (mc2 c) (mc3 c).
Proof.
  intros Hid. unfold mc_from_id, letters, capital, flag_id, is_ascii_uppercase.
  cbv zeta.
  set (a := (id / 1024 + 64) mod 256). set (b := ((id mod 1024) / 32 + 64) mod 256).
  set (d := (id mod 32 + 64) mod 256).
  destruct (((65 <=? a) && (a <=? 90)) && ((65 <=? b) && (b <=? 90)) && ((65 <=? d) && (d <=? 90))) eqn:E.
  - split.
    + intros H; apply Ok_inj in H; subst c; cbn [mc1 mc2 mc3]. subst a b d. split; [lia|]. lia.
    + destruct c as [x y z]; cbn [mc1 mc2 mc3]. intros [Hl Heq].
      f_equal. f_equal; subst a b d; lia.
  - split; [discriminate|].
    destruct c as [x y z]; cbn [mc1 mc2 mc3]. intros [Hl Heq]. exfalso.
    assert (a = x) by (subst a; lia). assert (b = y) by (subst b; lia).
    assert (d = z) by (subst d; lia). lia.
Qed.

Lemma mc_from_id_total id : is_ok (mc_from_id id) \/ mc_from_id id = Err (InvalidManufacturerCode id).
Proof.
  unfold mc_from_id; cbv zeta.
  match goal with |- context [if ?b then _ else _] => destruct b end; [left; eexists; reflexivity|right; reflexivity].
Qed.

Lemma mc_from_id_panic id : ~ is_panic (mc_from_id id).
Proof.
  destruct (mc_from_id_total id) as [[a ->]| ->]; intros [p H]; discriminate.
Qed.

Lemma mc_to_id_flag c : letters c -> mc_to_id c = flag_id (mc1 c) (mc2 c) (mc3 c).
Proof.
  unfold letters, capital, mc_to_id, flag_id. cbv zeta. intros (H1 & H2 & H3).
  assert (E : forall x, 65 <= x <= 90 -> (x mod 65536 + 65536 - 64) mod 65536 = x - 64) by lia.
  rewrite !E by assumption. lia.
Qed.

Lemma flag_id_bound a b c : capital a -> capital b -> capital c -> flag_id a b c < 32768.
Proof. unfold capital, flag_id; lia. Qed.

Lemma mc_to_from c : letters c -> mc_from_id (mc_to_id c) = Ok c.
Proof.
  intros H. rewrite mc_to_id_flag by assumption.
  apply mc_from_id_ok; [|auto]. destruct H as (H1 & H2 & H3).
  pose proof (flag_id_bound _ _ _ H1 H2 H3). lia.
Qed.

Lemma mc_from_to id c : id < 65536 -> mc_from_id id = Ok c -> mc_to_id c = id.
Proof.
  intros Hid H. apply mc_from_id_ok in H as [Hl ->]; [|assumption]. apply mc_to_id_flag; assumption.
Qed.

(** ** identification numbers *)
Definition bcd_byte_ok (b : N) : bool := (b mod 16 <=? 9) && (b / 16 <=? 9).

Lemma bcd_loop_spec ds : forall rest n,
  bcd_loop ds n rest =
  (fix go n rest := match rest with
   | [] => Ok n
   | b :: r => if bcd_byte_ok b then go (n * 100 + (b / 16) * 10 + b mod 16) r
               else Err (IdentificationNumberError ds n)
   end) n rest.
Proof.
  induction rest as [|b r IH]; intros n; cbn [bcd_loop]; [reflexivity|].
  cbv zeta. rewrite land_15, shiftr_4. unfold bcd_byte_ok.
  destruct (N.ltb_spec 9 (b mod 16)), (N.ltb_spec 9 (b / 16)); cbn [orb];
    destruct (N.leb_spec (b mod 16) 9), (N.leb_spec (b / 16) 9); try lia; cbn [andb];
    try reflexivity. apply IH.
Qed.

Lemma bcd_loop_app ds l m n :
  bcd_loop ds n (l ++ m) = bind (bcd_loop ds n l) (fun n' => bcd_loop ds n' m).
Proof.
  revert n; induction l as [|b l IH]; intros n; cbn [bcd_loop app]; [reflexivity|].
  cbv zeta.
  match goal with |- context [if ?b then _ else _] => destruct b end; [reflexivity|apply IH].
Qed.

(** the loop over reversed bytes, by induction on the bytes themselves *)
Lemma bcd_rev ds bytes n v :
  bcd_loop ds n (rev bytes) = Ok v <->
  exists digits, spells digits bytes /\ v = n * 10 ^ N.of_nat (length digits) + decimal digits.
Proof.
  revert n v; induction bytes as [|b bytes IH]; intros n v; cbn [rev].
  - cbn [bcd_loop]. split.
    + intros H; apply Ok_inj in H; subst. exists []. split; [exact I|]. cbn. lia.
    + intros ([|d1 [|d2 digits]] & H & ->); cbn in H; try destruct H. cbn. f_equal. lia.
  - rewrite bcd_loop_app, bind_ok. split.
    + intros (v1 & H1 & H2). apply IH in H1 as (digits & Hs & Hv1).
      rewrite bcd_loop_spec in H2. unfold bcd_byte_ok in H2.
      destruct ((b mod 16 <=? 9) && (b / 16 <=? 9)) eqn:E; [|discriminate].
      apply Ok_inj in H2. exists (b mod 16 :: b / 16 :: digits).
      split.
      * cbn [spells]. split; [lia|]. split; [lia|]. split; [lia|assumption].
      * cbn [length decimal]. rewrite Nat2N.inj_succ, Nat2N.inj_succ, !N.pow_succ_r'.
        subst v v1. lia.
    + intros (digits & Hs & Hv).
      destruct digits as [|lo [|hi digits]]; cbn [spells] in Hs; try destruct Hs.
      destruct H0 as (Hhi & -> & Hs).
      exists (n * 10 ^ N.of_nat (length digits) + decimal digits).
      split; [apply IH; eauto|].
      rewrite bcd_loop_spec. unfold bcd_byte_ok.
      replace ((16 * hi + lo) mod 16) with lo by lia.
      replace ((16 * hi + lo) / 16) with hi by lia.
      destruct (N.leb_spec lo 9), (N.leb_spec hi 9); try lia; cbn [andb].
      f_equal. subst v. cbn [length decimal].
      rewrite Nat2N.inj_succ, Nat2N.inj_succ, !N.pow_succ_r'. lia.
Qed.

Lemma bcd_spells bytes n :
  bcd_hex_digits_to_u32 bytes = Ok n <-> exists digits, spells digits bytes /\ n = decimal digits.
Proof.
  unfold bcd_hex_digits_to_u32. rewrite bcd_rev.
  split; intros (d & Hs & Hv); exists d; split; auto; lia.
Qed.

Lemma bcd_loop_err ds n l : is_ok (bcd_loop ds n l) \/ exists m, bcd_loop ds n l = Err (IdentificationNumberError ds m).
Proof.
  revert n; induction l as [|b l IH]; intros n; cbn [bcd_loop]; [left; eexists; reflexivity|].
  cbv zeta.
  match goal with |- context [if ?b then _ else _] => destruct b end; [right; eexists; reflexivity|apply IH].
Qed.

Lemma bcd_total bytes :
  is_ok (bcd_hex_digits_to_u32 bytes) \/
  exists m, bcd_hex_digits_to_u32 bytes = Err (IdentificationNumberError bytes m).
Proof. apply bcd_loop_err. Qed.

Lemma bcd_panic bytes : ~ is_panic (bcd_hex_digits_to_u32 bytes).
Proof.
  destruct (bcd_total bytes) as [[a ->]|[m ->]]; intros [p H]; discriminate.
Qed.

Lemma bcd_byte_digits lo hi n : lo <= 9 -> hi <= 9 ->
  bcd_byte (lo + 10 * (hi + 10 * n)) = (16 * hi + lo, n).
Proof.
  intros Hl Hh. unfold bcd_byte. cbv zeta.
  replace ((lo + 10 * (hi + 10 * n)) mod 10) with lo by lia.
  replace ((lo + 10 * (hi + 10 * n)) / 10) with (hi + 10 * n) by lia.
  replace ((hi + 10 * n) mod 10) with hi by lia.
  replace ((hi + 10 * n) / 10) with n by lia.
  f_equal. rewrite N.shiftl_mul_pow2. change (2 ^ 4) with 16.
  assert (Hlt : lo < 16) by lia. clear n.
  assert (Hsw : forallb (fun h => forallb (fun l => N.lor (h * 16) l =? 16 * h + l) (below 16)) (below 10) = true)
    by (vm_compute; reflexivity).
  rewrite forallb_forall in Hsw. specialize (Hsw hi (in_below 10 hi ltac:(lia))).
  rewrite forallb_forall in Hsw. specialize (Hsw lo (in_below 16 lo ltac:(lia))).
  apply N.eqb_eq in Hsw. exact Hsw.
Qed.

Lemma decimal_to_bcd_spells b0 b1 b2 b3 digits :
  spells digits [b0; b1; b2; b3] -> decimal_to_bcd (decimal digits) = [b0; b1; b2; b3].
Proof.
  intros H.
  destruct digits as [|l0 [|h0 digits]]; cbn [spells] in H; try contradiction.
  destruct H as (Hl0 & Hh0 & -> & H).
  destruct digits as [|l1 [|h1 digits]]; cbn [spells] in H; try contradiction.
  destruct H as (Hl1 & Hh1 & -> & H).
  destruct digits as [|l2 [|h2 digits]]; cbn [spells] in H; try contradiction.
  destruct H as (Hl2 & Hh2 & -> & H).
  destruct digits as [|l3 [|h3 digits]]; cbn [spells] in H; try contradiction.
  destruct H as (Hl3 & Hh3 & -> & H).
  destruct digits as [|d digits]; [|destruct digits; destruct H].
  unfold decimal_to_bcd. cbn [decimal].
  rewrite !bcd_byte_digits by assumption. reflexivity.
Qed.

Lemma bcd_round_trip b0 b1 b2 b3 n :
  bcd_hex_digits_to_u32 [b0; b1; b2; b3] = Ok n -> decimal_to_bcd n = [b0; b1; b2; b3].
Proof. intros H; apply bcd_spells in H as (digits & Hs & ->). apply decimal_to_bcd_spells; assumption. Qed.

Lemma bcd_byte_snd n : snd (bcd_byte n) = n / 100.
Proof. unfold bcd_byte; cbv zeta; cbn [snd]. rewrite N.div_div by lia. reflexivity. Qed.

(** every number below 10^8 is the value of its own encoding *)
Lemma bcd_encode_decode n : n < 100000000 -> bcd_hex_digits_to_u32 (decimal_to_bcd n) = Ok n.
Proof.
  intros Hn. apply bcd_spells.
  set (n1 := n / 10). set (n2 := n1 / 10). set (n3 := n2 / 10). set (n4 := n3 / 10).
  set (n5 := n4 / 10). set (n6 := n5 / 10). set (n7 := n6 / 10).
  exists [n mod 10; n1 mod 10; n2 mod 10; n3 mod 10; n4 mod 10; n5 mod 10; n6 mod 10; n7].
  assert (Hd : decimal [n mod 10; n1 mod 10; n2 mod 10; n3 mod 10; n4 mod 10; n5 mod 10; n6 mod 10; n7] = n).
  { assert (S : forall x, x mod 10 + 10 * (x / 10) = x) by lia.
    cbn [decimal]. change (n7 + 10 * 0) with (n7 + 0). rewrite N.add_0_r.
    unfold n7; rewrite S. unfold n6; rewrite S. unfold n5; rewrite S. unfold n4; rewrite S.
    unfold n3; rewrite S. unfold n2; rewrite S. unfold n1; rewrite S. reflexivity. }
  assert (H7 : n7 <= 9) by (unfold n7, n6, n5, n4, n3, n2, n1; rewrite !N.div_div by discriminate; lia).
  split; [|symmetry; assumption].
  replace (decimal_to_bcd n) with
    (decimal_to_bcd (decimal [n mod 10; n1 mod 10; n2 mod 10; n3 mod 10; n4 mod 10; n5 mod 10; n6 mod 10; n7]))
    by (rewrite Hd; reflexivity).
  cbn [decimal]. unfold decimal_to_bcd.
  assert (M : forall x, x mod 10 <= 9) by lia.
  rewrite !bcd_byte_digits by (apply M || assumption).
  cbn [spells]. repeat split; try apply M; assumption.
Qed.

(** ** device types, security modes, configuration *)
Lemma device_type_lossless b : b < 256 -> device_type_to_u8 (device_type_from_u8 b) = b.
Proof.
  intros Hb. apply N.eqb_eq.
  apply (sweep256 (fun b => device_type_to_u8 (device_type_from_u8 b) =? b)); [vm_compute; reflexivity|assumption].
Qed.

Lemma security_mode_lossless b : security_mode_to_bits (security_mode_from_bits b) = b mod 32.
Proof.
  replace (security_mode_from_bits b) with (security_mode_from_bits (b mod 32)).
  - apply N.eqb_eq.
    apply (sweep 32 (fun b => security_mode_to_bits (security_mode_from_bits b) =? b));
      [vm_compute; reflexivity|lia].
  - unfold security_mode_from_bits. rewrite !land_31.
    replace ((b mod 32) mod 32) with (b mod 32) by lia. reflexivity.
Qed.

Lemma configuration_mode raw :
  security_mode_to_bits (configuration_security_mode raw) = (raw / 256) mod 32.
Proof.
  unfold configuration_security_mode. rewrite security_mode_lossless, land_31, shiftr_8. lia.
Qed.

Lemma security_mode_from_bits_inj a b :
  security_mode_from_bits a = security_mode_from_bits b <-> a mod 32 = b mod 32.
Proof.
  split.
  - intros H. rewrite <- !security_mode_lossless. congruence.
  - intros H. unfold security_mode_from_bits. rewrite !land_31, H. reflexivity.
Qed.

Lemma configuration_only_mode_bits r1 r2 :
  configuration_security_mode r1 = configuration_security_mode r2 <->
  (r1 / 256) mod 32 = (r2 / 256) mod 32.
Proof.
  unfold configuration_security_mode. rewrite security_mode_from_bits_inj, !land_31, !shiftr_8. lia.
Qed.

Lemma configuration_fields lsb msb : lsb < 256 -> msb < 256 ->
  let raw := configuration_field_from_bytes lsb msb in
  mode_specific_lower raw = lsb /\
  security_mode_to_bits (configuration_security_mode raw) = msb mod 32 /\
  mode_specific_upper raw = msb / 32 /\
  raw = mode_specific_lower raw + 256 * security_mode_to_bits (configuration_security_mode raw)
        + 8192 * mode_specific_upper raw.
Proof.
  intros Hl Hm. cbv zeta. rewrite configuration_mode.
  unfold configuration_field_from_bytes, u16_le, mode_specific_lower, mode_specific_upper.
  rewrite land_255, land_7, shiftr_13.
  assert (E1 : (lsb + 256 * msb) mod 256 = lsb) by lia.
  assert (E2 : (lsb + 256 * msb) / 256 = msb) by lia.
  assert (E3 : ((lsb + 256 * msb) / 8192) mod 8 = msb / 32) by lia.
  rewrite E1, E2, E3. repeat split. lia.
Qed.
