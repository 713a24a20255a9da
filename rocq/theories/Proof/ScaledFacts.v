(** Lemmas about scaled decimal texts. *)
From Coq Require Import Lia ZArith QArith Qpower String.
From Verif Require Import Model.Base Model.Text Model.Decimal Spec.TextSpec Proof.BaseFacts Proof.TextFacts
  Proof.DecimalFacts.
Open Scope N_scope.

(** *** Addition of digit texts *)
Lemma digit_mod s : digit_char (48 + s mod 10).
Proof. pose proof (N.mod_lt s 10 ltac:(discriminate)). unfold digit_char. lia. Qed.

Lemma add_tail_ok l : Forall digit_char l -> forall c, c <= 1 ->
  cval (add_tail l c) = cval l + c /\ Forall digit_char (add_tail l c) /\
  (length l <= length (add_tail l c))%nat.
Proof.
  induction 1 as [|d l Hd Hl IH]; intros c Hc.
  - cbn [add_tail]. destruct (N.eqb_spec c 0) as [->|Hz]; [repeat split; try constructor|].
    assert (c = 1) by lia. subst c. repeat split; [|cbn; lia]. constructor; [|constructor]. unfold digit_char; cbn; lia.
  - cbn [add_tail]. cbv zeta. unfold digit_char in Hd.
    assert (Hq : (d - 48 + c) / 10 <= 1) by (apply N.lt_succ_r, N.div_lt_upper_bound; lia).
    destruct (IH _ Hq) as (E & F & L). rewrite !cval_cons, E.
    pose proof (N.div_mod (d - 48 + c) 10 ltac:(discriminate)) as DM.
    repeat split; [|constructor; [apply digit_mod|exact F]|cbn [length]; lia]. lia.
Qed.

Lemma add_rev_ok l : Forall digit_char l -> forall r c, Forall digit_char r -> c <= 1 ->
  cval (add_rev l r c) = cval l + cval r + c /\ Forall digit_char (add_rev l r c) /\
  (length l <= length (add_rev l r c))%nat.
Proof.
  induction 1 as [|a l Ha Hl IH]; intros r c Hr Hc.
  - cbn [add_rev]. destruct (add_tail_ok r Hr c Hc) as (E & F & L). rewrite E. change (cval []) with 0. split; [lia|]. split; [exact F|apply Nat.le_0_l].
  - destruct Hr as [|b r Hb Hr].
    + cbn [add_rev]. destruct (add_tail_ok (a :: l) ltac:(constructor; assumption) c Hc) as (E & F & L).
      rewrite E. repeat split; [change (cval []) with 0; lia|exact F|exact L].
    + cbn [add_rev]. cbv zeta. unfold digit_char in Ha, Hb.
      assert (Hq : (a - 48 + (b - 48) + c) / 10 <= 1) by (apply N.lt_succ_r, N.div_lt_upper_bound; lia).
      destruct (IH r _ Hr Hq) as (E & F & L). rewrite !cval_cons, E.
      pose proof (N.div_mod (a - 48 + (b - 48) + c) 10 ltac:(discriminate)) as DM.
      repeat split; [|constructor; [apply digit_mod|exact F]|cbn [length]; lia]. lia.
Qed.

Lemma add_abs_ok a b : Forall digit_char a -> Forall digit_char b ->
  number (add_abs a b) = number a + number b /\ Forall digit_char (add_abs a b) /\
  (length a <= length (add_abs a b))%nat.
Proof.
  intros Ha Hb. unfold add_abs. apply Forall_rev in Ha. apply Forall_rev in Hb.
  destruct (add_rev_ok _ Ha _ 0 Hb ltac:(lia)) as (E & F & L). rewrite number_rev, E, <- !number_cval.
  repeat split; [lia|apply Forall_rev; exact F|]. rewrite rev_length in *. exact L.
Qed.

(** no zero on top of the sum when there is none on top of the terms *)
Definition top (l : list N) : Prop := forall m, l <> m ++ [48].

Lemma top_cons c l : l <> [] -> top l -> top (c :: l).
Proof.
  intros Hne H m E. destruct m as [|x m]; cbn in E; inversion E; subst; [congruence|].
  apply (H m). reflexivity.
Qed.
Lemma top_tail c l : l <> [] -> top (c :: l) -> top l.
Proof. intros Hne H m E. apply (H (c :: m)). rewrite E. reflexivity. Qed.
Lemma top_one c : c <> 48 -> top [c].
Proof. intros H m E. destruct m as [|x m]; cbn in E; [inversion E; congruence|]. destruct m; inversion E. Qed.
Lemma top_one_inv c : top [c] -> c <> 48.
Proof. intros H ->. apply (H []). reflexivity. Qed.
Lemma top_nil : top [].
Proof. intros m E. destruct m; inversion E. Qed.

Lemma add_tail_top l : Forall digit_char l -> top l -> forall c, c <= 1 -> top (add_tail l c).
Proof.
  induction 1 as [|d l Hd Hl IH]; intros Ht c Hc.
  - cbn [add_tail]. destruct (N.eqb_spec c 0); [apply top_nil|].
    assert (c = 1) by lia. subst c. apply top_one. discriminate.
  - cbn [add_tail]. cbv zeta. unfold digit_char in Hd.
    assert (Hq : (d - 48 + c) / 10 <= 1) by (apply N.lt_succ_r, N.div_lt_upper_bound; lia).
    destruct l as [|e l].
    + apply top_one_inv in Ht. cbn [add_tail]. destruct (N.eqb_spec ((d - 48 + c) / 10) 0) as [E|E].
      * apply top_one. apply N.div_small_iff in E; [|discriminate]. rewrite N.mod_small by exact E. lia.
      * apply top_cons; [discriminate|]. apply top_one.
        assert ((d - 48 + c) / 10 = 1) as -> by lia. discriminate.
    + apply top_cons; [cbn [add_tail]; discriminate|]. apply IH; [apply top_tail with d; [discriminate|exact Ht]|exact Hq].
Qed.

Lemma add_rev_top l : Forall digit_char l -> top l -> forall r c, Forall digit_char r -> top r -> c <= 1 ->
  top (add_rev l r c).
Proof.
  induction 1 as [|a l Ha Hl IH]; intros Tl r c Hr Tr Hc.
  - cbn [add_rev]. apply add_tail_top; assumption.
  - destruct Hr as [|b r Hb Hr].
    + cbn [add_rev]. apply add_tail_top; [constructor|..]; assumption.
    + cbn [add_rev]. cbv zeta. unfold digit_char in Ha, Hb.
      assert (Hq : (a - 48 + (b - 48) + c) / 10 <= 1) by (apply N.lt_succ_r, N.div_lt_upper_bound; lia).
      assert (Tl' : top l) by (destruct l; [apply top_nil|apply top_tail with a; [discriminate|exact Tl]]).
      assert (Tr' : top r) by (destruct r; [apply top_nil|apply top_tail with b; [discriminate|exact Tr]]).
      pose proof (IH Tl' r _ Hr Tr' Hq) as T.
      destruct (add_rev l r ((a - 48 + (b - 48) + c) / 10)) as [|x rest] eqn:E.
      2:{ apply top_cons; [discriminate|exact T]. }
      apply top_one.
      destruct (add_rev_ok l Hl r _ Hr Hq) as (V & _ & _). rewrite E in V. cbn in V.
      assert (Hz : (a - 48 + (b - 48) + c) / 10 = 0) by lia.
      assert (l = []).
      { destruct l; [reflexivity|]. exfalso. destruct (add_rev_ok _ Hl r _ Hr Hq) as (_ & _ & L). rewrite E in L. cbn in L. lia. }
      subst l. apply top_one_inv in Tl. apply N.div_small_iff in Hz; [|discriminate].
      rewrite N.mod_small by exact Hz. lia.
Qed.

Lemma Forall_firstn {A} (P : A -> Prop) n l : Forall P l -> Forall P (firstn n l).
Proof. intros H. rewrite <- (firstn_skipn n l) in H. apply Forall_app in H. tauto. Qed.
Lemma Forall_skipn {A} (P : A -> Prop) n l : Forall P l -> Forall P (skipn n l).
Proof. intros H. rewrite <- (firstn_skipn n l) in H. apply Forall_app in H. tauto. Qed.

Definition lead (s : list N) : Prop := forall rest, s <> 48 :: rest.
Lemma lead_top s : lead s <-> top (rev s).
Proof.
  split; intros H.
  - intros m E. apply (f_equal (@rev N)) in E. rewrite rev_involutive, rev_app_distr in E. exact (H _ E).
  - intros rest E. apply (H (rev rest)). rewrite E. reflexivity.
Qed.

Lemma add_abs_lead a b : Forall digit_char a -> Forall digit_char b -> lead a -> lead b -> lead (add_abs a b).
Proof.
  intros Ha Hb La Lb. unfold add_abs. apply lead_top. rewrite rev_involutive.
  apply add_rev_top; try (apply Forall_rev; assumption); try (apply lead_top; assumption). lia.
Qed.

Lemma add_tail_0 l : Forall digit_char l -> add_tail l 0 = l.
Proof.
  induction 1 as [|d l Hd _ IH]; [reflexivity|]. cbn [add_tail]. cbv zeta. unfold digit_char in Hd.
  rewrite N.add_0_r, N.mod_small, N.div_small by lia. rewrite IH. f_equal. lia.
Qed.

Lemma zeros_snoc n : zeros (S n) = zeros n ++ [48].
Proof. unfold zeros. induction n as [|n IH]; [reflexivity|]. cbn [repeat app] in *. f_equal. exact IH. Qed.
Lemma rev_zeros n : rev (zeros n) = zeros n.
Proof. induction n as [|n IH]; [reflexivity|]. rewrite zeros_snoc at 1. rewrite rev_app_distr, IH. reflexivity. Qed.

Lemma add_zeros_one n : add_abs (zeros (S n)) [49] = zeros n ++ [49].
Proof.
  unfold add_abs. rewrite rev_zeros. unfold zeros at 1. cbn [repeat rev app add_rev].
  change (repeat 48 n) with (zeros n). change ((48 - 48 + (49 - 48) + 0) / 10) with 0.
  destruct n as [|n]; [reflexivity|].
  change (add_rev (zeros (S n)) [] 0) with (add_tail (zeros (S n)) 0).
  rewrite add_tail_0 by apply zeros_digits. cbn [rev]. rewrite rev_zeros. reflexivity.
Qed.

Lemma add_abs_zero b : Forall digit_char b -> b <> [] -> add_abs [48] b = b.
Proof.
  intros Hb Hne. unfold add_abs. cbn [rev app]. rewrite <- (rev_involutive b) at 2. f_equal.
  pose proof (Forall_rev Hb) as Hr. destruct (rev b) as [|x r] eqn:E.
  - exfalso. apply (f_equal (@rev N)) in E. rewrite rev_involutive in E. cbn in E; congruence.
  - inversion Hr as [|? ? Hx Hr']; subst. cbn [add_rev]. cbv zeta. unfold digit_char in Hx. change (48 - 48) with 0.
    rewrite N.add_0_l, N.add_0_r, N.mod_small, N.div_small by lia. rewrite add_tail_0 by exact Hr'. f_equal. lia.
Qed.

(** *** Subtraction *)
Lemma sub_rev_ok L : Forall digit_char L -> forall S b, Forall digit_char S -> (0 <= b <= 1)%Z ->
  Forall digit_char (sub_rev L S b) /\ length (sub_rev L S b) = length L /\
  exists b', (0 <= b' <= 1)%Z /\
    (Z.of_N (cval (sub_rev L S b)) - Z.of_N (pow10 (length L)) * b' =
     Z.of_N (cval L) - b - Z.of_N (cval (firstn (length L) S)))%Z.
Proof.
  induction 1 as [|v L Hv HL IH]; intros S b HS Hb.
  - cbn. repeat split; [constructor|]. exists b. split; [exact Hb|]. unfold pow10; cbn. lia.
  - cbn [sub_rev]. cbv zeta. unfold digit_char in Hv.
    set (sub := match S with s :: _ => Z.of_N (s - 48) | [] => 0%Z end).
    assert (Hsub : (0 <= sub <= 9)%Z) by (unfold sub; destruct HS as [|s S Hs HS]; [|unfold digit_char in Hs]; lia).
    assert (HS' : Forall digit_char (tl S)) by (destruct HS; [constructor|assumption]).
    assert (Hf : Z.of_N (cval (firstn (length (v :: L)) S)) =
                 (sub + 10 * Z.of_N (cval (firstn (length L) (tl S))))%Z).
    { destruct S as [|s S]; cbn [firstn length tl]; [rewrite firstn_nil; reflexivity|].
      rewrite cval_cons. unfold sub. lia. }
    rewrite Hf. cbn [length]. rewrite pow10_S.
    destruct (Z.ltb_spec (Z.of_N (v - 48) - b) sub) as [Lt|Ge].
    + destruct (IH (tl S) 1%Z HS' ltac:(lia)) as (F & Ln & b' & Hb' & E).
      repeat split.
      * constructor; [|exact F]. unfold digit_char. lia.
      * cbn [length]. lia.
      * exists b'. split; [exact Hb'|]. rewrite !cval_cons. lia.
    + destruct (IH (tl S) 0%Z HS' ltac:(lia)) as (F & Ln & b' & Hb' & E).
      repeat split.
      * constructor; [|exact F]. unfold digit_char. lia.
      * cbn [length]. lia.
      * exists b'. split; [exact Hb'|]. rewrite !cval_cons. lia.
Qed.

Lemma drop_48_ok s : s <> [] -> Forall digit_char s ->
  number (drop_leading_48 s) = number s /\ Forall digit_char (drop_leading_48 s) /\
  drop_leading_48 s <> [] /\ no_leading_zero (drop_leading_48 s).
Proof.
  intros Hne H. induction H as [|c s Hc Hs IH]; [congruence|].
  destruct s as [|d s].
  - cbn. repeat split; [constructor; [exact Hc|constructor]|discriminate|].
    intros x r E _. inversion E; reflexivity.
  - cbn [drop_leading_48]. destruct (N.eqb_spec c 48) as [->|Hn].
    + destruct (IH ltac:(discriminate)) as (E & F & N1 & N2). rewrite (number_cons 48).
      change (48 - 48) with 0. rewrite N.mul_0_l, N.add_0_l. auto.
    + repeat split; [constructor; assumption|discriminate|]. intros x r E Ex. inversion E; congruence.
Qed.

Lemma subtract_abs_ok L S : Forall digit_char L -> Forall digit_char S -> L <> [] -> number S <= number L ->
  number (subtract_abs L S) = number L - number S /\ Forall digit_char (subtract_abs L S) /\
  subtract_abs L S <> [] /\ no_leading_zero (subtract_abs L S).
Proof.
  intros HL HS Hne Hle. unfold subtract_abs.
  pose proof (Forall_rev HL) as HL'. pose proof (Forall_rev HS) as HS'.
  destruct (sub_rev_ok _ HL' _ 0%Z HS' ltac:(lia)) as (F & Ln & b' & Hb' & E).
  set (d := sub_rev (rev L) (rev S) 0) in *.
  assert (Hd : rev d <> []).
  { intros C. apply (f_equal (@length N)) in C. rewrite rev_length, Ln, rev_length in C. destruct L; [congruence|discriminate]. }
  destruct (drop_48_ok (rev d) Hd (Forall_rev F)) as (D1 & D2 & D3 & D4).
  repeat split; try assumption. rewrite D1, number_rev.
  rewrite (number_cval L), (number_cval S) in *.
  pose proof (cval_bound d F) as Bd. rewrite Ln in Bd.
  pose proof (cval_bound (rev L) HL') as BL.
  set (k := length (rev L)) in *.
  assert (Sp : cval (rev S) = cval (firstn k (rev S)) + pow10 (length (firstn k (rev S))) * cval (skipn k (rev S))).
  { rewrite <- cval_app, firstn_skipn. reflexivity. }
  destruct (Nat.le_gt_cases (length (rev S)) k) as [Hk|Hk].
  - rewrite firstn_all2 in E, Sp by exact Hk. assert (b' = 0%Z) by nia. subst b'. lia.
  - rewrite firstn_length_le in Sp by lia.
    assert (cval (skipn k (rev S)) = 0) by nia.
    assert (b' = 0%Z) by nia. subst b'. lia.
Qed.

(** *** Comparison *)
Lemma trim_zeros s : Forall digit_char s ->
  number (trim_start (N.eqb 48) s) = number s /\ Forall digit_char (trim_start (N.eqb 48) s) /\
  lead (trim_start (N.eqb 48) s).
Proof.
  induction 1 as [|c s Hc Hs IH]; [cbn; repeat split; [constructor|intros r; discriminate]|].
  cbn [trim_start]. destruct (N.eqb_spec 48 c) as [<-|Hn].
  - destruct IH as (E & F & N1). rewrite (number_cons 48). change (48 - 48) with 0. rewrite N.mul_0_l, N.add_0_l. auto.
  - repeat split; [constructor; assumption|]. intros r E. inversion E; congruence.
Qed.

Lemma lead_bound s : Forall digit_char s -> lead s -> s <> [] -> pow10 (length s) <= 10 * number s.
Proof.
  intros H L Hne. destruct H as [|c s Hc Hs]; [congruence|]. rewrite number_cons. cbn [length]. rewrite pow10_S.
  unfold digit_char in Hc. assert (c <> 48) by (intros ->; exact (L s eq_refl)). nia.
Qed.

Lemma text_compare_ok a : Forall digit_char a -> forall b, Forall digit_char b -> length a = length b ->
  text_compare a b = (number a ?= number b).
Proof.
  induction 1 as [|x a Hx Ha IH]; intros b Hb Hl.
  - destruct b; [reflexivity|discriminate].
  - destruct Hb as [|y b Hy Hb]; [discriminate|]. cbn [text_compare length] in *. injection Hl as Hl.
    rewrite !number_cons, Hl. unfold digit_char in *.
    pose proof (number_bound a Ha) as Ba. pose proof (number_bound b Hb) as Bb. rewrite Hl in Ba.
    destruct (N.compare_spec x y) as [->|Lt|Gt].
    + rewrite (IH b Hb Hl). destruct (N.compare_spec (number a) (number b)); symmetry.
      * apply N.compare_eq_iff. lia.
      * apply N.compare_lt_iff. lia.
      * apply N.compare_gt_iff. lia.
    + symmetry. apply N.compare_lt_iff. nia.
    + symmetry. apply N.compare_gt_iff. nia.
Qed.

Lemma pow10_mono a b : (a <= b)%nat -> pow10 a <= pow10 b.
Proof. intros H. unfold pow10. apply N.pow_le_mono_r; lia. Qed.

Lemma compare_abs_ok a b : Forall digit_char a -> Forall digit_char b ->
  compare_abs a b = (number a ?= number b).
Proof.
  intros Ha Hb. unfold compare_abs.
  destruct (trim_zeros a Ha) as (<- & Fa & La). destruct (trim_zeros b Hb) as (<- & Fb & Lb).
  set (x := trim_start (N.eqb 48) a) in *. set (y := trim_start (N.eqb 48) b) in *.
  clearbody x y. unfold len.
  assert (Main : forall u v, Forall digit_char u -> Forall digit_char v -> lead v ->
            (length u < length v)%nat -> number u < number v).
  { intros u v Fu Fv Lv Hlt. pose proof (number_bound u Fu) as Bu.
    assert (v <> []) by (intros ->; cbn in Hlt; lia).
    pose proof (lead_bound v Fv Lv H) as Bv. pose proof (pow10_mono (S (length u)) (length v) Hlt) as M.
    rewrite pow10_S in M. lia. }
  destruct (N.compare_spec (N.of_nat (length x)) (N.of_nat (length y))) as [E|Lt|Gt].
  - apply text_compare_ok; try assumption. lia.
  - symmetry. apply N.compare_lt_iff. apply Main; try assumption. lia.
  - symmetry. apply N.compare_gt_iff. apply Main; try assumption. lia.
Qed.

(** *** Signed texts, perhaps with leading zeros *)
Definition signed (neg : bool) (n : N) : Z := if neg then (- Z.of_N n)%Z else Z.of_N n.
Definition spelled (neg : bool) (ds : list N) : list N := if neg then 45 :: ds else ds.
Definition digits (ds : list N) : Prop := ds <> [] /\ Forall digit_char ds.

Lemma split_spelled neg ds : digits ds -> split_sign (spelled neg ds) = (neg, ds).
Proof.
  intros [Hne H]. destruct neg; [reflexivity|]. cbn [spelled]. destruct H as [|c ds Hc H]; [congruence|].
  cbn [split_sign]. unfold digit_char in Hc. destruct (N.eqb_spec c 45); [lia|reflexivity].
Qed.

Lemma text_eqb_zero ds : number ds <> 0 -> text_eqb ds (txt "0") = false.
Proof. intros H. apply text_eqb_neq. intros ->. apply H. reflexivity. Qed.

Lemma add_signed_ok ln ld rd : digits ld -> digits rd ->
  (exists ds neg, add_signed_decimal_integers (spelled ln ld) rd = spelled neg ds /\
    digits ds /\ signed neg (number ds) = (signed ln (number ld) + Z.of_N (number rd))%Z /\
    (ln = true -> no_leading_zero ds) /\
    (ln = false -> ds = add_abs ld rd)).
Proof.
  intros Hl Hr. unfold add_signed_decimal_integers. rewrite (split_spelled ln ld Hl).
  pose proof (split_spelled false rd Hr) as Sr. cbn [spelled] in Sr. rewrite Sr.
  destruct Hl as [Hlne Hl]. destruct Hr as [Hrne Hr].
  destruct ln; cbn [eqb].
  - rewrite (compare_abs_ok ld rd Hl Hr).
    destruct (N.compare_spec (number ld) (number rd)) as [E|Lt|Gt].
    + exists (txt "0"), false. split; [reflexivity|]. split; [split; [discriminate|]|split; [|split]].
      * change (txt "0") with [48]. constructor; [unfold digit_char; lia|constructor].
      * cbn [signed]. rewrite E. change (number (txt "0")) with 0. lia.
      * intros _ c r Ec _. vm_compute in Ec. inversion Ec; reflexivity.
      * discriminate.
    + destruct (subtract_abs_ok rd ld Hr Hl Hrne ltac:(lia)) as (E & F & N1 & N2).
      eexists _, false. cbn [spelled]. split; [reflexivity|]. repeat split; try assumption.
      * cbn [signed]. rewrite E. lia.
      * intros _. exact N2.
      * discriminate.
    + destruct (subtract_abs_ok ld rd Hl Hr Hlne ltac:(lia)) as (E & F & N1 & N2).
      eexists _, true. cbn [spelled]. split; [reflexivity|]. repeat split; try assumption.
      * cbn [signed]. rewrite E. lia.
      * intros _. exact N2.
      * discriminate.
  - destruct (add_abs_ok ld rd Hl Hr) as (E & F & L). cbn [andb].
    eexists _, false. cbn [spelled]. split; [reflexivity|]. repeat split.
    + intros C. rewrite C in L. destruct ld; [congruence|cbn in L; lia].
    + exact F.
    + cbn [signed]. rewrite E. lia.
    + discriminate.
Qed.

(** *** apply_power10 *)
Open Scope Q_scope.
Lemma ten_power_add a b : ten_power (a + b) == ten_power a * ten_power b.
Proof. unfold ten_power. apply Qpower_plus. discriminate. Qed.
Lemma ten_power_nat n : ten_power (Z.of_nat n) == inject_Z (10 ^ Z.of_nat n).
Proof. unfold ten_power. symmetry. apply Zpower_Qpower. lia. Qed.
Lemma ten_power_nz e : ~ ten_power e == 0.
Proof. unfold ten_power. apply Qpower_not_0. discriminate. Qed.
Lemma ten_power_opp n : ten_power (- Z.of_nat n) == / inject_Z (10 ^ Z.of_nat n).
Proof. unfold ten_power. rewrite Qpower_opp. rewrite Zpower_Qpower by lia. reflexivity. Qed.
Lemma pow10_Z n : Z.of_N (pow10 n) = (10 ^ Z.of_nat n)%Z.
Proof. unfold pow10. rewrite N2Z.inj_pow, nat_N_Z. reflexivity. Qed.

Close Scope Q_scope.
Lemma trim_end_zeros fp : exists k fp', fp = fp' ++ zeros k /\ trim_end (N.eqb 48) fp = fp' /\ top fp'.
Proof.
  induction fp as [|c fp IH] using rev_ind.
  - exists O, []. repeat split. apply top_nil.
  - destruct IH as (k & fp' & E & T & Tp). unfold trim_end in *. rewrite rev_app_distr. cbn [rev app trim_start].
    destruct (N.eqb_spec 48 c) as [<-|Hn].
    + exists (S k), fp'. split; [|split; assumption]. rewrite E at 1. rewrite <- app_assoc. f_equal.
      unfold zeros. clear. induction k; [reflexivity|cbn [repeat app]; f_equal; exact IHk].
    + exists O, (fp ++ [c]). split; [symmetry; apply app_nil_r|]. split.
      * cbn [rev]. rewrite rev_involutive. reflexivity.
      * intros m Em. apply app_inj_tail in Em. destruct Em; congruence.
Qed.

Definition fraction (fp : list N) : list N := match fp with [] => [] | _ => 46 :: fp end.

Lemma trim_fraction_point ip fp : Forall digit_char ip -> Forall digit_char fp ->
  exists k fp', fp = fp' ++ zeros k /\ top fp' /\ trim_fraction (ip ++ 46 :: fp) = ip ++ fraction fp'.
Proof.
  intros Hip Hfp. destruct (trim_end_zeros fp) as (k & fp' & E & T & Tp). exists k, fp'. split; [exact E|]. split; [exact Tp|].
  unfold trim_fraction.
  assert (Ex : existsb (N.eqb 46) (ip ++ 46 :: fp) = true).
  { apply existsb_exists. exists 46. split; [apply in_or_app; right; left; reflexivity|reflexivity]. }
  rewrite Ex.
  assert (Te : trim_end (N.eqb 48) (ip ++ 46 :: fp) = ip ++ 46 :: fp').
  { rewrite E. clear - Tp. induction k as [|k IH].
    - unfold zeros. cbn [repeat]. rewrite app_nil_r. unfold trim_end. rewrite rev_app_distr. cbn [rev].
      destruct (list_snoc fp') as [->|(m & c & ->)].
      + cbn. rewrite rev_involutive. reflexivity.
      + rewrite rev_app_distr. cbn [rev app trim_start]. destruct (N.eqb_spec 48 c) as [<-|Hn]; [exfalso; exact (Tp m eq_refl)|].
        cbn [rev]. rewrite !rev_app_distr, !rev_involutive. cbn [rev app]. rewrite <- !app_assoc. reflexivity.
    - assert (Z : zeros (S k) = zeros k ++ [48]).
      { unfold zeros. clear. induction k; [reflexivity|]. cbn [repeat app] in *. f_equal. exact IHk. }
      rewrite Z. unfold trim_end in *. rewrite app_comm_cons, app_assoc, app_assoc, rev_app_distr.
      cbn [rev app trim_start]. rewrite <- app_assoc. cbn [N.eqb Pos.eqb]. exact IH. }
  rewrite Te. destruct (list_snoc fp') as [->|(m & c & ->)].
  - rewrite rev_app_distr. cbn. rewrite rev_involutive, app_nil_r. reflexivity.
  - rewrite app_comm_cons, app_assoc, rev_app_distr. cbn [rev app].
    assert (Hc : digit_char c).
    { rewrite E in Hfp. rewrite <- app_assoc in Hfp. apply Forall_app in Hfp. destruct Hfp as [_ Hfp].
      inversion Hfp; assumption. }
    unfold digit_char in Hc. destruct (N.eqb_spec c 46); [lia|].
    rewrite <- app_assoc. unfold fraction. destruct (m ++ [c]) eqn:Em; [destruct m; discriminate|].
    rewrite <- Em, <- app_comm_cons. reflexivity.
Qed.

Lemma trim_fraction_none s : Forall digit_char s -> trim_fraction s = s.
Proof.
  intros H. unfold trim_fraction.
  assert (Ex : existsb (N.eqb 46) s = false).
  { apply not_true_is_false. intros C. apply existsb_exists in C. destruct C as (x & Hx & Ex).
    apply N.eqb_eq in Ex. subst x. rewrite Forall_forall in H. specialize (H _ Hx). unfold digit_char in H. lia. }
  rewrite Ex. destruct (list_snoc s) as [->|(m & c & ->)]; [reflexivity|].
  rewrite rev_app_distr. cbn [rev app]. apply Forall_app in H. destruct H as [_ H]. inversion H; subst.
  unfold digit_char in *. destruct (N.eqb_spec c 46); [lia|reflexivity].
Qed.

Lemma no_leading_app s z : no_leading_zero s -> s <> [] -> number s <> 0 -> no_leading_zero (s ++ z).
Proof.
  intros H Hne Hn c r E Ec. destruct s as [|d s]; [congruence|]. cbn [app] in E. inversion E; subst.
  rewrite (H 48 s eq_refl eq_refl) in Hn. exfalso. apply Hn. reflexivity.
Qed.

Lemma no_leading_firstn s n : no_leading_zero s -> s <> [] -> number s <> 0 -> no_leading_zero (firstn n s).
Proof.
  intros H Hne Hn c r E Ec. destruct s as [|d s]; [congruence|]. destruct n; [discriminate|].
  cbn [firstn] in E. inversion E; subst.
  rewrite (H 48 s eq_refl eq_refl) in Hn. exfalso. apply Hn. reflexivity.
Qed.

Lemma top_no_zero_end fp : top fp <-> forall m, fp <> m ++ [48].
Proof. reflexivity. Qed.

(** shape of the result *)
Lemma apply_power10_shape neg ds e : digits ds -> number ds <> 0 ->
  exists ip fp, apply_power10 (spelled neg ds) e = spelled neg (ip ++ fraction fp) /\
    ip <> [] /\ Forall digit_char ip /\ Forall digit_char fp /\ top fp /\
    (number ds * pow10 (length fp) * pow10 (Z.to_nat e) = number (ip ++ fp) * pow10 (Z.to_nat (- e))) /\
    (no_leading_zero ds \/ (Z.of_nat (length ds) <= 1 - e)%Z -> no_leading_zero ip).
Proof.
  intros Hd Hnz. unfold apply_power10. rewrite (split_spelled neg ds Hd). destruct Hd as [Hne Hd].
  assert (Hz : forallb (N.eqb 48) ds = false).
  { apply not_true_is_false. intros C. apply all_48 in C. apply Hnz. apply number_zero; assumption. }
  rewrite Hz. clear Hz.
  assert (Main : exists ip fp, trim_fraction
      (if (0 <=? e)%Z then ds ++ zeros (Z.to_nat e)
       else if (Z.abs_nat e <? length ds)%nat
            then firstn (length ds - Z.abs_nat e) ds ++ 46 :: skipn (length ds - Z.abs_nat e) ds
            else txt "0." ++ zeros (Z.abs_nat e - length ds) ++ ds) = ip ++ fraction fp /\
    ip <> [] /\ Forall digit_char ip /\ Forall digit_char fp /\ top fp /\
    (number ds * pow10 (length fp) * pow10 (Z.to_nat e) = number (ip ++ fp) * pow10 (Z.to_nat (- e))) /\
    (no_leading_zero ds \/ (Z.of_nat (length ds) <= 1 - e)%Z -> no_leading_zero ip)).
  { destruct (Z.leb_spec 0 e) as [He|He].
    - exists (ds ++ zeros (Z.to_nat e)), []. cbn [fraction]. rewrite !app_nil_r.
      assert (F : Forall digit_char (ds ++ zeros (Z.to_nat e))) by (apply Forall_app; split; [exact Hd|apply zeros_digits]).
      rewrite trim_fraction_none by exact F. split; [reflexivity|]. split; [destruct ds; [congruence|discriminate]|].
      split; [exact F|]. split; [constructor|]. split; [apply top_nil|]. split.
      + rewrite number_app_zeros. replace (Z.to_nat (- e)) with O by lia. unfold pow10 at 1 4. cbn. lia.
      + intros [H|H]; [apply no_leading_app; assumption|].
        assert (Hl : length (ds ++ zeros (Z.to_nat e)) = 1%nat).
        { rewrite app_length, len_zeros. destruct ds; [congruence|]. cbn [length] in *. lia. }
        intros c r Ec _. rewrite Ec in Hl. destruct r; [reflexivity|discriminate].
    - replace (Z.to_nat e) with O by lia.
      assert (Hp : Z.abs_nat e = Z.to_nat (- e)) by lia. rewrite Hp. set (p := Z.to_nat (- e)).
      destruct (Nat.ltb_spec p (length ds)) as [Hlt|Hge].
      + set (split := (length ds - p)%nat).
        assert (Fi : Forall digit_char (firstn split ds)) by (apply Forall_firstn; exact Hd).
        assert (Fs : Forall digit_char (skipn split ds)) by (apply Forall_skipn; exact Hd).
        destruct (trim_fraction_point _ _ Fi Fs) as (k & fp & E & T & R).
        exists (firstn split ds), fp. split; [exact R|].
        assert (Hsk : length (skipn split ds) = p) by (rewrite skipn_length; unfold split; lia).
        rewrite E in Fs. apply Forall_app in Fs. destruct Fs as [Fs _].
        split. { intros C. apply (f_equal (@length N)) in C. rewrite firstn_length_le in C by (unfold split; lia). cbn in C. unfold split in C. lia. }
        split; [exact Fi|]. split; [exact Fs|]. split; [exact T|]. split.
        * assert (N1 : number ds = number (firstn split ds ++ fp) * pow10 k).
          { rewrite <- number_app_zeros, <- app_assoc, <- E, firstn_skipn. reflexivity. }
          rewrite N1. rewrite E, app_length, len_zeros in Hsk. rewrite <- Hsk, pow10_add.
          unfold pow10 at 3. cbn. lia.
        * intros [H|H]; [apply no_leading_firstn; assumption|].
          assert (Hl : (length (firstn split ds) <= 1)%nat).
          { rewrite firstn_length_le by (unfold split; lia). unfold split. lia. }
          intros c r Ec _. rewrite Ec in Hl. destruct r; [reflexivity|cbn in Hl; lia].
      + change (txt "0.") with ([48] ++ [46]). rewrite <- app_assoc. cbn [app].
        assert (Fi : Forall digit_char [48]) by (repeat constructor; unfold digit_char; lia).
        assert (Fs : Forall digit_char (zeros (p - length ds) ++ ds)) by (apply Forall_app; split; [apply zeros_digits|exact Hd]).
        destruct (trim_fraction_point _ _ Fi Fs) as (k & fp & E & T & R).
        exists [48], fp. split; [exact R|]. split; [discriminate|]. split; [exact Fi|].
        assert (Hsk : length (zeros (p - length ds) ++ ds) = p) by (rewrite app_length, len_zeros; lia).
        pose proof Fs as Fs'. rewrite E in Fs'. apply Forall_app in Fs'. destruct Fs' as [Fs' _].
        split; [exact Fs'|]. split; [exact T|]. split.
        * assert (N1 : number ds = number ([48] ++ fp) * pow10 k).
          { rewrite <- number_app_zeros. rewrite <- app_assoc. rewrite <- E.
            rewrite !number_app, number_zeros. cbn. lia. }
          rewrite N1. rewrite E, app_length, len_zeros in Hsk. rewrite <- Hsk, pow10_add.
          unfold pow10 at 3. cbn [N.of_nat N.pow]. change ([48] ++ fp) with (48 :: fp). lia.
        * intros _ c r Ec _. inversion Ec; reflexivity. }
  destruct Main as (ip & fp & R & P). exists ip, fp. split; [|exact P]. rewrite R.
  destruct neg; [|reflexivity]. cbn [andb spelled].
  replace (text_eqb (ip ++ fraction fp) (txt "0")) with false; [reflexivity|]. symmetry.
  apply text_eqb_neq. intros C. destruct P as (P1 & P2 & P3 & P4 & P5 & _).
  assert (Hp : fp = []).
  { destruct ip as [|c ip]; [congruence|]. cbn in C. inversion C. destruct ip; [|discriminate]. destruct fp; [reflexivity|discriminate]. }
  subst fp. cbn in C. rewrite app_nil_r in C. rewrite app_nil_r in P5. rewrite C in P5.
  change (number (txt "0")) with 0 in P5. pose proof (pow10_pos (Z.to_nat e)). unfold pow10 in P5 at 1. cbn in P5. nia.
Qed.

Lemma apply_power10_zero neg ds e : digits ds -> number ds = 0 -> apply_power10 (spelled neg ds) e = txt "0".
Proof.
  intros Hd Hz. unfold apply_power10. rewrite (split_spelled neg ds Hd). destruct Hd as [Hne Hd].
  apply number_zero in Hz; [|exact Hd]. apply all_48 in Hz. rewrite Hz. reflexivity.
Qed.

Open Scope Q_scope.
Lemma apply_power10_value neg ds e : digits ds ->
  decimal_text (apply_power10 (spelled neg ds) e) (inject_Z (signed neg (number ds)) * ten_power e) /\
  (no_leading_zero ds \/ (Z.of_nat (length ds) <= 1 - e)%Z -> canonical_decimal (apply_power10 (spelled neg ds) e)).
Proof.
  intros Hd. destruct (N.eq_dec (number ds) 0) as [Hz|Hnz].
  - rewrite (apply_power10_zero _ _ _ Hd Hz). rewrite Hz. split.
    + exists false, [48%N], []. split; [reflexivity|]. split; [discriminate|].
      split; [repeat constructor; unfold digit_char; lia|]. split; [constructor|].
      replace (signed neg 0) with 0%Z by (destruct neg; reflexivity).
      transitivity 0; [apply Qmult_0_l|reflexivity].
    + intros _. exists false, [48%N], []. split; [reflexivity|]. split; [discriminate|].
      split; [repeat constructor; unfold digit_char; lia|]. split; [constructor|].
      split; [intros c r E _; inversion E; reflexivity|]. split; [intros [|? m] C; discriminate|discriminate].
  - destruct (apply_power10_shape neg ds e Hd Hnz) as (ip & fp & R & P1 & P2 & P3 & P4 & P5 & P6).
    rewrite R.
    assert (Sh : spelled neg (ip ++ fraction fp) =
      ((if neg then [45%N] else []) ++ ip ++ match fp with [] => [] | _ => 46%N :: fp end)%list).
    { destruct neg; reflexivity. }
    split.
    + exists neg, ip, fp. split; [exact Sh|]. split; [exact P1|]. split; [exact P2|]. split; [exact P3|].
      assert (V : inject_Z (Z.of_N (number ds)) * ten_power e ==
                  inject_Z (Z.of_N (number (ip ++ fp))) / inject_Z (10 ^ Z.of_nat (length fp))).
      { assert (Hf : ~ inject_Z (10 ^ Z.of_nat (length fp)) == 0) by (rewrite <- ten_power_nat; apply ten_power_nz).
        apply (Qmult_inj_r _ _ (inject_Z (10 ^ Z.of_nat (length fp)))); [exact Hf|].
        rewrite (Qmult_comm (_ / _)), Qmult_div_r by exact Hf.
        apply (Qmult_inj_r _ _ (inject_Z (10 ^ Z.of_nat (Z.to_nat (- e))))).
        { rewrite <- ten_power_nat; apply ten_power_nz. }
        rewrite <- inject_Z_mult. rewrite <- !pow10_Z, <- N2Z.inj_mul, <- P5, !N2Z.inj_mul, !inject_Z_mult, !pow10_Z.
        assert (Te : ten_power e * inject_Z (10 ^ Z.of_nat (Z.to_nat (- e))) == inject_Z (10 ^ Z.of_nat (Z.to_nat e))).
        { rewrite <- !ten_power_nat, <- ten_power_add. replace (e + Z.of_nat (Z.to_nat (- e)))%Z with (Z.of_nat (Z.to_nat e)) by lia. reflexivity. }
        rewrite <- Te. ring. }
      destruct neg; cbn [signed]; [rewrite inject_Z_opp|].
      * transitivity (- (inject_Z (Z.of_N (number ds)) * ten_power e)); [ring|]. rewrite V. unfold Qdiv. ring.
      * rewrite V. unfold Qdiv. ring.
    + intros Hn. exists neg, ip, fp. split; [exact Sh|]. split; [exact P1|]. split; [exact P2|]. split; [exact P3|].
      split; [exact (P6 Hn)|]. split; [exact P4|]. intros _ C. rewrite C in P5.
      pose proof (pow10_pos (length fp)). pose proof (pow10_pos (Z.to_nat e)).
      apply Hnz. clear - P5 H H0. nia.
Qed.

(** *** scaled_decimal *)
Lemma zeros_lead n : lead (49%N :: zeros n).
Proof. intros r C. inversion C. Qed.

Lemma number_one_zeros n : number (49%N :: zeros n) = pow10 n.
Proof. rewrite number_cons, number_zeros, len_zeros. lia. Qed.

Lemma scaled_value neg ds scale offset : digits ds ->
  decimal_text (scaled_decimal (spelled neg ds) scale offset)
    (inject_Z (signed neg (number ds)) * ten_power scale + addend offset) /\
  (no_leading_zero ds -> (neg = true \/ number ds <> 0%N \/ offset = None \/ (scale <= 0)%Z \/ exists o, offset = Some o /\ (scale <= o)%Z) ->
    canonical_decimal (scaled_decimal (spelled neg ds) scale offset)).
Proof.
  intros Hd. unfold scaled_decimal. rewrite (split_spelled neg ds Hd).
  set (m := match offset with Some v => Z.min v scale | None => scale end).
  set (left := (ds ++ zeros (Z.to_nat (scale - m)))%list).
  assert (Hl : digits left).
  { unfold left. destruct Hd as [Hne Hd]. split; [destruct ds; [congruence|discriminate]|].
    apply Forall_app. split; [exact Hd|apply zeros_digits]. }
  assert (Hms : (m <= scale)%Z) by (unfold m; destruct offset; lia).
  assert (Nl : number left = (number ds * pow10 (Z.to_nat (scale - m)))%N) by apply number_app_zeros.
  assert (Vl : inject_Z (signed neg (number left)) * ten_power m == inject_Z (signed neg (number ds)) * ten_power scale).
  { assert (E : signed neg (number left) = (signed neg (number ds) * 10 ^ Z.of_nat (Z.to_nat (scale - m)))%Z).
    { rewrite Nl. destruct neg; cbn [signed]; rewrite N2Z.inj_mul, pow10_Z; ring. }
    rewrite E, inject_Z_mult, <- ten_power_nat, <- Qmult_assoc, <- ten_power_add.
    replace (Z.of_nat (Z.to_nat (scale - m)) + m)%Z with scale by lia. reflexivity. }
  destruct offset as [o|].
  - set (right := (49%N :: zeros (Z.to_nat (o - m)))).
    assert (Hr : digits right).
    { split; [discriminate|]. constructor; [unfold digit_char; lia|apply zeros_digits]. }
    assert (Hmo : (m <= o)%Z) by (unfold m; lia).
    change (if neg then 45%N :: left else left) with (spelled neg left).
    destruct (add_signed_ok neg left right Hl Hr) as (r & rn & E & Dr & V & C1 & C2). rewrite E.
    destruct (apply_power10_value rn r m Dr) as [A1 A2]. split.
    + destruct A1 as (ng & ip & fp & B1 & B2 & B3 & B4 & B5). exists ng, ip, fp.
      split; [exact B1|]. split; [exact B2|]. split; [exact B3|]. split; [exact B4|]. rewrite <- B5.
      rewrite V, inject_Z_plus, Qmult_plus_distr_l, Vl. cbn [addend]. apply Qplus_inj_l.
      unfold right. rewrite number_one_zeros, pow10_Z, <- ten_power_nat, <- ten_power_add.
      replace (Z.of_nat (Z.to_nat (o - m)) + m)%Z with o by lia. reflexivity.
    + intros Hn Hc. apply A2. destruct neg; [auto|].
      specialize (C2 eq_refl). rewrite C2.
      destruct (N.eq_dec (number ds) 0) as [Hz|Hnz].
      * assert (Hds : ds = [48%N]).
        { destruct Hd as [Hne Hd]. apply number_zero in Hz; [|exact Hd]. destruct ds as [|c ds]; [congruence|].
          inversion Hz; subst. rewrite (Hn _ _ eq_refl eq_refl). reflexivity. }
        destruct (Z.leb_spec scale o) as [Hso|Hso].
        -- left. assert (Hm0 : Z.to_nat (scale - m) = O) by (unfold m; lia).
           unfold left. rewrite Hds, Hm0. cbn [zeros repeat app].
           rewrite add_abs_zero by apply Hr. intros c rest Ec Ez. inversion Ec. congruence.
        -- right. destruct Hc as [?|[?|[?|[Hs0|(o' & Eo & Ho)]]]]; try congruence; [|inversion Eo; subst; lia].
           assert (Hm0 : m = o) by (unfold m; lia). unfold left, right. rewrite Hm0, Z.sub_diag, Hds. cbn [zeros repeat app Z.to_nat].
           change (48%N :: zeros (Z.to_nat (scale - o))) with (zeros (S (Z.to_nat (scale - o)))).
           rewrite add_zeros_one, app_length, len_zeros. cbn [length]. lia.
      * left. assert (L : lead (add_abs left right)).
        { apply add_abs_lead; [apply Hl|apply Hr| |apply zeros_lead].
          intros rest El. destruct ds as [|c ds]; [destruct Hd; congruence|]. unfold left in El. cbn [app] in El.
          inversion El; subst. rewrite (Hn _ _ eq_refl eq_refl) in Hnz. apply Hnz. reflexivity. }
        intros c rest Ec Ez. subst c. exfalso. exact (L rest Ec).
  - assert (m = scale) by reflexivity.
    change (if neg then 45%N :: left else left) with (spelled neg left).
    destruct (apply_power10_value neg left m Hl) as [A1 A2]. split.
    + destruct A1 as (ng & ip & fp & B1 & B2 & B3 & B4 & B5). exists ng, ip, fp.
      split; [exact B1|]. split; [exact B2|]. split; [exact B3|]. split; [exact B4|]. rewrite <- B5.
      rewrite Vl. cbn [addend]. ring.
    + intros Hn _. apply A2. left. unfold left. rewrite H. rewrite Z.sub_diag. cbn. rewrite app_nil_r. exact Hn.
Qed.

Lemma scaled_exact s z scale offset : integer_text s z \/ (s = [45%N; 48%N] /\ z = 0%Z) ->
  decimal_text (scaled_decimal s scale offset) (inject_Z z * ten_power scale + addend offset).
Proof.
  intros [(ds & Hne & Hd & Hn & [[-> ->]|(-> & -> & _)])|[-> ->]].
  - exact (proj1 (scaled_value false ds scale offset (conj Hne Hd))).
  - exact (proj1 (scaled_value true ds scale offset (conj Hne Hd))).
  - refine (proj1 (scaled_value true [48%N] scale offset (conj _ _))); [discriminate|].
    constructor; [unfold digit_char; lia|constructor].
Qed.

Lemma scaled_canonical s z scale offset : integer_text s z ->
  (z <> 0%Z \/ offset = None \/ (scale <= 0)%Z \/ exists o, offset = Some o /\ (scale <= o)%Z) ->
  canonical_decimal (scaled_decimal s scale offset).
Proof.
  intros (ds & Hne & Hd & Hn & [[-> ->]|(-> & -> & Hz)]) Hc.
  - refine (proj2 (scaled_value false ds scale offset (conj Hne Hd)) Hn _).
    destruct Hc as [H|H]; [right; left; lia|right; right; exact H].
  - exact (proj2 (scaled_value true ds scale offset (conj Hne Hd)) Hn (or_introl eq_refl)).
Qed.

Lemma leading_zeros_not_canonical c rest : c <> 46%N -> ~ canonical_decimal (48%N :: c :: rest).
Proof.
  intros Hc ([|] & ip & fp & E & Hne & _ & _ & Hn & _); [discriminate|]. cbn [app] in E.
  destruct ip as [|x ip]; [congruence|]. cbn [app] in E. inversion E; subst x.
  rewrite (Hn _ _ eq_refl eq_refl) in *. cbn [app] in *. destruct fp; [discriminate|]. inversion E. congruence.
Qed.
