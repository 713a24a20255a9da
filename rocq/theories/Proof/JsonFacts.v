(** The JSON grammar is unambiguous, and the writer conforms to it. *)
From Coq Require Import List NArith ZArith Lia Bool String.
Import ListNotations.
From Verif Require Import Model.Base Model.Text Model.F64 Model.Show Model.Output Model.Json Spec.JsonSpec
  Proof.BaseFacts Proof.TextFacts.
Open Scope N_scope.
Open Scope list_scope.

(** ** Unambiguity *)
Lemma blanks_cut w w' c d x y : blanks w -> blanks w' -> ~ blank c -> ~ blank d -> w ++ c :: x = w' ++ d :: y ->
  w = w' /\ c = d /\ x = y.
Proof.
  intros H. revert w'. induction H as [|a w Ha H IH]; intros [|b w'] H' Hc Hd E; cbn in E; injection E as E1 E2; subst.
  - auto.
  - inversion H'; subst. contradiction.
  - contradiction.
  - inversion H'; subst. destruct (IH w') as (-> & -> & ->); auto.
Qed.

Lemma hex_value_fun c n m : hex_value c n -> hex_value c m -> n = m.
Proof. intros H1 H2. inversion H1; inversion H2; lia. Qed.
Lemma four_hex_fun a b c d u v : four_hex a b c d u -> four_hex a b c d v -> u = v.
Proof.
  intros (x & y & z & w & A & B & C & D & ->) (x' & y' & z' & w' & A' & B' & C' & D' & ->).
  now rewrite (hex_value_fun _ _ _ A A'), (hex_value_fun _ _ _ B B'), (hex_value_fun _ _ _ C C'), (hex_value_fun _ _ _ D D').
Qed.
Lemma short_fun e c c' : In (e, c) short_escapes -> In (e, c') short_escapes -> c = c'.
Proof.
  unfold short_escapes. intros H H'. cbn [In] in H, H'.
  repeat (destruct H as [H|H]; [injection H as <- <-; repeat (destruct H' as [H'|H']; [now inversion H'|]); destruct H'|]). destruct H.
Qed.
Lemma short_not_u c : ~ In (0x75, c) short_escapes.
Proof. unfold short_escapes. cbn [In]. intros H. repeat (destruct H as [H|H]; [discriminate H|]). destruct H. Qed.

Lemma chars_cut raw t : chars raw t -> forall raw' t' r r', chars raw' t' -> raw ++ 0x22 :: r = raw' ++ 0x22 :: r' ->
  raw = raw' /\ t = t' /\ r = r'.
Proof.
  induction 1 as [|c raw t H1 H2 H3 H IH|e c raw t He H IH|a b c d u raw t F N H IH|a b c d hi a' b' c' d' lo raw t F1 R1 F2 R2 H IH];
    intros raw' t' r r' H' E; destruct H' as [|c0 raw0 t0 G1 G2 G3 H'|e0 c0 raw0 t0 G H'|a0 b0 c0 d0 u0 raw0 t0 G N0 H'
                                             |a0 b0 c0 d0 hi0 a1 b1 c1 d1 lo0 raw0 t0 G1 S1 G2 S2 H'];
    cbn [app] in E; injection E; clear E; intros; subst; try congruence; try lia; try now (exfalso; eapply short_not_u; eassumption).
  - auto.
  - destruct (IH _ _ _ _ H' ltac:(eassumption)) as (-> & -> & ->). auto.
  - pose proof (short_fun _ _ _ He G). subst. destruct (IH _ _ _ _ H' ltac:(eassumption)) as (-> & -> & ->). auto.
  - pose proof (four_hex_fun _ _ _ _ _ _ F G). subst. destruct (IH _ _ _ _ H' ltac:(eassumption)) as (-> & -> & ->). auto.
  - exfalso. apply N. rewrite (four_hex_fun _ _ _ _ _ _ F G1). lia.
  - exfalso. apply N0. rewrite (four_hex_fun _ _ _ _ _ _ G F1). lia.
  - pose proof (four_hex_fun _ _ _ _ _ _ F1 G1). pose proof (four_hex_fun _ _ _ _ _ _ F2 G2). subst.
    destruct (IH _ _ _ _ H' ltac:(eassumption)) as (-> & -> & ->). auto.
Qed.

Definition num_char (c : N) : Prop := digit c \/ In c [43; 45; 46; 69; 101].
Definition stops (r : text) : Prop := match r with [] => True | c :: _ => ~ num_char c end.
Lemma digits_num l : Forall digit l -> Forall num_char l.
Proof. intros H. eapply Forall_impl; [|exact H]. intros c Hc. now left. Qed.
Lemma numeral_chars t : numeral t -> Forall num_char t.
Proof.
  intros (sign & w & f & e & -> & Hs & Hw & Hf & He).
  assert (K : forall c, In c [43; 45; 46; 69; 101] -> num_char c) by (intros c Hc; now right).
  rewrite !Forall_app. repeat split.
  - destruct Hs as [->| ->]; [apply Forall_nil|]. apply Forall_cons, Forall_nil. apply K. cbn. auto.
  - destruct Hw as [->|(c & rest & -> & R & D)]; (apply Forall_cons; [left; unfold digit; lia|]); [apply Forall_nil|]. now apply digits_num.
  - destruct Hf as [->|(ds & -> & [_ D])]; constructor; [apply K; cbn; auto|]. now apply digits_num.
  - destruct He as [->|(x & s & ds & -> & Hx & Hs' & [_ D])]; [constructor|]. constructor; [apply K; cbn; destruct Hx; subst; auto 8|].
    apply Forall_app. split; [|now apply digits_num]. destruct Hs' as [->|[->| ->]]; [apply Forall_nil| |]; apply Forall_cons; try apply Forall_nil; apply K; cbn; auto.
Qed.
Lemma numeral_head t : numeral t -> exists c r, t = c :: r /\ (c = 45 \/ digit c).
Proof.
  intros (sign & w & f & e & -> & [->| ->] & Hw & _); [|eexists _, _; split; [reflexivity|now left]].
  destruct Hw as [->|(c & rest & -> & R & D)]; eexists _, _; (split; [reflexivity|right; unfold digit; lia]).
Qed.
Lemma num_cut t : Forall num_char t -> forall t' r r', Forall num_char t' -> t ++ r = t' ++ r' -> stops r -> stops r' -> t = t' /\ r = r'.
Proof.
  induction 1 as [|c t Hc H IH]; intros [|c' t'] r r' H' E S S'; cbn in E.
  - auto.
  - subst r. inversion H'; subst. cbn in S. contradiction.
  - subst r'. cbn in S'. contradiction.
  - injection E as <- E. inversion H'; subst. destruct (IH t' r r' ltac:(assumption) E S S') as (-> & ->). auto.
Qed.

(** what a value can start with *)
Definition starts (c : N) : Prop := In c [0x22; 0x5B; 0x7B; 102; 110; 116] \/ c = 45 \/ digit c.
Lemma value_head t v : value t v -> exists c r, t = c :: r /\ starts c.
Proof.
  destruct 1; try (eexists _, _; split; [reflexivity|left; cbn; auto 10]).
  destruct (numeral_head _ H) as (c & r & -> & K). exists c, r. split; [reflexivity|now right].
Qed.
Lemma starts_not c : starts c -> ~ blank c /\ c <> 44 /\ c <> 0x5D /\ c <> 0x7D.
Proof.
  intros [H|[->|H]]; [cbn in H|..]; unfold blank, digit in *; repeat split;
    try (intros K; decompose [or] K; subst); try (decompose [or] H; subst); try discriminate; try lia; try contradiction.
Qed.
Lemma stops_then w c r : blanks w -> ~ num_char c -> stops (w ++ c :: r).
Proof.
  destruct 1 as [|b w Hb H]; intros Hc; cbn; [exact Hc|]. unfold num_char, digit. intros [K|K]; destruct Hb as [->|[->|[->| ->]]]; cbn in K; lia.
Qed.
Lemma nn c : In c [44; 0x5D; 0x7D] -> ~ num_char c /\ ~ blank c.
Proof.
  cbn. intros H. unfold num_char, digit, blank. cbn. split; lia.
Qed.

Scheme value_ind3 := Induction for value Sort Prop
  with elements_ind3 := Induction for elements Sort Prop
  with members_ind3 := Induction for members Sort Prop.
Combined Scheme json_ind3 from value_ind3, elements_ind3, members_ind3.


Lemma numeral_hd t r : numeral t -> hd 0 (t ++ r) = 45 \/ digit (hd 0 (t ++ r)).
Proof. intros H. destruct (numeral_head _ H) as (c & x & -> & K). exact K. Qed.
Ltac other := match goal with
  | K : numeral ?t, E : ?t ++ ?r = _ |- _ => exfalso; pose proof (numeral_hd t r K) as Hd; rewrite E in Hd; cbn in Hd; unfold digit in Hd; lia
  | K : numeral ?t, E : _ = ?t ++ ?r |- _ => exfalso; pose proof (numeral_hd t r K) as Hd; rewrite <- E in Hd; cbn in Hd; unfold digit in Hd; lia
  | E : _ = _ |- _ => exfalso; apply (f_equal (hd 0)) in E; cbn in E; discriminate E
  end.

Lemma first_not_blank t v x w w' c y : value t v -> blanks w -> blanks w' -> ~ blank c -> w ++ t ++ x = w' ++ c :: y ->
  w = w' /\ t ++ x = c :: y /\ starts c.
Proof.
  intros V Hw Hw' Hc E. destruct (value_head _ _ V) as (a & r & -> & Sa). destruct (starts_not _ Sa) as (Nb & _).
  cbn [app] in E. destruct (blanks_cut _ _ _ _ _ _ Hw Hw' Nb Hc E) as (-> & <- & <-). auto.
Qed.
Lemma two_values t v x w t' v' x' w' : value t v -> value t' v' -> blanks w -> blanks w' -> w ++ t ++ x = w' ++ t' ++ x' ->
  w = w' /\ t ++ x = t' ++ x'.
Proof.
  intros V V' Hw Hw' E. destruct (value_head _ _ V') as (a & r & -> & Sa). destruct (starts_not _ Sa) as (Nb & _). cbn [app] in *.
  destruct (first_not_blank _ _ _ _ _ _ _ V Hw Hw' Nb E) as (A & B & _). auto.
Qed.

Theorem grammar_cut :
  (forall t v, value t v -> forall t' v' r r', value t' v' -> t ++ r = t' ++ r' -> stops r -> stops r' -> t = t' /\ v = v' /\ r = r') /\
  (forall t l, elements t l -> forall t' l' r r', elements t' l' -> t ++ 0x5D :: r = t' ++ 0x5D :: r' -> t = t' /\ l = l' /\ r = r') /\
  (forall t m, members t m -> forall t' m' r r', members t' m' -> t ++ 0x7D :: r = t' ++ 0x7D :: r' -> t = t' /\ m = m' /\ r = r').
Proof.
  destruct (nn 44 ltac:(cbn; auto)) as (N1 & B1). destruct (nn 0x5D ltac:(cbn; auto)) as (N2 & B2). destruct (nn 0x7D ltac:(cbn; auto)) as (N3 & B3).
  assert (Eel : forall w t l r r', blanks w -> elements t l -> w ++ 0x5D :: r = t ++ 0x5D :: r' -> False).
  { intros w t l r r' Hw [w0 t0 v0 w1 H1 H2 H3|w0 t0 v0 w1 rest l0 H1 H2 H3 H4] E; rewrite <- !app_assoc in E; symmetry in E;
      destruct (first_not_blank _ _ _ _ _ _ _ H2 H1 Hw B2 E) as (_ & _ & Sc); destruct (starts_not _ Sc) as (_ & _ & K & _); now apply K. }
  assert (Q : ~ blank 0x22) by (unfold blank; lia). assert (Bc : ~ blank 58) by (unfold blank; lia).
  assert (Emm : forall w t m r r', blanks w -> members t m -> w ++ 0x7D :: r = t ++ 0x7D :: r' -> False).
  { intros w t m r r' Hw [w0 raw k w1 w2 t0 v w3 H1 H2|w0 raw k w1 w2 t0 v w3 rest m0 H1 H2] E; unfold quoted in E; rewrite <- !app_assoc in E; cbn [app] in E;
      destruct (blanks_cut _ _ _ _ _ _ Hw H1 B3 Q E) as (_ & K & _); discriminate. }
  apply json_ind3.
  - intros t' v' r r' [] E S S'; try other. apply app_inv_head in E. auto.
  - intros t' v' r r' [] E S S'; try other. apply app_inv_head in E. auto.
  - intros t' v' r r' [] E S S'; try other. apply app_inv_head in E. auto.
  - intros t Ht t' v' r r' [] E S S'; try other. destruct (num_cut t (numeral_chars _ Ht) t0 r r' (numeral_chars _ H) E S S') as (-> & ->). auto.
  - intros raw t Hc t' v' r r' [] E S S'; try other. unfold quoted in E. cbn [app] in E. injection E as E. rewrite <- !app_assoc in E. cbn [app] in E.
    destruct (chars_cut _ _ Hc _ _ _ _ H E) as (-> & -> & ->). auto.
  - intros w Hw t' v' r r' [] E S S'; try other.
    + cbn [app] in E. injection E as E. rewrite <- !app_assoc in E. cbn [app] in E. destruct (blanks_cut _ _ _ _ _ _ Hw H B2 B2 E) as (-> & _ & ->). auto.
    + exfalso. cbn [app] in E. injection E as E. rewrite <- !app_assoc in E. refine (Eel _ _ _ _ _ Hw _ E); eassumption.
  - intros t l Hl IH t' v' r r' [] E S S'; try other.
    + exfalso. cbn [app] in E. injection E as E. rewrite <- !app_assoc in E. symmetry in E. refine (Eel _ _ _ _ _ _ _ E); [eassumption|exact Hl].
    + cbn [app] in E. injection E as E. rewrite <- !app_assoc in E. destruct (IH _ _ _ _ H E) as (-> & -> & ->). auto.
  - intros w Hw t' v' r r' [] E S S'; try other.
    + cbn [app] in E. injection E as E. rewrite <- !app_assoc in E. cbn [app] in E. destruct (blanks_cut _ _ _ _ _ _ Hw H B3 B3 E) as (-> & _ & ->). auto.
    + exfalso. cbn [app] in E. injection E as E. rewrite <- !app_assoc in E. refine (Emm _ _ _ _ _ Hw _ E); eassumption.
  - intros t l Hl IH t' v' r r' [] E S S'; try other.
    + exfalso. cbn [app] in E. injection E as E. rewrite <- !app_assoc in E. symmetry in E. refine (Emm _ _ _ _ _ _ _ E); [eassumption|exact Hl].
    + cbn [app] in E. injection E as E. rewrite <- !app_assoc in E. destruct (IH _ _ _ _ H E) as (-> & -> & ->). auto.
  - intros w t v w' Hw V IH Hw' t' l' r r' [w0 t0 v0 w1 H1 H2 H3|w0 t0 v0 w1 rest l0 H1 H2 H3 H4] E; rewrite <- !app_assoc in E;
      destruct (two_values _ _ _ _ _ _ _ _ V H2 Hw H1 E) as (-> & E1); clear E;
      (destruct (IH _ _ _ _ H2 E1) as (-> & -> & E); [apply stops_then; assumption|apply stops_then; assumption|]); cbn [app] in E.
    + destruct (blanks_cut _ _ _ _ _ _ Hw' H3 B2 B2 E) as (-> & _ & ->). auto.
    + exfalso. destruct (blanks_cut _ _ _ _ _ _ Hw' H3 B2 B1 E) as (_ & K & _). discriminate.
  - intros w t v w' rest l Hw V IH Hw' Hr IHr t' l' r r' [w0 t0 v0 w1 H1 H2 H3|w0 t0 v0 w1 rest0 l0 H1 H2 H3 H4] E; rewrite <- !app_assoc in E;
      destruct (two_values _ _ _ _ _ _ _ _ V H2 Hw H1 E) as (-> & E1); clear E;
      (destruct (IH _ _ _ _ H2 E1) as (-> & -> & E); [apply stops_then; assumption|apply stops_then; assumption|]); cbn [app] in E.
    + exfalso. destruct (blanks_cut _ _ _ _ _ _ Hw' H3 B1 B2 E) as (_ & K & _). discriminate.
    + destruct (blanks_cut _ _ _ _ _ _ Hw' H3 B1 B1 E) as (-> & _ & E2). destruct (IHr _ _ _ _ H4 E2) as (-> & -> & ->). auto.
  - intros w raw k w1 w2 t v w3 Hw Hk Hw1 Hw2 V IH Hw3 t' m' r r'
      [w0 raw0 k0 w10 w20 t0 v0 w30 G0 Gk G1 G2 GV G3|w0 raw0 k0 w10 w20 t0 v0 w30 rest m0 G0 Gk G1 G2 GV G3 Gr] E;
      unfold quoted in *; rewrite <- !app_assoc in E; cbn [app] in E; rewrite <- !app_assoc in E; cbn [app] in E;
      destruct (blanks_cut _ _ _ _ _ _ Hw G0 Q Q E) as (-> & _ & E1); clear E;
      destruct (chars_cut _ _ Hk _ _ _ _ Gk E1) as (-> & -> & E2); clear E1;
      destruct (blanks_cut _ _ _ _ _ _ Hw1 G1 Bc Bc E2) as (-> & _ & E3); clear E2;
      destruct (two_values _ _ _ _ _ _ _ _ V GV Hw2 G2 E3) as (-> & E4); clear E3;
      (destruct (IH _ _ _ _ GV E4) as (-> & -> & E); [apply stops_then; assumption|apply stops_then; assumption|]); cbn [app] in E.
    + destruct (blanks_cut _ _ _ _ _ _ Hw3 G3 B3 B3 E) as (-> & _ & ->). auto.
    + exfalso. destruct (blanks_cut _ _ _ _ _ _ Hw3 G3 B3 B1 E) as (_ & K & _). discriminate.
  - intros w raw k w1 w2 t v w3 rest m Hw Hk Hw1 Hw2 V IH Hw3 Hr IHr t' m' r r'
      [w0 raw0 k0 w10 w20 t0 v0 w30 G0 Gk G1 G2 GV G3|w0 raw0 k0 w10 w20 t0 v0 w30 rest0 m0 G0 Gk G1 G2 GV G3 Gr] E;
      unfold quoted in *; rewrite <- !app_assoc in E; cbn [app] in E; rewrite <- !app_assoc in E; cbn [app] in E;
      destruct (blanks_cut _ _ _ _ _ _ Hw G0 Q Q E) as (-> & _ & E1); clear E;
      destruct (chars_cut _ _ Hk _ _ _ _ Gk E1) as (-> & -> & E2); clear E1;
      destruct (blanks_cut _ _ _ _ _ _ Hw1 G1 Bc Bc E2) as (-> & _ & E3); clear E2;
      destruct (two_values _ _ _ _ _ _ _ _ V GV Hw2 G2 E3) as (-> & E4); clear E3;
      (destruct (IH _ _ _ _ GV E4) as (-> & -> & E); [apply stops_then; assumption|apply stops_then; assumption|]); cbn [app] in E.
    + exfalso. destruct (blanks_cut _ _ _ _ _ _ Hw3 G3 B1 B3 E) as (_ & K & _). discriminate.
    + destruct (blanks_cut _ _ _ _ _ _ Hw3 G3 B1 B1 E) as (-> & _ & E5). destruct (IHr _ _ _ _ Gr E5) as (-> & -> & ->). auto.
Qed.

Lemma one_value t v v' : json_text t v -> json_text t v' -> v = v'.
Proof.
  intros (w & x & w1 & -> & H1 & H2 & V) (w' & x' & w1' & E & H1' & H2' & V').
  destruct (two_values _ _ _ _ _ _ _ _ V V' H1 H1' E) as (-> & E1).
  destruct (proj1 grammar_cut _ _ V _ _ _ _ V' E1) as (_ & K & _); [..|exact K].
  - destruct H2; [exact I|]. cbn. unfold num_char, digit. cbn. destruct H as [->|[->|[->| ->]]]; lia.
  - destruct H2'; [exact I|]. cbn. unfold num_char, digit. cbn. destruct H as [->|[->|[->| ->]]]; lia.
Qed.

(** ** The writer *)

Fixpoint json_ind2 (P : json -> Prop) (Hn : P VNull) (Hb : forall b, P (VBool b)) (Hm : forall t, P (VNumber t)) (Hs : forall t, P (VString t))
  (Ha : forall l, Forall P l -> P (VArray l)) (Ho : forall m, Forall P (map snd m) -> P (VObject m)) (v : json) : P v :=
  let rec := json_ind2 P Hn Hb Hm Hs Ha Ho in
  match v with
  | VNull => Hn
  | VBool b => Hb b
  | VNumber t => Hm t
  | VString t => Hs t
  | VArray l => Ha l ((fix go l := match l return Forall P l with [] => Forall_nil _ | x :: r => Forall_cons x (rec x) (go r) end) l)
  | VObject m => Ho m ((fix go m := match m return Forall P (map snd m) with [] => Forall_nil _ | (k, x) :: r => Forall_cons x (rec x) (go r) end) m)
  end.

(** all numbers in a value are numerals *)
Inductive good_numbers : json -> Prop :=
| GoodAtom v : (match v with VArray _ | VObject _ | VNumber _ => False | _ => True end) -> good_numbers v
| GoodNumber t : numeral t -> good_numbers (VNumber t)
| GoodArray l : Forall good_numbers l -> good_numbers (VArray l)
| GoodObject m : Forall good_numbers (map snd m) -> good_numbers (VObject m).

Lemma hex_low_value n : n < 16 -> hex_value (hex_low n) n.
Proof. intros H. unfold hex_low. destruct (n <? 10) eqn:E; [apply N.ltb_lt in E; now constructor|apply N.ltb_ge in E; constructor; lia]. Qed.
Lemma json_char_chars c raw t : chars raw t -> chars (json_char c ++ raw) (c :: t).
Proof.
  intros H. unfold json_char.
  destruct (N.eqb_spec c 0x22) as [->|N1]; [apply CharsShort; [cbn; auto 10|exact H]|].
  destruct (N.eqb_spec c 0x5C) as [->|N2]; [apply CharsShort; [cbn; auto 10|exact H]|].
  destruct (N.eqb_spec c 8) as [->|N3]; [apply CharsShort; [cbn; auto 10|exact H]|].
  destruct (N.eqb_spec c 9) as [->|N4]; [apply CharsShort; [cbn; auto 10|exact H]|].
  destruct (N.eqb_spec c 10) as [->|N5]; [apply CharsShort; [cbn; auto 10|exact H]|].
  destruct (N.eqb_spec c 12) as [->|N6]; [apply CharsShort; [cbn; auto 10|exact H]|].
  destruct (N.eqb_spec c 13) as [->|N7]; [apply CharsShort; [cbn; auto 10|exact H]|].
  destruct (N.ltb_spec c 0x20) as [L|L]; [|apply CharsPlain; auto].
  cbn [app]. apply CharsHex; [|lia|exact H].
  exists 0, 0, (c / 16), (c mod 16). split; [apply (HexDigit 0); lia|]. split; [apply (HexDigit 0); lia|].
  split; [apply hex_low_value; apply N.div_lt_upper_bound; lia|]. split; [apply hex_low_value; apply N.mod_lt; lia|].
  pose proof (N.div_mod c 16). lia.
Qed.
Lemma string_chars t : chars (flat_map json_char t) t.
Proof. induction t as [|c t IH]; [constructor|]. cbn [flat_map]. now apply json_char_chars. Qed.
Lemma new_line_blanks d : blanks (new_line d).
Proof.
  unfold new_line. constructor; [unfold blank; lia|]. induction d as [|d IH]; [constructor|]. cbn [repeat concat].
  apply Forall_app. split; [|exact IH]. repeat constructor.
Qed.
Lemma lines_elements d l w : Forall (fun v => value (write d v) v) l -> l <> [] -> blanks w -> elements (lines d (map (write d) l) ++ w) l.
Proof.
  induction 1 as [|v l Hv H IH]; intros Hl Hw; [congruence|]. destruct l as [|v' l].
  - cbn [map lines]. rewrite <- app_assoc. apply LastElement; auto using new_line_blanks.
  - cbn [map]. change (lines d (write d v :: write d v' :: map (write d) l)) with (new_line d ++ write d v ++ txt "," ++ lines d (map (write d) (v' :: l))).
    rewrite <- !app_assoc. apply (MoreElements _ _ _ []); auto using new_line_blanks; [constructor|]. apply IH; [discriminate|exact Hw].
Qed.
Lemma lines_members d m w : Forall (fun v => value (write d v) v) (map snd m) -> m <> [] -> blanks w ->
  members (lines d (map (fun '(k, x) => json_string k ++ txt ": " ++ write d x) m) ++ w) m.
Proof.
  induction m as [|[k v] m IH]; intros H Hm Hw; [congruence|]. cbn [map snd] in H. inversion H as [|? ? Hv Hr]; subst.
  assert (Bs : blanks [0x20]) by (repeat constructor).
  assert (Sp : txt ": " = txt ":" ++ [0x20]) by reflexivity.
  destruct m as [|[k' v'] m].
  - cbn [map lines]. rewrite Sp, <- !app_assoc. apply (LastMember _ (flat_map json_char k) k [] [0x20]); auto using new_line_blanks, string_chars; constructor.
  - match goal with |- members (?ls ++ w) _ => change ls with (new_line d ++ (json_string k ++ txt ": " ++ write d v) ++ txt "," ++
       lines d (map (fun '(k, x) => json_string k ++ txt ": " ++ write d x) ((k', v') :: m))) end.
    rewrite Sp, <- !app_assoc. apply (MoreMembers _ (flat_map json_char k) k [] [0x20] _ _ []); auto using new_line_blanks, string_chars; try constructor.
    apply IH; [exact Hr|discriminate|exact Hw].
Qed.
Lemma write_value v : good_numbers v -> forall d, value (write d v) v.
Proof.
  induction v as [|b|t|t|l IH|m IH] using json_ind2; intros G d; cbn [write].
  - constructor.
  - destruct b; constructor.
  - inversion G as [? K|? K| |]; subst; [destruct K|]. now constructor.
  - apply IsString, string_chars.
  - inversion G as [? K| |? K|]; subst; [destruct K|]. destruct l as [|v l]; [apply (IsEmptyArray []); constructor|].
    rewrite (app_assoc _ (new_line d) _). change (value (txt "[" ++ (lines (S d) (map (write (S d)) (v :: l)) ++ new_line d) ++ txt "]") (VArray (v :: l))).
    apply IsArray, lines_elements; [|discriminate|apply new_line_blanks]. clear - IH K. induction IH; inversion K; subst; constructor; auto.
  - inversion G as [? K| | |? K]; subst; [destruct K|]. destruct m as [|[k v] m]; [apply (IsEmptyObject []); constructor|].
    rewrite (app_assoc _ (new_line d) _).
    change (value (txt "{" ++ (lines (S d) (map (fun '(k, x) => json_string k ++ txt ": " ++ write (S d) x) ((k, v) :: m)) ++ new_line d) ++ txt "}") (VObject ((k, v) :: m))).
    apply IsObject, lines_members; [|discriminate|apply new_line_blanks]. clear - IH K. revert IH K. generalize (map snd ((k, v) :: m)). intros l IH K. induction IH; inversion K; subst; constructor; auto.
Qed.
Theorem pretty_text v : good_numbers v -> json_text (to_string_pretty v) v.
Proof.
  intros G. exists [], (to_string_pretty v), []. rewrite app_nil_r. split; [reflexivity|]. repeat split; try constructor. now apply write_value.
Qed.
