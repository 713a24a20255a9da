(** Lemmas about hexadecimal input. *)
From Coq Require Import Lia ZArith String.
From Verif Require Import Model.Base Model.Text Model.Hex Spec.TextSpec Proof.BaseFacts Proof.TextFacts.

Lemma hexdigit_ok c : is_ascii_hexdigit c = true <-> exists v, hex_digit c v.
Proof.
  unfold is_ascii_hexdigit, hex_digit. rewrite ?orb_true_iff, ?andb_true_iff, ?N.leb_le. split.
  - intros [[H|H]|H]; [exists (c - 48)|exists (c - 55)|exists (c - 87)]; lia.
  - intros (v & H). lia.
Qed.

Lemma hex_value_ok c v : hex_digit c v -> hex_value c = v.
Proof.
  unfold hex_digit, hex_value. intros H.
  destruct ((48 <=? c) && (c <=? 57)) eqn:A; [apply andb_true_iff in A; rewrite !N.leb_le in A; lia|].
  destruct ((65 <=? c) && (c <=? 70)) eqn:B; [apply andb_true_iff in B; rewrite !N.leb_le in B|];
    apply andb_false_iff in A; rewrite !N.leb_gt in A; [lia|].
  apply andb_false_iff in B; rewrite !N.leb_gt in B. lia.
Qed.

Lemma hexdigit_value c : is_ascii_hexdigit c = true -> hex_digit c (hex_value c).
Proof. intros H. apply hexdigit_ok in H. destruct H as [v H]. rewrite (hex_value_ok _ _ H). exact H. Qed.

Lemma hexdigit_ascii c : is_ascii_hexdigit c = true -> c < 128.
Proof. intros H. apply hexdigit_value in H. unfold hex_digit in H. lia. Qed.

Lemma hexdigit_not_white c : is_ascii_hexdigit c = true -> is_whitespace c = false.
Proof.
  intros H. apply hexdigit_value in H. unfold hex_digit in H. apply not_white.
  intros W. apply white_ok in W. unfold is_whitespace in W.
  rewrite ?orb_true_iff, ?andb_true_iff, ?N.eqb_eq, ?N.leb_le in W. lia.
Qed.

Lemma separator_ok c : is_hex_separator c = true <-> separator c.
Proof.
  unfold is_hex_separator, is_ascii_whitespace, separator.
  rewrite ?orb_true_iff, ?N.eqb_eq. cbn [In]. intuition (subst; tauto || lia).
Qed.

Lemma hexdigit_not_sep c : is_ascii_hexdigit c = true -> is_hex_separator c = false.
Proof.
  intros H. apply hexdigit_value in H. unfold hex_digit in H.
  destruct (is_hex_separator c) eqn:E; [|reflexivity]. apply separator_ok in E.
  unfold separator in E. cbn [In] in E. lia.
Qed.

Lemma two_digits_ok s b : two_digits s b <->
  length s = 2%nat /\ forallb is_ascii_hexdigit s = true /\ hex_pairs s = [b].
Proof.
  split.
  - intros (c1 & v1 & c2 & v2 & -> & H1 & H2 & ->). cbn [length forallb hex_pairs].
    rewrite (hex_value_ok _ _ H1), (hex_value_ok _ _ H2).
    rewrite (proj2 (hexdigit_ok c1)), (proj2 (hexdigit_ok c2)); eauto.
  - intros (L & F & P). destruct s as [|c1 [|c2 [|]]]; try discriminate.
    cbn [forallb] in F. rewrite !andb_true_iff in F. destruct F as (F1 & F2 & _).
    cbn in P. inversion P. apply hexdigit_value in F1, F2.
    exists c1, (hex_value c1), c2, (hex_value c2). auto.
Qed.

Lemma compact_ok s bytes : compact s bytes <->
  forallb is_ascii_hexdigit s = true /\ len s mod 2 = 0 /\ hex_pairs s = bytes.
Proof.
  split.
  - induction 1 as [|d b rest bytes H _ (F & L & P)]; [auto|].
    apply two_digits_ok in H. destruct H as (Ld & Fd & Pd). destruct d as [|c1 [|c2 [|]]]; try discriminate.
    rewrite forallb_app, Fd, F. split; [reflexivity|]. split.
    + rewrite len_app. change (len [c1; c2]) with 2. rewrite <- (N.mod_add (len rest) 1 2) in L by discriminate.
      rewrite N.add_comm. exact L.
    + cbn [app hex_pairs]. cbn in Pd. inversion Pd. congruence.
  - intros (F & L & <-). revert F L.
    assert (Ind : forall n s, (length s < n)%nat -> forallb is_ascii_hexdigit s = true -> len s mod 2 = 0 -> compact s (hex_pairs s)).
    { clear s. intros n; induction n as [|n IH]; intros s Hn F L; [lia|].
      destruct s as [|c1 [|c2 s]]; [constructor|discriminate L|].
      cbn [forallb] in F. rewrite !andb_true_iff in F. destruct F as (F1 & F2 & F).
      cbn [hex_pairs]. change (c1 :: c2 :: s) with ([c1; c2] ++ s). constructor.
      - exists c1, (hex_value c1), c2, (hex_value c2). auto using hexdigit_value.
      - apply IH; [cbn in Hn; lia|assumption|].
        rewrite !len_cons in L. replace (len s + 1 + 1) with (len s + 1 * 2) in L by lia.
        rewrite N.mod_add in L by discriminate. exact L. }
    intros F L. exact (Ind (S (length s)) s (Nat.lt_succ_diag_r _) F L).
Qed.

Lemma push_token out tok i :
  (exists b, byte_token tok b /\ push_hex_token out tok i = Ok (out ++ [b])) \/
  ((forall b, ~ byte_token tok b) /\ push_hex_token out tok i = Err (InvalidHex i)).
Proof.
  unfold push_hex_token.
  set (digits := match strip_prefix (txt "0x") tok with Some d => d | None =>
                 match strip_prefix (txt "0X") tok with Some d => d | None => tok end end).
  assert (D : exists pre, tok = pre ++ digits /\ (pre = [] \/ pre = [48; 120] \/ pre = [48; 88]) /\
    (forall pre' ds b, tok = pre' ++ ds -> (pre' = [] \/ pre' = [48; 120] \/ pre' = [48; 88]) ->
       two_digits ds b -> ds = digits)).
  { assert (Hd : forall ds b, two_digits ds b -> exists c1 c2, ds = [c1; c2] /\ is_ascii_hexdigit c1 = true /\ is_ascii_hexdigit c2 = true).
    { intros ds b T. apply two_digits_ok in T. destruct T as (L & F & _).
      destruct ds as [|c1 [|c2 [|]]]; try discriminate. exists c1, c2. cbn in F. rewrite !andb_true_iff in F. tauto. }
    unfold digits. change (txt "0x") with [48; 120]. change (txt "0X") with [48; 88].
    destruct tok as [|a [|b t]].
    - exists []. repeat split; auto. intros pre ds b E _ T. destruct (Hd _ _ T) as (? & ? & -> & _). destruct pre as [|? [|]]; discriminate.
    - exists []. cbn [strip_prefix]. rewrite (N.eqb_sym 48). destruct (a =? 48); (split; [reflexivity|]; split; [auto|]);
        intros pre ds b E _ T; destruct (Hd _ _ T) as (? & ? & -> & _); destruct pre as [|? [|? [|]]]; discriminate.
    - cbn [strip_prefix]. destruct (N.eqb_spec 48 a) as [<-|Na].
      + destruct (N.eqb_spec 120 b) as [<-|Nb].
        { exists [48; 120]. split; [reflexivity|]. split; [auto|].
          intros pre ds x E [-> | [-> | ->]] T; cbn in E; [|congruence|discriminate].
          subst ds. destruct (Hd _ _ T) as (c1 & c2 & Ec & _ & F2). inversion Ec; subst. discriminate F2. }
        destruct (N.eqb_spec 88 b) as [<-|Nb'].
        { exists [48; 88]. split; [reflexivity|]. split; [auto|].
          intros pre ds x E [-> | [-> | ->]] T; cbn in E; [|discriminate|congruence].
          subst ds. destruct (Hd _ _ T) as (c1 & c2 & Ec & _ & F2). inversion Ec; subst. discriminate F2. }
        exists []. split; [reflexivity|]. split; [auto|].
        intros pre ds x E [-> | [-> | ->]] T; cbn in E; congruence.
      + exists []. split; [reflexivity|]. split; [auto|].
        intros pre ds x E [-> | [-> | ->]] T; cbn in E; congruence. }
  destruct D as (pre & Et & Hp & Hu). clearbody digits.
  destruct (text_len digits =? 2) eqn:L; cbn [negb orb].
  2:{ right. split; [|reflexivity]. intros b (pre' & ds & E & Hp' & T).
      pose proof (Hu _ _ _ E Hp' T). subst ds. apply two_digits_ok in T. destruct T as (Ld & F & _).
      rewrite text_len_ascii in L; [unfold len in L; rewrite Ld in L; discriminate L|].
      apply Forall_forall. intros c Hc. apply hexdigit_ascii. rewrite forallb_forall in F. auto. }
  destruct (forallb is_ascii_hexdigit digits) eqn:F; cbn [negb].
  2:{ right. split; [|reflexivity]. intros b (pre' & ds & E & Hp' & T).
      pose proof (Hu _ _ _ E Hp' T). subst ds. apply two_digits_ok in T. destruct T as (_ & F' & _). congruence. }
  left.
  assert (Ha : text_len digits = len digits).
  { apply text_len_ascii. apply Forall_forall. intros c Hc. apply hexdigit_ascii. rewrite forallb_forall in F. auto. }
  apply N.eqb_eq in L. rewrite L in Ha. unfold len in Ha.
  destruct digits as [|c1 [|c2 [|c3 d]]]; cbn [length] in Ha; try lia.
  exists (16 * hex_value c1 + hex_value c2). split; [|reflexivity].
  exists pre, [c1; c2]. split; [exact Et|]. split; [exact Hp|]. apply two_digits_ok. auto.
Qed.

Lemma token_chars tok b : byte_token tok b -> tok <> [] /\ forallb (fun c => negb (is_hex_separator c)) tok = true
  /\ (forall c, hd_error tok = Some c -> is_whitespace c = false) /\ (forall m c, tok = m ++ [c] -> is_whitespace c = false).
Proof.
  intros (pre & ds & -> & Hp & T). apply two_digits_ok in T. destruct T as (L & F & _).
  destruct ds as [|c1 [|c2 [|]]]; try discriminate. cbn [forallb] in F. rewrite !andb_true_iff in F. destruct F as (F1 & F2 & _).
  assert (Q : forallb (fun c => negb (is_hex_separator c)) [c1; c2] = true)
    by (cbn; rewrite (hexdigit_not_sep _ F1), (hexdigit_not_sep _ F2); reflexivity).
  repeat split.
  - destruct Hp as [-> | [-> | ->]]; discriminate.
  - destruct Hp as [-> | [-> | ->]]; cbn [app forallb]; try exact Q; cbn in Q |- *; exact Q.
  - intros c Hc. destruct Hp as [-> | [-> | ->]]; cbn in Hc; inversion Hc; subst; try reflexivity; apply hexdigit_not_white; assumption.
  - intros m c E. change (pre ++ [c1; c2]) with (pre ++ [c1] ++ [c2]) in E. rewrite app_assoc in E.
    apply app_inj_tail in E. destruct E as [_ <-]. apply hexdigit_not_white; assumption.
Qed.

Lemma separated_cons c s bytes : separator c -> separated s bytes -> separated (c :: s) bytes.
Proof.
  intros Hc H. destruct H as [seps H|seps tok b H T|seps tok b x rest bytes H T Hx Hr].
  - constructor; constructor; assumption.
  - change (c :: seps ++ tok) with ((c :: seps) ++ tok). constructor; [constructor|]; assumption.
  - change (c :: seps ++ tok ++ x :: rest) with ((c :: seps) ++ tok ++ x :: rest). constructor; try assumption. constructor; assumption.
Qed.

Lemma tokens_sound s : forall i bytes token ts saw out,
  hex_tokens s i bytes token ts saw = Ok out ->
  exists more, out = bytes ++ more /\ separated (token ++ s) more.
Proof.
  induction s as [|c s IH]; intros i bytes token ts saw out H; cbn [hex_tokens] in H.
  - destruct token as [|t tk].
    + inversion H; subst. exists []. rewrite app_nil_r. split; [reflexivity|]. constructor; constructor.
    + destruct (push_token bytes (t :: tk) ts) as [(b & T & E)|(_ & E)]; rewrite E in H; [|discriminate].
      inversion H; subst. exists [b]. split; [reflexivity|]. rewrite app_nil_r.
      change (t :: tk) with ([] ++ t :: tk). constructor; [constructor|assumption].
  - destruct (is_hex_separator c) eqn:Sc.
    + apply separator_ok in Sc. destruct token as [|t tk].
      * apply IH in H. destruct H as (more & -> & Hs). exists more. split; [reflexivity|]. apply separated_cons; assumption.
      * destruct (push_token bytes (t :: tk) ts) as [(b & T & E)|(_ & E)]; rewrite E in H; [|discriminate].
        cbn [bind] in H. apply IH in H. destruct H as (more & -> & Hs). exists (b :: more).
        rewrite <- app_assoc. split; [reflexivity|].
        change ((t :: tk) ++ c :: s) with ([] ++ (t :: tk) ++ c :: s). constructor; try assumption. constructor.
    + apply IH in H. destruct H as (more & -> & Hs). exists more. rewrite <- app_assoc in Hs. auto.
Qed.

Lemma tokens_skip seps : Forall separator seps -> forall s i bytes ts saw, exists i' saw',
  hex_tokens (seps ++ s) i bytes [] ts saw = hex_tokens s i' bytes [] ts saw'.
Proof.
  induction 1 as [|c seps Hc _ IH]; intros s i bytes ts saw; [eauto|].
  cbn [app hex_tokens]. apply separator_ok in Hc. rewrite Hc. apply IH.
Qed.

Lemma tokens_take tok : forallb (fun c => negb (is_hex_separator c)) tok = true ->
  forall s i bytes acc ts saw, exists i' ts' saw',
  hex_tokens (tok ++ s) i bytes acc ts saw = hex_tokens s i' bytes (acc ++ tok) ts' saw'.
Proof.
  induction tok as [|c tok IH]; intros F s i bytes acc ts saw.
  - rewrite app_nil_r. eauto.
  - cbn [forallb] in F. apply andb_true_iff in F. destruct F as [Fc F]. apply negb_true_iff in Fc.
    cbn [app hex_tokens]. rewrite Fc.
    destruct (IH F s (i + utf8_len c) bytes (acc ++ [c]) (if saw then i else ts) false) as (i' & ts' & saw' & E).
    rewrite <- app_assoc in E. eauto.
Qed.

Lemma tokens_complete s more : separated s more -> forall i bytes ts saw,
  hex_tokens s i bytes [] ts saw = Ok (bytes ++ more).
Proof.
  induction 1 as [seps H|seps tok b H T|seps tok b x rest more H T Hx _ IH]; intros i bytes ts saw.
  - destruct (tokens_skip seps H [] i bytes ts saw) as (i' & saw' & E).
    rewrite !app_nil_r in *. rewrite E. reflexivity.
  - destruct (tokens_skip seps H tok i bytes ts saw) as (i' & saw' & ->).
    destruct (token_chars _ _ T) as (Hne & F & _).
    destruct (tokens_take tok F [] i' bytes [] ts saw') as (i2 & ts2 & saw2 & E). rewrite app_nil_r in E. rewrite E.
    cbn [app hex_tokens]. destruct tok as [|t tk]; [congruence|].
    destruct (push_token bytes (t :: tk) ts2) as [(b' & T' & E')|(No & _)]; [|exfalso; exact (No b T)].
    rewrite E'. f_equal. f_equal. f_equal.
    assert (byte_token (t :: tk) b -> byte_token (t :: tk) b' -> b' = b).
    { clear. intros (p & d & E & Hp & D) (p' & d' & E' & Hp' & D').
      assert (d = d').
      { apply two_digits_ok in D, D'. destruct D as (L & _), D' as (L' & _).
        rewrite E in E'. destruct Hp as [-> | [-> | ->]], Hp' as [-> | [-> | ->]];
        destruct d as [|d1 [|d2 [|]]]; destruct d' as [|e1 [|e2 [|]]]; try discriminate; cbn in E'; congruence. }
      subst d'. apply two_digits_ok in D, D'. destruct D as (_ & _ & P), D' as (_ & _ & P'). congruence. }
    auto.
  - destruct (tokens_skip seps H (tok ++ x :: rest) i bytes ts saw) as (i' & saw' & ->).
    destruct (token_chars _ _ T) as (Hne & F & _).
    destruct (tokens_take tok F (x :: rest) i' bytes [] ts saw') as (i2 & ts2 & saw2 & ->).
    cbn [app hex_tokens]. apply separator_ok in Hx. rewrite Hx.
    destruct tok as [|t tk]; [congruence|].
    destruct (push_token bytes (t :: tk) ts2) as [(b' & T' & E')|(No & _)]; [|exfalso; exact (No b T)].
    rewrite E'. cbn [bind]. rewrite IH. rewrite <- app_assoc. cbn [app].
    assert (b' = b); [|congruence].
    clear - T T'. destruct T as (p & d & E & Hp & D), T' as (p' & d' & E' & Hp' & D').
    assert (d = d').
    { apply two_digits_ok in D, D'. destruct D as (L & _), D' as (L' & _).
      rewrite E in E'. destruct Hp as [-> | [-> | ->]], Hp' as [-> | [-> | ->]];
      destruct d as [|d1 [|d2 [|]]]; destruct d' as [|e1 [|e2 [|]]]; try discriminate; cbn in E'; congruence. }
    subst d'. apply two_digits_ok in D, D'. destruct D as (_ & _ & P), D' as (_ & _ & P'). congruence.
Qed.

(** white space at the ends of a separated text can be dropped *)
Lemma separated_uncons c s bytes : separated (c :: s) bytes -> white c -> separated s bytes.
Proof.
  intros H W. apply white_ok in W. inversion H as [seps F E|seps tok b F T E|seps tok b x rest bs F T Hx Hr E]; subst.
  - inversion F; subst. constructor; assumption.
  - destruct seps as [|y seps].
    + cbn [app] in E. destruct (token_chars _ _ T) as (_ & _ & Hd & _). rewrite E in Hd.
      rewrite (Hd c eq_refl) in W. discriminate.
    + cbn in E. inversion E; subst. inversion F; subst. constructor; assumption.
  - destruct seps as [|y seps].
    + cbn [app] in E. destruct (token_chars _ _ T) as (Hne & _ & Hd & _). destruct tok as [|t tk]; [congruence|].
      cbn in E. inversion E; subst. rewrite (Hd c eq_refl) in W. discriminate.
    + cbn in E. inversion E; subst. inversion F; subst. constructor; assumption.
Qed.

Lemma separated_unsnoc s bytes : separated s bytes -> forall t c, s = t ++ [c] -> white c -> separated t bytes.
Proof.
  induction 1 as [seps F|seps tok b F T|seps tok b x rest bs F T Hx Hr IH]; intros t c E W.
  - subst seps. apply Forall_app in F. constructor; tauto.
  - exfalso. apply white_ok in W. destruct (token_chars _ _ T) as (Hne & _ & _ & Hl).
    destruct (list_snoc tok) as [->|(m & a & ->)]; [congruence|].
    rewrite app_assoc in E. apply app_inj_tail in E. destruct E as [_ ->].
    rewrite (Hl m c eq_refl) in W. discriminate.
  - destruct (list_snoc rest) as [->|(m & a & ->)].
    + rewrite app_assoc in E. apply app_inj_tail in E. destruct E as [<- ->].
      inversion Hr as [? F' E'|? tok' b' ? T' E'|? tok' ? ? ? ? ? T' ? ? E']; subst.
      * constructor; assumption.
      * destruct (token_chars _ _ T') as (Hne & _). apply app_eq_nil in E'. tauto.
      * apply app_eq_nil in E'. destruct E' as [_ E']. apply app_eq_nil in E'. destruct E' as [_ E']. discriminate.
    + change (x :: m ++ [a]) with ((x :: m) ++ [a]) in E. rewrite !app_assoc in E.
      apply app_inj_tail in E. destruct E as [<- ->]. rewrite <- app_assoc.
      constructor; try assumption. apply (IH m c eq_refl W).
Qed.

Lemma separated_trim s bytes : separated s bytes -> separated (trim s) bytes.
Proof.
  intros H. destruct (trim_stripped s) as (l & r & E & Hl & Hr & _).
  rewrite E in H. remember (trim s) as core eqn:Ec. clear Ec E.
  assert (H1 : separated (core ++ r) bytes).
  { revert H. clear Hr. induction Hl as [|c l Hc _ IH]; [auto|]. intros H. apply IH. exact (separated_uncons _ _ _ H Hc). }
  clear H Hl. revert H1. induction r as [|c r IH] using rev_ind; [rewrite app_nil_r; auto|].
  apply Forall_app in Hr. destruct Hr as [Hr Hc]. inversion Hc; subst.
  rewrite app_assoc. intros H. apply (IH Hr). eapply separated_unsnoc; [exact H|reflexivity|assumption].
Qed.

Lemma separated_digits s bytes : separated s bytes -> bytes <> [] -> forallb is_ascii_hexdigit s = true -> compact s bytes.
Proof.
  assert (NoSep : forall seps, Forall separator seps -> forallb is_ascii_hexdigit seps = true -> seps = []).
  { intros [|c seps] F D; [reflexivity|]. exfalso. cbn in D. apply andb_true_iff in D. destruct D as [D _].
    inversion F; subst. apply hexdigit_not_sep in D. apply separator_ok in H1. congruence. }
  intros [seps F|seps tok b F T|seps tok b x rest bs F T Hx Hr] Hne D; [congruence| |].
  - rewrite forallb_app in D. apply andb_true_iff in D. destruct D as [D1 D2].
    rewrite (NoSep _ F D1). cbn [app]. destruct T as (pre & ds & -> & Hp & T).
    assert (pre = []) as ->.
    { rewrite forallb_app in D2. apply andb_true_iff in D2. destruct D2 as [D2 _].
      destruct Hp as [->|[-> | ->]]; [reflexivity|discriminate D2|discriminate D2]. }
    cbn [app]. rewrite <- (app_nil_r ds). constructor; [assumption|constructor].
  - exfalso. rewrite !forallb_app in D. cbn [forallb] in D. rewrite !andb_true_iff in D. destruct D as (_ & _ & D & _).
    apply hexdigit_not_sep in D. apply separator_ok in Hx. congruence.
Qed.

Lemma decode_hex_exact input bytes : decode_hex_bytes input = Ok bytes <-> hex_input input bytes.
Proof.
  split.
  - intros H. unfold decode_hex_bytes in H. destruct (trim_stripped input) as (l & r & E & Hl & Hr & _).
    remember (trim input) as core eqn:Ec. destruct core as [|c0 core]; [discriminate|].
    assert (bytes <> [] /\ (compact (c0 :: core) bytes \/ separated (c0 :: core) bytes)) as (Hne & Hc).
    { destruct (forallb is_ascii_hexdigit (c0 :: core)) eqn:F.
      - assert (Ha : text_len (c0 :: core) = len (c0 :: core)).
        { apply text_len_ascii. apply Forall_forall. intros c Hc. apply hexdigit_ascii. rewrite forallb_forall in F. auto. }
        rewrite Ha in H. destruct (N.eqb_spec (len (c0 :: core) mod 2) 0) as [Ev|]; [|discriminate].
        cbn [negb] in H. inversion H as [Hb]. split.
        + destruct core as [|c1 core]; [discriminate Ev|]. discriminate.
        + left. apply compact_ok. rewrite Hb. auto.
      - apply bind_ok in H. destruct H as (bs & H & Hb). destruct bs as [|b0 bs]; [discriminate|].
        inversion Hb; subst bytes. split; [discriminate|]. right.
        apply tokens_sound in H. destruct H as (more & Em & Hs). cbn [app] in Em. subst more. exact Hs. }
    split; [exact Hne|]. exists l, (c0 :: core), r. auto.
  - intros (Hne & l & core & r & -> & Hl & Hr & Hc). unfold decode_hex_bytes. rewrite trim_around by assumption.
    destruct Hc as [Hc|Hc].
    + apply compact_ok in Hc. destruct Hc as (F & L & P).
      rewrite trim_id by (intros c Hc; apply hexdigit_not_white; rewrite forallb_forall in F; auto).
      destruct core as [|c0 core]; [cbn in P; congruence|].
      rewrite F.
      assert (Ha : text_len (c0 :: core) = len (c0 :: core)).
      { apply text_len_ascii. apply Forall_forall. intros c Hc. apply hexdigit_ascii. rewrite forallb_forall in F. auto. }
      rewrite Ha, L. cbn [negb N.eqb]. rewrite P. reflexivity.
    + apply separated_trim in Hc. remember (trim core) as t eqn:Et. clear Et.
      destruct t as [|c0 t].
      { exfalso. inversion Hc as [? F E|? tok b F T E|? tok ? ? ? ? F T ? ? E]; subst; [congruence| |].
        - destruct (token_chars _ _ T) as (Hn & _). apply app_eq_nil in E. tauto.
        - apply app_eq_nil in E. destruct E as [_ E]. apply app_eq_nil in E. destruct E as [_ E]. discriminate. }
      destruct (forallb is_ascii_hexdigit (c0 :: t)) eqn:F.
      * pose proof (separated_digits _ _ Hc Hne F) as C. apply compact_ok in C. destruct C as (_ & L & P).
        assert (Ha : text_len (c0 :: t) = len (c0 :: t)).
        { apply text_len_ascii. apply Forall_forall. intros c Hx. apply hexdigit_ascii. rewrite forallb_forall in F. auto. }
        rewrite Ha, L, P. reflexivity.
      * rewrite (tokens_complete _ _ Hc). cbn [app bind]. destruct bytes; [congruence|reflexivity].
Qed.

Lemma hex_upper d : d < 16 -> hex_digit (hex_digit_upper d) d.
Proof. intros H. unfold hex_digit, hex_digit_upper. destruct (N.ltb_spec d 10); lia. Qed.

Lemma hex_string_compact data : bytes_ok data -> compact (hex_string data) data.
Proof.
  induction 1 as [|b data Hb _ IH]; [constructor|]. cbn [hex_string flat_map].
  constructor; [|exact IH].
  exists (hex_digit_upper (b / 16)), (b / 16), (hex_digit_upper (b mod 16)), (b mod 16).
  unfold byte_ok in Hb. pose proof (N.mod_lt b 16 ltac:(discriminate)).
  pose proof (N.div_lt_upper_bound b 16 16 ltac:(discriminate) Hb).
  split; [reflexivity|]. split; [apply hex_upper; assumption|]. split; [apply hex_upper; assumption|].
  apply N.div_mod. discriminate.
Qed.

Lemma hex_round_trip data : bytes_ok data -> data <> [] -> decode_hex_bytes (hex_string data) = Ok data.
Proof.
  intros Hb Hne. apply decode_hex_exact. split; [assumption|]. exists [], (hex_string data), [].
  rewrite app_nil_r. repeat split; try constructor. apply hex_string_compact. assumption.
Qed.

(** Errors *)
Lemma byte_length_ok s : byte_length s = text_len s.
Proof.
  induction s as [|c s IH]; [reflexivity|]. cbn [byte_length text_len fold_right].
  unfold byte_length, text_len in IH. rewrite IH. unfold utf8_len. apply N.add_comm.
Qed.

Lemma tokens_error s : forall i bytes token ts saw e full done,
  hex_tokens s i bytes token ts saw = Err e ->
  full = done ++ token ++ s -> i = text_len (done ++ token) ->
  (saw = true <-> token = []) -> (token <> [] -> ts = text_len done) ->
  Forall (fun c => ~ separator c) token -> (forall m c, done = m ++ [c] -> separator c) ->
  exists j tok, e = InvalidHex j /\ run_at full j tok /\ forall b, ~ byte_token tok b.
Proof.
  induction s as [|c s IH]; intros i bytes token ts saw e full done H Ef Ei Hsaw Hts Hns Hdone; cbn [hex_tokens] in H.
  - destruct token as [|t tk]; [discriminate|].
    destruct (push_token bytes (t :: tk) ts) as [(b & T & E)|(No & E)]; rewrite E in H; [discriminate|].
    inversion H; subst e. exists ts, (t :: tk). split; [reflexivity|]. split; [|exact No].
    exists done, []. repeat split; auto; try discriminate. rewrite byte_length_ok. apply Hts. discriminate.
  - destruct (is_hex_separator c) eqn:Sc.
    + apply separator_ok in Sc. destruct token as [|t tk].
      * eapply IH with (done := done ++ [c]); [exact H| | | | | |].
        -- rewrite Ef. cbn [app]. rewrite <- app_assoc. reflexivity.
        -- rewrite Ei, !text_len_app. cbn [text_len fold_right]. lia.
        -- tauto.
        -- congruence.
        -- constructor.
        -- intros m x Ex. apply app_inj_tail in Ex. destruct Ex as [_ <-]. exact Sc.
      * destruct (push_token bytes (t :: tk) ts) as [(b & T & E)|(No & E)]; rewrite E in H; cbn [bind] in H.
        -- eapply IH with (done := done ++ (t :: tk) ++ [c]); [exact H| | | | | |].
           ++ rewrite Ef. cbn [app]. rewrite <- !app_assoc. cbn [app]. rewrite <- app_assoc. reflexivity.
           ++ rewrite Ei, app_nil_r, !text_len_app. cbn [text_len fold_right]. lia.
           ++ tauto.
           ++ congruence.
           ++ constructor.
           ++ intros m x Ex. rewrite app_assoc in Ex. apply app_inj_tail in Ex. destruct Ex as [_ <-]. exact Sc.
        -- inversion H; subst e. exists ts, (t :: tk). split; [reflexivity|]. split; [|exact No].
           exists done, (c :: s). repeat split; auto; try discriminate.
           ++ rewrite byte_length_ok. apply Hts. discriminate.
           ++ intros x Hx. cbn in Hx. inversion Hx; subst. exact Sc.
    + eapply IH with (done := done); [exact H| | | | | |].
      * rewrite Ef, <- app_assoc. reflexivity.
      * rewrite Ei, !text_len_app. cbn [text_len fold_right]. lia.
      * split; [discriminate|]. intros E. destruct token; discriminate.
      * intros _. destruct saw.
        -- assert (token = []) as -> by tauto. rewrite app_nil_r in Ei. exact Ei.
        -- apply Hts. intros ->. assert (false = true) by tauto. discriminate.
      * apply Forall_app. split; [exact Hns|]. constructor; [|constructor]. rewrite <- separator_ok. congruence.
      * exact Hdone.
Qed.

Lemma decode_hex_error input e core : stripped input core -> decode_hex_bytes input = Err e ->
  (e = EmptyInput /\ Forall (fun c => white c \/ separator c) input) \/
  (exists j, e = InvalidHex j /\
    ((Forall (fun c => exists v, hex_digit c v) core /\ len core mod 2 = 1 /\ j + 1 = len core) \/
     (exists tok, run_at core j tok /\ forall b, ~ byte_token tok b))).
Proof.
  intros Hst H. pose proof (stripped_trim _ _ Hst) as Et. unfold decode_hex_bytes in H. rewrite Et in H.
  destruct core as [|c0 core].
  { inversion H; subst. left. split; [reflexivity|]. destruct Hst as (l & r & -> & Hl & Hr & _).
    cbn [app]. apply Forall_app. split; eapply Forall_impl; try eassumption; cbn; auto. }
  destruct (forallb is_ascii_hexdigit (c0 :: core)) eqn:F.
  - assert (Ha : text_len (c0 :: core) = len (c0 :: core)).
    { apply text_len_ascii. apply Forall_forall. intros c Hc. apply hexdigit_ascii. rewrite forallb_forall in F. auto. }
    rewrite Ha in H. destruct (N.eqb_spec (len (c0 :: core) mod 2) 0) as [Ev|Od]; [discriminate|].
    cbn [negb] in H. inversion H; subst e. right. eexists; split; [reflexivity|]. left.
    split; [|split].
    + apply Forall_forall. intros c Hc. apply hexdigit_ok. rewrite forallb_forall in F. auto.
    + pose proof (N.mod_lt (len (c0 :: core)) 2 ltac:(discriminate)). lia.
    + rewrite len_cons. lia.
  - destruct (hex_tokens (c0 :: core) 0 [] [] 0 true) as [bs|e'|p] eqn:Ht; cbn [bind] in H.
    + destruct bs as [|b bs]; [|discriminate]. inversion H; subst e. left. split; [reflexivity|].
      apply tokens_sound in Ht. destruct Ht as (more & Em & Hs). cbn [app] in Em. subst more. cbn [app] in Hs.
      inversion Hs as [? Fs E| |]; subst.
      destruct Hst as (l & r & -> & Hl & Hr & _).
      apply Forall_app. split; [eapply Forall_impl; [|exact Hl]; auto|].
      apply Forall_app. split; eapply Forall_impl; try eassumption; cbn; auto.
    + inversion H; subst e'. right.
      destruct (tokens_error (c0 :: core) _ _ _ _ _ _ (c0 :: core) [] Ht) as (j & tok & -> & R & No); try reflexivity.
      * split; reflexivity.
      * constructor.
      * intros m x Ex. destruct m; discriminate.
      * exists j. split; [reflexivity|]. right. exists tok. auto.
    + discriminate.
Qed.

Lemma tokens_no_panic s : forall i bytes token ts saw, ~ is_panic (hex_tokens s i bytes token ts saw).
Proof.
  induction s as [|c s IH]; intros i bytes token ts saw [p H]; cbn [hex_tokens] in H.
  - destruct token as [|t tk]; [discriminate|].
    destruct (push_token bytes (t :: tk) ts) as [(b & T & E)|(No & E)]; rewrite E in H; discriminate.
  - destruct (is_hex_separator c).
    + destruct token as [|t tk]; [apply (IH (i + utf8_len c) bytes [] ts true); eexists; exact H|].
      destruct (push_token bytes (t :: tk) ts) as [(b & T & E)|(No & E)]; rewrite E in H; cbn [bind] in H; [|discriminate].
      eapply IH; eexists; exact H.
    + eapply IH; eexists; exact H.
Qed.

Lemma decode_hex_no_panic input : ~ is_panic (decode_hex_bytes input).
Proof.
  intros [p H]. unfold decode_hex_bytes in H. destruct (trim input) as [|c t]; [discriminate|].
  destruct (forallb is_ascii_hexdigit (c :: t)).
  - destruct (negb _); discriminate.
  - destruct (hex_tokens _ _ _ _ _ _) as [bs|e|q] eqn:E; cbn [bind] in H; try discriminate.
    + destruct bs; discriminate.
    + eapply tokens_no_panic; eexists; exact E.
Qed.

(** keys *)
Lemma cli_key_exact value key : cli_parse_key value = Some key <-> compact value key /\ length key = 16%nat.
Proof.
  assert (P : forall n s, (length s <= n)%nat -> forallb is_ascii_hexdigit s = true -> len s mod 2 = 0 ->
    (2 * length (hex_pairs s))%nat = length s).
  { induction n as [|n IH]; intros s Hn F L.
    - destruct s; [reflexivity|cbn in Hn; lia].
    - destruct s as [|a [|b s]]; [reflexivity|discriminate L|].
      cbn [forallb] in F. rewrite !andb_true_iff in F. cbn [hex_pairs length].
      assert (R : (2 * length (hex_pairs s))%nat = length s); [apply IH|cbn [length]; lia].
      + cbn in Hn; lia.
      + tauto.
      + rewrite !len_cons in L. replace (len s + 1 + 1) with (len s + 1 * 2) in L by lia.
        rewrite N.mod_add in L by discriminate. exact L. }
  unfold cli_parse_key. rewrite compact_ok.
  destruct (forallb is_ascii_hexdigit value) eqn:F.
  - assert (Ha : text_len value = len value).
    { apply text_len_ascii. apply Forall_forall. intros c Hc. apply hexdigit_ascii. rewrite forallb_forall in F. auto. }
    rewrite Ha. destruct (N.eqb_spec (len value) 32) as [E|E]; cbn [negb orb].
    + assert (L0 : len value mod 2 = 0) by (rewrite E; reflexivity).
      pose proof (P _ _ (Nat.le_refl _) F L0) as Q. unfold len in E.
      split; [intros H; inversion H; subst; split; [auto|lia]|]. intros ((_ & _ & <-) & _). reflexivity.
    + split; [discriminate|]. intros ((_ & L0 & <-) & L16). exfalso. apply E. unfold len.
      pose proof (P _ _ (Nat.le_refl _) F L0). lia.
  - rewrite orb_true_r. split; [discriminate|]. intros ((C & _) & _). discriminate.
Qed.

Lemma wasm_key_exact value key : wasm_parse_key (Some value) = Ok (Some key) <->
  hex_input value key /\ length key = 16%nat.
Proof.
  rewrite <- decode_hex_exact. unfold wasm_parse_key.
  destruct (trim value) as [|c t] eqn:T.
  - split; [discriminate|]. intros (H & _). unfold decode_hex_bytes in H. rewrite T in H. discriminate.
  - destruct (decode_hex_bytes value) as [bs|e|p]; cbn [bind].
    + destruct (N.eqb_spec (len bs) 16) as [E|E]; unfold len in E.
      * split; [intros H; inversion H; subst; split; [reflexivity|lia]|intros (H & _); inversion H; reflexivity].
      * split; [discriminate|]. intros (H & L). inversion H; subst. lia.
    + split; [discriminate|intros (H & _); discriminate].
    + split; [discriminate|intros (H & _); discriminate].
Qed.

(** the older reader *)
Lemma two_digits_chars ds b : two_digits ds b ->
  exists c1 c2, ds = [c1; c2] /\ is_ascii_hexdigit c1 = true /\ is_ascii_hexdigit c2 = true /\
    b = 16 * hex_value c1 + hex_value c2.
Proof.
  intros T. apply two_digits_ok in T. destruct T as (L & F & P). destruct ds as [|c1 [|c2 [|]]]; try discriminate.
  exists c1, c2. cbn in F. rewrite !andb_true_iff in F. cbn in P. inversion P. tauto.
Qed.

Lemma loose_head s bytes : loose s bytes -> hd_error s <> Some 120.
Proof.
  intros [|c s' bs Hc H|pre ds b s' bs Hp T H]; [discriminate|cbn; intros E; inversion E; lia|].
  destruct (two_digits_chars _ _ T) as (c1 & c2 & -> & F1 & _).
  destruct Hp as [-> | ->]; cbn; intros E; inversion E; subst; discriminate F1.
Qed.

Lemma remove_0x_keep c s : (c <> 48 \/ hd_error s <> Some 120) -> remove_0x (c :: s) = c :: remove_0x s.
Proof.
  intros H. cbn [remove_0x].
  destruct c as [|p]; [reflexivity|].
  do 6 (destruct p as [p|p|]; try reflexivity).
  destruct s as [|x s]; [reflexivity|].
  destruct x as [|q]; [reflexivity|].
  do 7 (destruct q as [q|q|]; try reflexivity).
  exfalso. destruct H as [H|H]; apply H; reflexivity.
Qed.

Definition cleaned (s : text) : text :=
  filter (fun c => negb ((c =? 32) || (c =? 44) || (c =? 120))) (remove_0x s).

Lemma cleaned_cons c s : hd_error s <> Some 120 -> c <> 120 ->
  cleaned (c :: s) = (if (c =? 32) || (c =? 44) then [] else [c]) ++ cleaned s.
Proof.
  intros H Hc. unfold cleaned. rewrite remove_0x_keep by auto. cbn [filter].
  apply N.eqb_neq in Hc. rewrite Hc, orb_false_r.
  destruct ((c =? 32) || (c =? 44)); reflexivity.
Qed.

Lemma cleaned_loose s bytes : loose s bytes -> compact (cleaned s) bytes.
Proof.
  induction 1 as [|c s bytes Hc H IH|pre ds b s bytes Hp T H IH].
  - constructor.
  - rewrite cleaned_cons; [|exact (loose_head _ _ H)|lia].
    replace ((c =? 32) || (c =? 44)) with true by (destruct Hc as [-> | ->]; reflexivity). exact IH.
  - destruct (two_digits_chars _ _ T) as (c1 & c2 & -> & F1 & F2 & Eb).
    assert (Q : cleaned ([c1; c2] ++ s) = [c1; c2] ++ cleaned s).
    { assert (N1 : forall c, is_ascii_hexdigit c = true -> c <> 120 /\ (c =? 32) || (c =? 44) = false).
      { intros c Hc. apply hexdigit_value in Hc. unfold hex_digit in Hc. split; [lia|].
        apply orb_false_iff. rewrite !N.eqb_neq. lia. }
      destruct (N1 _ F1) as [A1 B1], (N1 _ F2) as [A2 B2]. cbn [app].
      rewrite cleaned_cons; [|cbn; congruence|assumption]. rewrite B1.
      rewrite cleaned_cons; [|exact (loose_head _ _ H)|assumption]. rewrite B2. reflexivity. }
    assert (E : cleaned (pre ++ [c1; c2] ++ s) = [c1; c2] ++ cleaned s).
    { destruct Hp as [-> | ->]; [exact Q|]. rewrite <- Q. reflexivity. }
    rewrite E. constructor; assumption.
Qed.

Lemma loose_uncons c s bytes : loose (c :: s) bytes -> is_whitespace c = true -> loose s bytes.
Proof.
  intros H W. inversion H as [|c' s' bs Hc H' E|pre ds b s' bs Hp T H' E]; subst; [assumption|].
  exfalso. destruct (two_digits_chars _ _ T) as (c1 & c2 & -> & F1 & _).
  destruct Hp as [-> | ->]; cbn in E; inversion E; subst.
  - rewrite (hexdigit_not_white _ F1) in W. discriminate.
  - discriminate W.
Qed.

Lemma loose_unsnoc s bytes : loose s bytes -> forall t c, s = t ++ [c] -> is_whitespace c = true -> loose t bytes.
Proof.
  induction 1 as [|c s bytes Hc H IH|pre ds b s bytes Hp T H IH]; intros t x E W.
  - destruct t; discriminate.
  - destruct (list_snoc s) as [->|(m & a & ->)].
    + destruct t as [|y t]; [|destruct t; discriminate]. inversion H; subst; [constructor|].
      exfalso. match goal with K : two_digits _ _ |- _ => destruct (two_digits_chars _ _ K) as (c1 & c2 & -> & _) end.
      destruct pre; discriminate.
    + change (c :: m ++ [a]) with ((c :: m) ++ [a]) in E. apply app_inj_tail in E. destruct E as [<- ->].
      constructor; [assumption|]. eapply IH; [reflexivity|assumption].
  - destruct (two_digits_chars _ _ T) as (c1 & c2 & -> & F1 & F2 & _).
    destruct (list_snoc s) as [->|(m & a & ->)].
    + exfalso. rewrite app_nil_r in E. change (pre ++ [c1; c2]) with (pre ++ [c1] ++ [c2]) in E. rewrite app_assoc in E.
      apply app_inj_tail in E. destruct E as [_ <-]. rewrite (hexdigit_not_white _ F2) in W. discriminate.
    + rewrite !app_assoc in E. apply app_inj_tail in E. destruct E as [<- ->]. rewrite <- app_assoc.
      constructor; try assumption. eapply IH; [reflexivity|assumption].
Qed.

Lemma loose_trim s bytes : loose s bytes -> loose (trim s) bytes.
Proof.
  intros H. destruct (trim_stripped s) as (l & r & E & Hl & Hr & _).
  apply Forall_white in Hl, Hr.
  rewrite E in H. remember (trim s) as core eqn:Ec. clear Ec E.
  assert (H1 : loose (core ++ r) bytes).
  { revert H. clear Hr. induction Hl as [|c l Hc _ IH]; [auto|]. intros H. apply IH. exact (loose_uncons _ _ _ H Hc). }
  clear H Hl. revert H1. induction r as [|c r IH] using rev_ind; [rewrite app_nil_r; auto|].
  apply Forall_app in Hr. destruct Hr as [Hr Hc]. inversion Hc; subst.
  rewrite app_assoc. intros H. apply (IH Hr). eapply loose_unsnoc; [exact H|reflexivity|assumption].
Qed.

Lemma clean_loose l core r bytes : Forall white l -> Forall white r -> loose core bytes ->
  clean_and_convert (l ++ core ++ r) = bytes.
Proof.
  intros Hl Hr H. unfold clean_and_convert. rewrite trim_around by assumption.
  apply loose_trim in H. apply cleaned_loose in H. change (filter _ (remove_0x (trim core))) with (cleaned (trim core)).
  revert H. generalize (cleaned (trim core)). intros s H.
  induction H as [|ds b rest bytes T _ IH]; [reflexivity|].
  destruct (two_digits_chars _ _ T) as (c1 & c2 & -> & F1 & F2 & ->).
  cbn [app flat_map]. unfold utf8_bytes at 1 2.
  pose proof (hexdigit_ascii _ F1) as A1. pose proof (hexdigit_ascii _ F2) as A2.
  apply N.ltb_lt in A1, A2. change 0x80 with 128. rewrite A1, A2. cbn [app chunks2 map].
  rewrite IH. f_equal. unfold chunk_value. rewrite F1, F2. reflexivity.
Qed.
