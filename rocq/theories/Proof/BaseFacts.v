(** Facts about the primitives of Model/Base.v. *)
From Coq Require Export Lia ZifyBool ZifyNat ZifyN.
From Verif Require Export Model.Base.

Ltac Zify.zify_post_hook ::= Z.div_mod_to_equations.

#[export] Hint Resolve N.le_0_l : core.
Arguments N.add : simpl never.
Arguments N.sub : simpl never.
Arguments N.mul : simpl never.
Arguments N.div : simpl never.
Arguments N.modulo : simpl never.
Arguments N.land : simpl never.
Arguments N.lor : simpl never.
Arguments N.lxor : simpl never.
Arguments N.shiftl : simpl never.
Arguments N.shiftr : simpl never.
Arguments N.pow : simpl never.

Lemma Ok_inj {E A} (a b : A) : Ok (E := E) a = Ok b -> a = b.
Proof. congruence. Qed.

Lemma bind_ok {E A B} (x : outcome E A) (f : A -> outcome E B) b :
  bind x f = Ok b <-> exists a, x = Ok a /\ f a = Ok b.
Proof.
  destruct x as [a|e|p]; cbn; split.
  - intros H; exists a; auto.
  - intros (a' & Ha & H); congruence.
  - discriminate.
  - intros (a' & Ha & H); discriminate.
  - discriminate.
  - intros (a' & Ha & H); discriminate.
Qed.

Lemma ok_or_ok {E A} (o : option A) (e : E) a : ok_or o e = Ok a <-> o = Some a.
Proof. destruct o; cbn; split; congruence. Qed.

Lemma bind_panic {E A B} (x : outcome E A) (f : A -> outcome E B) p :
  bind x f = Panic p <-> x = Panic p \/ exists a, x = Ok a /\ f a = Panic p.
Proof.
  destruct x as [a|e|q]; cbn; split.
  - intros H; right; exists a; auto.
  - intros [H|(a' & Ha & H)]; congruence.
  - discriminate.
  - intros [H|(a' & Ha & H)]; congruence.
  - intros H; left; congruence.
  - intros [H|(a' & Ha & H)]; congruence.
Qed.

Lemma ok_or_not_panic {E A} (o : option A) (e : E) p : ok_or o e <> Panic p.
Proof. destruct o; discriminate. Qed.

Lemma is_panic_bind {E A B} (x : outcome E A) (f : A -> outcome E B) :
  is_panic (bind x f) <-> is_panic x \/ exists a, x = Ok a /\ is_panic (f a).
Proof.
  destruct x as [a|e|q]; cbn; split.
  - intros H; right; exists a; auto.
  - intros [[p H]|(a' & Ha & H)]; congruence.
  - intros [p H]; discriminate.
  - intros [[p H]|(a' & Ha & H)]; discriminate.
  - intros _; left; exists q; reflexivity.
  - intros _; exists q; reflexivity.
Qed.

Lemma is_panic_ok_or {E A} (o : option A) (e : E) : ~ is_panic (ok_or o e).
Proof. intros [p H]; destruct o; discriminate. Qed.

Lemma is_panic_Ok {E A} (a : A) : ~ is_panic (Ok (E := E) a).
Proof. intros [p H]; discriminate. Qed.

Lemma is_panic_Err {E A} (e : E) : ~ is_panic (Err (A := A) e).
Proof. intros [p H]; discriminate. Qed.

Lemma map_err_ok {E F A} (f : E -> F) (x : outcome E A) a : map_err f x = Ok a <-> x = Ok a.
Proof. destruct x; cbn; split; congruence. Qed.

Lemma map_err_panic {E F A} (f : E -> F) (x : outcome E A) p :
  map_err f x = Panic p <-> x = Panic p.
Proof. destruct x; cbn; split; congruence. Qed.

Lemma is_panic_map_err {E F A} (f : E -> F) (x : outcome E A) :
  is_panic (map_err f x) <-> is_panic x.
Proof.
  split; intros [p H]; exists p; destruct x; cbn in *; congruence.
Qed.

(** case analysis on where a panic comes from *)
Ltac panic_step Hp :=
  cbv beta zeta in Hp;
  lazymatch type of Hp with
  | is_panic (bind _ _) => apply is_panic_bind in Hp; destruct Hp as [Hp|(? & ? & Hp)]
  | is_panic (ok_or _ _) => destruct (is_panic_ok_or _ _ Hp)
  | is_panic (Ok _) => destruct (is_panic_Ok _ Hp)
  | is_panic (Err _) => destruct (is_panic_Err _ Hp)
  | is_panic (map_err _ _) => apply (proj1 (is_panic_map_err _ _)) in Hp
  | is_panic (if ?b then _ else _) => destruct b eqn:?
  | is_panic (match ?b with _ => _ end) => destruct b eqn:?
  end.
Ltac panic_steps Hp := repeat panic_step Hp.

(** *** Lengths and slices *)

Lemma len_nil {A} : len (@nil A) = 0. Proof. reflexivity. Qed.
Lemma len_cons {A} (a : A) l : len (a :: l) = len l + 1.
Proof. unfold len; cbn [length]; lia. Qed.
Lemma len_app {A} (l m : list A) : len (l ++ m) = len l + len m.
Proof. unfold len; rewrite app_length; lia. Qed.
Lemma len_nat {A} (l : list A) : N.to_nat (len l) = length l.
Proof. unfold len; lia. Qed.
Lemma len_0 {A} (l : list A) : len l = 0 -> l = [].
Proof. destruct l; [reflexivity|rewrite len_cons; lia]. Qed.
Lemma len_repeat {A} (a : A) n : len (repeat a n) = N.of_nat n.
Proof. unfold len; rewrite repeat_length; reflexivity. Qed.

Lemma get_cons_0 {A} (a : A) l : get (a :: l) 0 = Some a.
Proof. reflexivity. Qed.
Lemma get_cons_S {A} (a : A) l i : 0 < i -> get (a :: l) i = get l (i - 1).
Proof.
  intros H; unfold get. replace (N.to_nat i) with (S (N.to_nat (i - 1))) by lia. reflexivity.
Qed.
Lemma get_nil {A} i : get (@nil A) i = None.
Proof. unfold get; destruct (N.to_nat i); reflexivity. Qed.
Lemma get_some_lt {A} (l : list A) i a : get l i = Some a -> i < len l.
Proof.
  unfold get, len; intros H.
  assert (N.to_nat i < length l)%nat by (apply nth_error_Some; congruence). lia.
Qed.
Lemma get_lt_some {A} (l : list A) i : i < len l -> exists a, get l i = Some a.
Proof.
  unfold get, len; intros H.
  destruct (nth_error l (N.to_nat i)) as [a|] eqn:E; [eauto|].
  apply nth_error_None in E; lia.
Qed.
Lemma get_none {A} (l : list A) i : get l i = None <-> len l <= i.
Proof.
  unfold get, len; rewrite nth_error_None; lia.
Qed.
Lemma get_app_l {A} (l m : list A) i : i < len l -> get (l ++ m) i = get l i.
Proof. unfold get, len; intros H; apply nth_error_app1; lia. Qed.
Lemma get_app_r {A} (l m : list A) i : len l <= i -> get (l ++ m) i = get m (i - len l).
Proof.
  unfold get, len; intros H; rewrite nth_error_app2 by lia. f_equal; lia.
Qed.

Lemma get_from_ok {A} (l : list A) a m :
  get_from l a = Some m <-> a <= len l /\ m = skipn (N.to_nat a) l.
Proof.
  unfold get_from; destruct (N.leb_spec a (len l)); split; intros H1.
  - split; [assumption|congruence].
  - destruct H1; subst; reflexivity.
  - discriminate.
  - destruct H1; lia.
Qed.
Lemma get_from_app {A} (l m : list A) : get_from (l ++ m) (len l) = Some m.
Proof.
  apply get_from_ok; split; [rewrite len_app; lia|].
  rewrite len_nat, skipn_app, skipn_all, Nat.sub_diag; reflexivity.
Qed.
Lemma get_to_ok {A} (l : list A) b m :
  get_to l b = Some m <-> b <= len l /\ m = firstn (N.to_nat b) l.
Proof.
  unfold get_to; destruct (N.leb_spec b (len l)); split; intros H1.
  - split; [assumption|congruence].
  - destruct H1; subst; reflexivity.
  - discriminate.
  - destruct H1; lia.
Qed.
Lemma get_to_app {A} (l m : list A) : get_to (l ++ m) (len l) = Some l.
Proof.
  apply get_to_ok; split; [rewrite len_app; lia|].
  rewrite len_nat, firstn_app, Nat.sub_diag, firstn_all, app_nil_r; reflexivity.
Qed.
Lemma get_range_ok {A} (l : list A) a b m :
  get_range l a b = Some m <->
  a <= b /\ b <= len l /\ m = firstn (N.to_nat (b - a)) (skipn (N.to_nat a) l).
Proof.
  unfold get_range.
  destruct (N.leb_spec a b); destruct (N.leb_spec b (len l)); cbn [andb]; split; intros H1;
    try discriminate; try (destruct H1 as (?&?&?); lia).
  - split; [assumption|split; [assumption|congruence]].
  - destruct H1 as (_&_&H1); subst; reflexivity.
Qed.
Lemma get_range_app {A} (l m r : list A) :
  get_range (l ++ m ++ r) (len l) (len l + len m) = Some m.
Proof.
  apply get_range_ok; repeat split; try (rewrite ?len_app; lia).
  rewrite len_nat, skipn_app, skipn_all, Nat.sub_diag; cbn [app skipn].
  replace (N.to_nat (len l + len m - len l)) with (length m) by (unfold len; lia).
  rewrite firstn_app, Nat.sub_diag, firstn_all, firstn_O, app_nil_r; reflexivity.
Qed.
Lemma skipn_skipn {A} n m (l : list A) : skipn n (skipn m l) = skipn (m + n) l.
Proof.
  revert l; induction m as [|m IH]; intros l; [reflexivity|].
  destruct l; cbn [skipn Nat.add]; [apply skipn_nil|apply IH].
Qed.
Lemma get_range_split {A} (l : list A) a b m :
  get_range l a b = Some m ->
  exists p r, l = p ++ m ++ r /\ len p = a /\ len m = b - a.
Proof.
  rewrite get_range_ok; intros (Hab & Hb & ->).
  exists (firstn (N.to_nat a) l), (skipn (N.to_nat b) l).
  split; [|split].
  - rewrite <- (firstn_skipn (N.to_nat a) l) at 1. f_equal.
    rewrite <- (firstn_skipn (N.to_nat (b - a)) (skipn (N.to_nat a) l)) at 1. f_equal.
    rewrite skipn_skipn. f_equal; lia.
  - unfold len in *; rewrite firstn_length; lia.
  - unfold len in *; rewrite firstn_length, skipn_length; lia.
Qed.
Lemma len_firstn {A} n (l : list A) : len (firstn n l) = N.min (N.of_nat n) (len l).
Proof. unfold len; rewrite firstn_length; lia. Qed.
Lemma len_skipn {A} n (l : list A) : len (skipn n l) = len l - N.of_nat n.
Proof. unfold len; rewrite skipn_length; lia. Qed.

Lemma last_opt_snoc {A} (l : list A) a : last_opt (l ++ [a]) = Some a.
Proof.
  unfold last_opt. destruct (l ++ [a]) as [|x m] eqn:E; [destruct l; discriminate|].
  rewrite <- E, app_length; cbn [length].
  rewrite nth_error_app2 by lia.
  replace (length l + 1 - 1 - length l)%nat with 0%nat by lia. reflexivity.
Qed.

(** Case split at the end of a list. *)
Lemma list_snoc {A} (l : list A) : l = [] \/ exists m a, l = m ++ [a].
Proof.
  destruct l as [|x l]; [left; reflexivity|right].
  destruct (@exists_last _ (x :: l)) as (m & a & E); [discriminate|]. eauto.
Qed.
Lemma list_snoc2 {A} (l : list A) :
  2 <= len l -> exists m a b, l = m ++ [a; b].
Proof.
  intros H; destruct (list_snoc l) as [->|(m & b & ->)]; [rewrite len_nil in H; lia|].
  destruct (list_snoc m) as [->|(m' & a & ->)]; [cbn in H; lia|].
  exists m', a, b. rewrite <- app_assoc; reflexivity.
Qed.
Lemma len_lt_1 {A} (l : list A) : len l < 1 -> l = [].
Proof. intros; apply len_0; lia. Qed.

Lemma bytes_ok_cons a l : bytes_ok (a :: l) <-> a < 256 /\ bytes_ok l.
Proof. split; [inversion 1; auto|intros []; constructor; auto]. Qed.
Lemma bytes_ok_app l m : bytes_ok (l ++ m) <-> bytes_ok l /\ bytes_ok m.
Proof. apply Forall_app. Qed.
Lemma bytes_ok_firstn n l : bytes_ok l -> bytes_ok (firstn n l).
Proof. intros H; rewrite <- (firstn_skipn n l) in H; apply bytes_ok_app in H; tauto. Qed.
Lemma bytes_ok_skipn n l : bytes_ok l -> bytes_ok (skipn n l).
Proof. intros H; rewrite <- (firstn_skipn n l) in H; apply bytes_ok_app in H; tauto. Qed.
Lemma bytes_ok_get l i b : bytes_ok l -> get l i = Some b -> b < 256.
Proof.
  unfold bytes_ok; rewrite Forall_forall; intros H G; apply H.
  apply nth_error_In in G; exact G.
Qed.

(** *** Finite sweeps *)

(** the numbers below [n], as a list *)
Definition below (n : nat) : list N := map N.of_nat (seq 0 n).
Lemma in_below n (x : N) : x < N.of_nat n -> In x (below n).
Proof.
  intros H; unfold below; apply in_map_iff; exists (N.to_nat x); split; [lia|].
  apply in_seq; lia.
Qed.
Lemma sweep n (P : N -> bool) :
  forallb P (below n) = true -> forall x, x < N.of_nat n -> P x = true.
Proof. rewrite forallb_forall; intros H x Hx; apply H, in_below, Hx. Qed.
Lemma sweep256 (P : N -> bool) :
  forallb P (below 256) = true -> forall x, x < 256 -> P x = true.
Proof. intros H x Hx; apply (sweep 256 P H); exact Hx. Qed.
