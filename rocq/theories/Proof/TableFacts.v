(** Lemmas about text tables. *)
From Coq Require Import Lia.
From Verif Require Import Model.Base Model.Text Model.Table Spec.TableSpec Proof.BaseFacts.

Arguments display : simpl never.
Lemma display_cons cw c s : display cw (c :: s) = cw c + display cw s.
Proof. reflexivity. Qed.
Lemma display_nil cw : display cw [] = 0.
Proof. reflexivity. Qed.
Lemma display_app cw a b : display cw (a ++ b) = display cw a + display cw b.
Proof. induction a as [|c a IH]; cbn [app]; rewrite ?display_nil, ?display_cons; [reflexivity|]. rewrite IH. lia. Qed.
Ltac dsp := rewrite ?display_app, ?display_cons, ?display_nil; try lia.

Lemma wrap_line_ok cw width cs : 0 < width -> forall line lw, lw = display cw line -> fits cw width line ->
  exists first rest, wrap_line cw width cs line lw = first :: rest /\
    concat (first :: rest) = line ++ cs /\ (exists t, first = line ++ t) /\
    Forall (fits cw width) (first :: rest) /\
    Forall (fun l => l <> []) rest /\
    (forall before l1 c l2 after, first :: rest = before ++ l1 :: (c :: l2) :: after -> width < display cw l1 + cw c).
Proof.
  intros Hw. induction cs as [|c cs IH]; intros line lw Elw Hf.
  - cbn [wrap_line]. exists line, []. repeat split.
    + exists []. symmetry. apply app_nil_r.
    + constructor; [exact Hf|constructor].
    + constructor.
    + intros before l1 x l2 after E. exfalso. destruct before as [|? [|? ?]]; discriminate E.
  - cbn [wrap_line]. cbv zeta.
    destruct (negb (lw =? 0) && (width <? lw + cw c)) eqn:Brk.
    + apply andb_true_iff in Brk. destruct Brk as [B1 B2]. apply negb_true_iff, N.eqb_neq in B1. apply N.ltb_lt in B2.
      assert (Fc : fits cw width [c]).
      { destruct (N.le_gt_cases (cw c) width); [left; dsp|right; exists [], c; repeat split; lia]. }
      assert (Dc : cw c = display cw [c]) by (dsp).
      destruct (IH [c] (cw c) Dc Fc) as (f & r & E & C & (t & T) & F & NE & TI).
      rewrite E. exists line, (f :: r). split; [reflexivity|]. split; [|split; [|split; [|split]]].
      * change (concat (line :: f :: r)) with (line ++ concat (f :: r)). rewrite C. reflexivity.
      * exists []. symmetry. apply app_nil_r.
      * constructor; assumption.
      * constructor; [rewrite T; discriminate|exact NE].
      * intros before l1 x l2 after Es. destruct before as [|b0 before]; cbn [app] in Es.
        -- injection Es as E1 E2 E3. subst l1. rewrite T in E2. cbn in E2. injection E2 as E2 _. subst x. lia.
        -- injection Es as _ Es. exact (TI _ _ _ _ _ Es).
    + assert (Hf' : fits cw width (line ++ [c])).
      { apply andb_false_iff in Brk. destruct Brk as [B|B].
        - apply negb_false_iff, N.eqb_eq in B.
          destruct (N.le_gt_cases (cw c) width); [left; dsp|].
          right. exists line, c. repeat split; lia.
        - apply N.ltb_ge in B. left. dsp. }
      assert (D : lw + cw c = display cw (line ++ [c])) by (dsp).
      destruct (IH _ _ D Hf') as (f & r & E & C & (t & T) & F & NE & TI).
      exists f, r. split; [exact E|]. split; [rewrite C, <- app_assoc; reflexivity|].
      split; [exists (c :: t); rewrite T, <- app_assoc; reflexivity|]. auto.
Qed.

Lemma wrap_piece_ok cw width p : 0 < width ->
  broken cw width p (match p with [] => [[]] | _ => wrap_line cw width p [] 0 end).
Proof.
  intros Hw. destruct p as [|c p].
  - split; [discriminate|]. split; [reflexivity|]. split; [constructor; [left; dsp|constructor]|].
    split; [congruence|]. intros before l1 x l2 after E. destruct before as [|? [|? ?]]; discriminate E.
  - assert (Fn : fits cw width []) by (left; dsp).
    destruct (wrap_line_ok cw width (c :: p) Hw [] 0 eq_refl Fn) as (f & r & E & C & (t & T) & F & NE & TI).
    cbn [app] in C. rewrite E. split; [discriminate|]. split; [exact C|]. split; [exact F|]. split; [|exact TI].
    intros _. constructor; [|exact NE].
    (* the first line takes the first character *)
    cbn [wrap_line] in E. cbv zeta in E. cbn [N.eqb negb andb app] in E.
    assert (Dc : 0 + cw c = display cw [c]) by (dsp).
    assert (Fc : fits cw width [c]).
    { destruct (N.le_gt_cases (cw c) width); [left; dsp|right; exists [], c; repeat split; lia]. }
    destruct (wrap_line_ok cw width p Hw [c] (0 + cw c) Dc Fc) as (f2 & r2 & E2 & _ & (t2 & T2) & _).
    rewrite E2 in E. assert (Ef : f = f2) by congruence. rewrite Ef, T2. discriminate.
Qed.

Lemma split_pieces s : split_char 10 s <> [] /\ s = joined (split_char 10 s) /\
  Forall (fun p => ~ In 10 p) (split_char 10 s).
Proof.
  induction s as [|c s (N1 & E & F)]; [repeat split; [discriminate|repeat constructor; auto]|].
  cbn [split_char]. destruct (N.eqb_spec c 10) as [->|Hn].
  - split; [discriminate|]. split; [|constructor; [auto|exact F]].
    destruct (split_char 10 s) as [|p r]; [congruence|]. rewrite E at 1. reflexivity.
  - destruct (split_char 10 s) as [|p r]; [congruence|]. split; [discriminate|]. inversion F as [|? ? F1 F2]. split.
    + rewrite E at 1. destruct r; reflexivity.
    + constructor; [|assumption]. intros [C|C]; [congruence|contradiction].
Qed.

Lemma wrap_display_ok cw value width : 0 < width -> laid_out cw width value (wrap_display cw value width).
Proof.
  intros Hw. unfold wrap_display. destruct (N.eqb_spec width 0); [lia|].
  destruct (split_pieces value) as (N1 & E & F).
  exists (split_char 10 value),
    (map (fun p => match p with [] => [[]] | _ => wrap_line cw width p [] 0 end) (split_char 10 value)).
  split; [exact N1|]. split; [exact E|]. split; [exact F|]. split.
  - clear - Hw. induction (split_char 10 value); constructor; auto. apply wrap_piece_ok. assumption.
  - rewrite flat_map_concat_map. reflexivity.
Qed.

Lemma wrap_display_zero cw value : wrap_display cw value 0 = [[]].
Proof. reflexivity. Qed.

(** *** Lines of boxes *)
Lemma unlines_app a b : unlines (a ++ b) = unlines a ++ unlines b.
Proof. unfold unlines. rewrite map_app, concat_app. reflexivity. Qed.
Lemma unlines_one a : unlines [a] = a ++ [10].
Proof. unfold unlines. cbn. apply app_nil_r. Qed.

Definition good (cw : N -> N) (W : N) (t : list N) : Prop :=
  exists lines, t = unlines lines /\ Forall (fun l => ~ In 10 l /\ display cw l = W) lines.

Lemma good_app cw W a b : good cw W a -> good cw W b -> good cw W (a ++ b).
Proof.
  intros (la & -> & Fa) (lb & -> & Fb). exists (la ++ lb). split; [symmetry; apply unlines_app|].
  apply Forall_app. auto.
Qed.
Lemma good_nil cw W : good cw W [].
Proof. exists []. split; [reflexivity|constructor]. Qed.

Definition drawn (cw : N -> N) : Prop := forall c, In c box_chars -> cw c = 1.

Lemma display_repeat cw c n : cw c = 1 -> display cw (repeat c n) = N.of_nat n.
Proof. intros H. induction n as [|n IH]; [reflexivity|]. cbn [repeat]. rewrite display_cons, H, IH. lia. Qed.

Lemma border_good cw l m r widths : drawn cw -> In l box_chars -> In m box_chars -> In r box_chars ->
  widths <> [] -> good cw (table_width widths) (push_border l m r widths).
Proof.
  intros Hd Hl Hm Hr Hne. exists [l :: border_cells m r widths]. split; [rewrite unlines_one; reflexivity|].
  assert (A : ~ In 10 (border_cells m r widths) /\ display cw (border_cells m r widths) = fold_right (fun w n => w + 3 + n) 0 widths).
  { clear Hne. assert (Hn : forall c, In c box_chars -> c <> 10) by (intros c H ->; vm_compute in H; intuition discriminate).
    induction widths as [|w ws IH]; [split; [auto|reflexivity]|].
    cbn [border_cells fold_right]. destruct IH as [I1 I2]. split.
    - intros C. apply in_app_or in C. destruct C as [C|[C|C]].
      + apply repeat_spec in C. discriminate.
      + destruct ws; [exact (Hn r Hr C)|exact (Hn m Hm C)].
      + contradiction.
    - rewrite display_app, display_repeat by (apply Hd; vm_compute; tauto).
      rewrite ?display_cons. rewrite I2.
      assert (cw (match ws with [] => r | _ => m end) = 1) as -> by (destruct ws; apply Hd; assumption). lia. }
  constructor; [|constructor]. destruct A as [A1 A2]. split.
  - intros [C|C]; [subst l; vm_compute in Hl; intuition discriminate|contradiction].
  - rewrite ?display_cons. rewrite A2, (Hd l Hl). reflexivity.
Qed.

(** cells that can be shown without overflow *)
Definition showable (cw : N -> N) (sw : list N -> N) (P : N -> Prop) (widths : list N) : Prop :=
  (forall s, Forall P s -> sw s = display cw s) /\ Forall (fun w => 0 < w) widths /\
  (forall c w, P c -> In w widths -> cw c <= w).

Lemma wrap_lines_show cw sw P widths w cell : showable cw sw P widths -> In w widths ->
  Forall (fun c => c = 10 \/ P c) cell ->
  Forall (fun l => sw l <= w /\ sw l = display cw l /\ ~ In 10 l) (wrap_display cw cell w).
Proof.
  intros (Hs & Hp & Hc) Hw Hcell.
  assert (H0 : 0 < w) by (rewrite Forall_forall in Hp; auto).
  destruct (wrap_display_ok cw cell w H0) as (ps & gs & _ & Ev & F10 & F2 & ->).
  assert (Hps : Forall (Forall P) ps).
  { clear - Ev F10 Hcell. revert cell Ev Hcell. induction F10 as [|p ps Hp F10 IH]; intros cell Ev Hcell; [constructor|].
    assert (Sp : Forall (fun c => c = 10 \/ P c) p /\ (ps <> [] -> Forall (fun c => c = 10 \/ P c) (joined ps))).
    { subst cell. destruct ps as [|q ps]; [cbn in Hcell; split; [exact Hcell|congruence]|].
      cbn [joined] in Hcell. apply Forall_app in Hcell. destruct Hcell as [H1 H2]. inversion H2; subst. auto. }
    destruct Sp as [S1 S2]. constructor.
    - rewrite Forall_forall in *. intros c Hc. destruct (S1 c Hc) as [->|H]; [contradiction|exact H].
    - destruct ps as [|q ps]; [constructor|]. eapply IH; [reflexivity|]. apply S2. discriminate. }
  clear Ev Hcell. revert Hps F10. induction F2 as [|p g ps gs B F2 IH]; intros Hps F10; [constructor|].
  inversion Hps; subst. inversion F10; subst. cbn [concat]. apply Forall_app. split; [|apply IH; assumption].
  destruct B as (_ & Ec & Ff & _). clear IH.
  assert (Fl : Forall (fun l => Forall P l /\ ~ In 10 l) g).
  { apply Forall_forall. intros l Hl. apply in_split in Hl. destruct Hl as (x & y & ->).
    rewrite concat_app in Ec. cbn [concat] in Ec. split.
    - rewrite Forall_forall in *. intros c Hcin. match goal with HH : forall x, In x p -> P x |- _ => apply HH end.
      rewrite <- Ec. apply in_or_app. right. apply in_or_app. left. exact Hcin.
    - intros C. match goal with HH : ~ In 10 p |- _ => apply HH end. rewrite <- Ec. apply in_or_app. right. apply in_or_app. left. exact C. }
  apply Forall_forall. intros l Hl. rewrite Forall_forall in Fl, Ff. destruct (Fl l Hl) as [P1 P2].
  rewrite (Hs l P1). split; [|auto]. destruct (Ff l Hl) as [L|(z & c & -> & Z & B)]; [exact L|].
  exfalso. apply Forall_app in P1. destruct P1 as [_ P1]. inversion P1; subst.
  match goal with HH : P c |- _ => pose proof (Hc c w HH Hw) end. lia.
Qed.

Lemma row_good cw sw P widths cells : drawn cw -> showable cw sw P widths -> widths <> [] ->
  Forall (Forall (fun c => c = 10 \/ P c)) cells -> good cw (table_width widths) (push_row cw sw cells widths).
Proof.
  intros Hd Hs Hne Hcells. unfold push_row. cbv zeta.
  set (wrapped := map _ _). set (height := match wrapped with [] => _ | _ => _ end). clearbody height.
  assert (Hw : forall i w lines, nth_error widths i = Some w -> nth_error wrapped i = Some lines ->
            Forall (fun l => sw l <= w /\ sw l = display cw l /\ ~ In 10 l) lines).
  { intros i w lines Ew El. unfold wrapped in El. rewrite nth_error_map in El.
    destruct (nth_error (combine (seq 0 (length widths)) widths) i) as [[j w']|] eqn:Ec; [|discriminate].
    cbn in El. inversion El; subst lines.
    assert (w' = w).
    { apply nth_error_split in Ec. destruct Ec as (l1 & l2 & Ec & Li).
      assert (Es : map snd (combine (seq 0 (length widths)) widths) = widths).
      { generalize 0%nat. clear. induction widths; intros n; [reflexivity|]. cbn. f_equal. apply IHwidths. }
      rewrite Ec, map_app in Es. rewrite <- Es in Ew. rewrite nth_error_app2 in Ew by (rewrite map_length; lia).
      rewrite map_length, Li, Nat.sub_diag in Ew. cbn in Ew. congruence. }
    subst w'. apply wrap_lines_show with P widths; [exact Hs|apply nth_error_In with i; exact Ew|].
    destruct (nth_error cells j) eqn:Ecell; [|constructor]. rewrite Forall_forall in Hcells. apply Hcells.
    apply nth_error_In with j. exact Ecell. }
  assert (Main : forall line, good cw (table_width widths) (row_line sw wrapped widths line)).
  { intros line. unfold row_line.
    set (cellf := fun '(index, width) => _).
    exists [0x2502 :: flat_map cellf (combine (seq 0 (length widths)) widths)]. split; [rewrite unlines_one; reflexivity|].
    assert (A : forall k ws, (forall i w lines, nth_error ws i = Some w -> nth_error wrapped (k + i) = Some lines ->
                  Forall (fun l => sw l <= w /\ sw l = display cw l /\ ~ In 10 l) lines) ->
              Forall (fun w => sw [] = 0) ws ->
              ~ In 10 (flat_map cellf (combine (seq k (length ws)) ws)) /\
              display cw (flat_map cellf (combine (seq k (length ws)) ws)) = fold_right (fun w n => w + 3 + n) 0 ws).
    { intros k ws. revert k. induction ws as [|w ws IH]; intros k H Hz; [split; [auto|reflexivity]|].
      cbn [length seq combine flat_map fold_right]. inversion Hz; subst.
      destruct (IH (S k)) as [I1 I2]; [|assumption|].
      { intros i w' lines Ei El. apply (H (S i) w'); [exact Ei|]. rewrite <- El. f_equal. lia. }
      set (value := match nth_error wrapped k with Some lines => match nth_error lines line with Some v => v | None => [] end | None => [] end).
      assert (Hv : sw value <= w /\ sw value = display cw value /\ ~ In 10 value).
      { unfold value. assert (Hnil : sw [] <= w /\ sw [] = display cw [] /\ ~ In 10 []) by (repeat split; [lia|assumption|auto]).
        destruct (nth_error wrapped k) as [lines|] eqn:Ek; [|exact Hnil].
        destruct (nth_error lines line) as [v|] eqn:Ev; [|exact Hnil].
        assert (F := H 0%nat w lines eq_refl ltac:(rewrite Nat.add_0_r; exact Ek)).
        rewrite Forall_forall in F. apply F. apply nth_error_In with line. exact Ev. }
      destruct Hv as (V1 & V2 & V3). unfold cellf at 1 3. fold value. split.
      - intros C. apply in_app_or in C. destruct C as [C|C]; [|contradiction].
        destruct C as [C|C]; [discriminate|]. apply in_app_or in C. destruct C as [C|C]; [contradiction|].
        apply in_app_or in C. destruct C as [C|C]; [apply repeat_spec in C; discriminate|].
        destruct C as [C|[C|[]]]; discriminate.
      - rewrite display_app, I2. rewrite display_cons, !display_app, display_repeat by (apply Hd; vm_compute; tauto). rewrite !display_cons, display_nil.
        rewrite (Hd 32), (Hd 0x2502) by (vm_compute; tauto). rewrite <- V2. lia. }
    destruct (A 0%nat widths) as [A1 A2].
    - intros i w lines Ei El. exact (Hw i w lines Ei El).
    - apply Forall_forall. intros w _. apply (proj1 Hs []). constructor.
    - constructor; [|constructor]. split.
      + intros [C|C]; [discriminate|contradiction].
      + rewrite ?display_cons. rewrite A2.
        rewrite (Hd 0x2502) by (vm_compute; tauto). reflexivity. }
  induction (seq 0 height) as [|i l IH]; [apply good_nil|]. cbn [flat_map]. apply good_app; [apply Main|exact IH].
Qed.

Lemma box_table_good cw sw P headers rows widths : drawn cw -> showable cw sw P widths -> widths <> [] ->
  Forall (Forall (fun c => c = 10 \/ P c)) headers -> Forall (Forall (Forall (fun c => c = 10 \/ P c))) rows ->
  good cw (table_width widths) (box_table cw sw headers rows widths).
Proof.
  intros Hd Hs Hne Hh Hr. unfold box_table.
  repeat apply good_app.
  - apply border_good; auto; vm_compute; tauto.
  - eapply row_good; eassumption.
  - apply border_good; auto; vm_compute; tauto.
  - induction Hr as [|row rows Hrow Hr IH]; [apply good_nil|]. cbn [body_rows]. repeat apply good_app.
    + eapply row_good; eassumption.
    + destruct rows; [apply good_nil|]. apply border_good; auto; vm_compute; tauto.
    + exact IH.
  - apply border_good; auto; vm_compute; tauto.
Qed.

Lemma key_value_width width : 32 <= width -> table_width (key_value_widths width) = width.
Proof. intros H. unfold key_value_widths, table_width. cbn [fold_right]. lia. Qed.
