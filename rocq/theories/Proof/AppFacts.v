(** The application layer: tables, dispatch, extended link layer. *)
From Verif Require Import Proof.BaseFacts Proof.CoreFacts Model.Core Model.DataInfo Model.Record Model.UserData
  Spec.CoreSpec Spec.WiredSpec Spec.AppSpec Proof.RecordFacts Proof.PanicFacts.

(** equality of two functions on bytes, by evaluating both *)
Lemma sweep_eq {A} (f g : N -> A) :
  map f (below 256) = map g (below 256) -> forall b, b < 256 -> f b = g b.
Proof.
  intros H b Hb. apply (in_below 256) in Hb.
  assert (G : forall l, map f l = map g l -> forall x, In x l -> f x = g x).
  { induction l as [|y l IH]; cbn [map In]; intros E x Hx; [contradiction|]. inversion E as [[E1 E2]].
    destruct Hx as [<-|Hx]; [assumption|apply IH; assumption]. }
  exact (G _ H b Hb).
Qed.

Definition lookup {A} (t : list (N * A)) (b : N) : option A :=
  option_map snd (find (fun p => fst p =? b) t).

Lemma lookup_In {A} (t : list (N * A)) b c : NoDup (map fst t) -> lookup t b = Some c <-> In (b, c) t.
Proof.
  unfold lookup. induction t as [|[k v] t IH]; cbn [find map fst In option_map]; intros ND.
  { split; [discriminate|contradiction]. }
  inversion ND as [|? ? Hn ND']; subst. specialize (IH ND').
  destruct (N.eqb_spec k b) as [->|Hk]; cbn [option_map snd].
  - split; [intros E; inversion E; subst; left; reflexivity|].
    intros [E|E]; [inversion E; reflexivity|]. exfalso; apply Hn. apply (in_map fst) in E. exact E.
  - rewrite IH. split; [right; assumption|]. intros [E|E]; [inversion E; contradiction|assumption].
Qed.

Definition nodup_keys (l : list N) : bool :=
  (fix go l := match l with [] => true | x :: l => negb (existsb (N.eqb x) l) && go l end) l.
Lemma nodup_keys_ok l : nodup_keys l = true -> NoDup l.
Proof.
  induction l as [|x l IH]; cbn; intros H; constructor.
  - apply andb_true_iff in H; destruct H as [H _]. intros C. apply negb_true_iff in H.
    assert (existsb (N.eqb x) l = true); [|congruence]. apply existsb_exists. exists x; split; [assumption|apply N.eqb_refl].
  - apply IH. apply andb_true_iff in H; tauto.
Qed.

Lemma control_lookup b : b < 256 ->
  control_information_from b = match lookup control_codes b with
                               | Some c => Ok c | None => Err (InvalidControlInformation b) end.
Proof.
  apply (sweep_eq control_information_from (fun b => match lookup control_codes b with
                               | Some c => Ok c | None => Err (InvalidControlInformation b) end)).
  vm_compute. reflexivity.
Qed.

Lemma control_table b : b < 256 ->
  (forall c, control_information_from b = Ok c <-> In (b, c) control_codes) /\
  ((forall c, ~ In (b, c) control_codes) -> control_information_from b = Err (InvalidControlInformation b)).
Proof.
  intros Hb. rewrite control_lookup by assumption.
  assert (ND : NoDup (map fst control_codes)) by (apply nodup_keys_ok; vm_compute; reflexivity).
  split.
  - intros c. rewrite <- (lookup_In control_codes b c ND). destruct (lookup control_codes b) as [c'|].
    + split; intros E; inversion E; reflexivity.
    + split; discriminate.
  - intros Hn. destruct (lookup control_codes b) as [c|] eqn:E; [|reflexivity].
    apply (lookup_In control_codes b c ND) in E. exfalso; exact (Hn c E).
Qed.

Lemma function_table b : b < 256 ->
  (forall f, function_try_from b = Ok f <-> In (b, f) function_codes) /\
  ((forall f, ~ In (b, f) function_codes) -> function_try_from b = Err (InvalidFunction b)).
Proof.
  intros Hb.
  assert (L : function_try_from b = match lookup function_codes b with
                               | Some c => Ok c | None => Err (InvalidFunction b) end).
  { refine (sweep_eq function_try_from (fun b => match lookup function_codes b with
                               | Some c => Ok c | None => Err (InvalidFunction b) end) _ b Hb).
    vm_compute. reflexivity. }
  rewrite L.
  assert (ND : NoDup (map fst function_codes)) by (apply nodup_keys_ok; vm_compute; reflexivity).
  split.
  - intros c. rewrite <- (lookup_In function_codes b c ND). destruct (lookup function_codes b) as [c'|].
    + split; intros E; inversion E; reflexivity.
    + split; discriminate.
  - intros Hn. destruct (lookup function_codes b) as [c|] eqn:E; [|reflexivity].
    apply (lookup_In function_codes b c ND) in E. exfalso; exact (Hn c E).
Qed.

Lemma function_injective b1 b2 f :
  function_try_from b1 = Ok f -> function_try_from b2 = Ok f -> b1 = b2.
Proof.
  unfold function_try_from; intros H1 H2.
  repeat match type of H1 with (if ?x =? ?y then _ else _) = _ => destruct (N.eqb_spec x y); [subst|] end;
    try discriminate H1; apply Ok_inj in H1; subst f;
    repeat match type of H2 with (if ?x =? ?y then _ else _) = _ => destruct (N.eqb_spec x y); [subst|] end;
    try discriminate H2; reflexivity.
Qed.

Lemma reset_table b : b < 256 -> nth_error (map (fun f => f b) reset_codes) (N.to_nat (b mod 16)) = Some (reset_subcode_from b).
Proof.
  apply (sweep_eq (fun b => nth_error (map (fun f => f b) reset_codes) (N.to_nat (b mod 16)))
           (fun b => Some (reset_subcode_from b))). vm_compute. reflexivity.
Qed.

Lemma reset_code b f : b < 256 -> nth_error reset_codes (N.to_nat (b mod 16)) = Some f -> reset_subcode_from b = f b.
Proof.
  intros Hb Hf. pose proof (reset_table b Hb) as H.
  rewrite (map_nth_error _ _ _ Hf) in H. inversion H; reflexivity.
Qed.

Lemma reset_some b : exists f, nth_error reset_codes (N.to_nat (b mod 16)) = Some f.
Proof.
  destruct (nth_error reset_codes (N.to_nat (b mod 16))) as [f|] eqn:E; [exists f; reflexivity|].
  apply nth_error_None in E. assert (b mod 16 < 16) by (apply N.mod_lt; discriminate).
  cbn [reset_codes length] in E. lia.
Qed.

Lemma device_table b : b < 256 -> device_type_from_u8 b = device_code b.
Proof. apply (sweep_eq device_type_from_u8 device_code). vm_compute. reflexivity. Qed.

Lemma security_table b : b < 256 -> security_mode_from_bits b =
  match nth_error security_codes (N.to_nat (b mod 32)) with Some s => s | None => ReservedHigher (b mod 32) end.
Proof.
  apply (sweep_eq security_mode_from_bits (fun b =>
    match nth_error security_codes (N.to_nat (b mod 32)) with Some s => s | None => ReservedHigher (b mod 32) end)).
  vm_compute. reflexivity. Qed.

(** *** Parts of the headers *)
Lemma manufacturer_read_ok id : id < 65536 -> manufacturer_read id (mc_from_id id).
Proof.
  intros H. destruct (mc_from_id_total id) as [[[a b c] E]|E]; rewrite E.
  - left. apply mc_from_id_ok in E; [|assumption]. destruct E as ((Ha & Hb & Hc) & Hid). cbn in *.
    exists a, b, c; repeat split; try assumption; apply Ha || apply Hb || apply Hc.
  - right; split; [|reflexivity]. intros a b c Ha Hb Hc Hid.
    assert (mc_from_id id = Ok {| mc1 := a; mc2 := b; mc3 := c |}); [|congruence].
    apply mc_from_id_ok; [assumption|]. split; [repeat split; cbn; apply Ha || apply Hb || apply Hc|assumption].
Qed.

Lemma manufacturer_read_det id m : id < 65536 -> manufacturer_read id m -> mc_from_id id = m.
Proof.
  intros Hid [(a & b & c & Ha & Hb & Hc & E & ->)|(Hn & ->)].
  - apply mc_from_id_ok; [assumption|]. split; [repeat split; cbn; apply Ha || apply Hb || apply Hc|assumption].
  - destruct (mc_from_id_total id) as [[[a b c] E]|E]; [|assumption].
    apply mc_from_id_ok in E; [|assumption]. destruct E as ((Ha & Hb & Hc) & E). exfalso. exact (Hn _ _ _ Ha Hb Hc E).
Qed.

Lemma bcd_number_ok bytes n : bcd_hex_digits_to_u32 bytes = Ok n <-> bcd_number bytes n.
Proof. apply bcd_spells. Qed.

Ltac bytes_split H := repeat (apply bytes_ok_cons in H; let K := fresh "Hb" in destruct H as [K H]; unfold byte_ok in K).

Lemma get_from_le {A} (l : list A) n : n <= len l -> get_range l n (len l) = Some (skipn (N.to_nat n) l).
Proof.
  intros H. unfold get_range. rewrite (proj2 (N.leb_le _ _) H), N.leb_refl. cbn [andb]. f_equal.
  apply firstn_all2. rewrite skipn_length. unfold len in *; lia.
Qed.

Lemma ci_byte ci c : control_information_from ci = Ok c -> ci < 256 /\ In (ci, c) control_codes.
Proof.
  intros H. destruct (N.lt_ge_cases ci 256) as [Hl|Hl].
  - split; [assumption|]. apply control_table; assumption.
  - exfalso. revert H. unfold control_information_from.
    repeat match goal with |- context [if ci =? ?y then _ else _] => destruct (N.eqb_spec ci y); [lia|] end.
    repeat match goal with
    | |- context [(ci =? ?x) || (ci =? ?y)] => destruct (N.eqb_spec ci x); [lia|]; destruct (N.eqb_spec ci y); [lia|]; cbn [orb]
    | |- context [(?x <=? ci) && (ci <=? ?y)] => destruct (N.leb_spec ci y); [lia|]; rewrite andb_false_r
    | |- context [if ci =? ?y then _ else _] => destruct (N.eqb_spec ci y); [lia|]
    end. discriminate.
Qed.

(** which bytes have a given control information *)
Ltac which_ci H :=
  apply ci_byte in H; destruct H as [_ H];
  repeat (destruct H as [H|H]; [inversion H; subst; clear H|]); try contradiction.

Lemma get_lt {A} (l : list A) i x : get l i = Some x -> i < len l.
Proof.
  unfold get, len; intros H. assert (nth_error l (N.to_nat i) <> None) by congruence.
  apply nth_error_Some in H0. lia.
Qed.

Lemma skipn_exact {A} (a b : list A) n : length a = n -> skipn n (a ++ b) = b.
Proof. intros <-. rewrite skipn_app, skipn_all, Nat.sub_diag. reflexivity. Qed.

Lemma get_range_end {A} (a b : list A) n : len a = n -> get_range (a ++ b) n (len (a ++ b)) = Some b.
Proof.
  intros H. rewrite get_from_le by (rewrite len_app; lia). rewrite skipn_exact; [reflexivity|]. unfold len in H; lia.
Qed.

(** reading a list known byte by byte *)
Ltac get_reduce := cbv [get nth_error N.to_nat Pos.to_nat Pos.iter_op Nat.add app ok_or]; cbn [bind].

Lemma parse_long_layout ci i0 i1 i2 i3 m0 m1 v d acc st c0 c1 block lsb :
  parse_long_tpl ([ci; i0; i1; i2; i3; m0; m1; v; d; acc; st; c0; c1] ++ block) lsb =
  (n <- bcd_hex_digits_to_u32 (if lsb then rev [i0; i1; i2; i3] else [i0; i1; i2; i3]) ;;
   Ok (VariableLong None
        {| lh_identification_number := n; lh_manufacturer := mc_from_id (m0 + 256 * m1);
           lh_version := v; lh_device_type := device_type_from_u8 d;
           lh_short_tpl_header := short_header acc st c0 c1; lh_lsb_order := lsb |} block)).
Proof.
  unfold parse_long_tpl. rewrite get_range_end by reflexivity. get_reduce.
  destruct lsb; cbn [rev app]; destruct (bcd_hex_digits_to_u32 _); reflexivity.
Qed.

(** the first four bytes of the message are no decimal number, and this is reported *)
Definition number_error (data : list N) (lsb : bool) (e : application_layer_error) : Prop :=
  exists ci pre ds post n, length ds = 4%nat /\ (forall m, ~ bcd_number ds m) /\ e = IdentificationNumberError ds n /\
    data = [ci] ++ pre ++ (if lsb then rev ds else ds) ++ post.

Lemma bcd_error ds e : bcd_hex_digits_to_u32 ds = Err e ->
  (forall m, ~ bcd_number ds m) /\ exists n, e = IdentificationNumberError ds n.
Proof.
  intros H. split.
  - intros m Hm. apply bcd_number_ok in Hm. congruence.
  - destruct (bcd_total ds) as [[n E]|[n E]]; [congruence|]. exists n. congruence.
Qed.

(** cut off [n] bytes, closing the cases where they are missing with [tac] *)
Ltac cut_bytes n data tac :=
  lazymatch n with
  | O => idtac
  | S ?k => destruct data as [|?b data]; [tac|cut_bytes k data tac]
  end.

Ltac short_case H :=
  left; split; [revert H; get_reduce; intros H; inversion H; reflexivity|reflexivity].

Lemma parse_long_err data lsb e :
  parse_long_tpl data lsb = Err e ->
  (e = InsufficientData /\ len data < 13) \/ number_error data lsb e.
Proof.
  intros H. unfold parse_long_tpl in H.
  cut_bytes 5%nat data ltac:(short_case H).
  destruct (bcd_hex_digits_to_u32 (if lsb then rev [b0; b1; b2; b3] else [b0; b1; b2; b3])) as [n|e'|p] eqn:E.
  - assert (E' : bcd_hex_digits_to_u32 (if lsb then [b3; b2; b1; b0] else [b0; b1; b2; b3]) = Ok n)
      by (destruct lsb; exact E).
    cut_bytes 8%nat data ltac:(left; split; [revert H; get_reduce; rewrite E'; cbn [bind]; intros H; inversion H; reflexivity|reflexivity]).
    match type of H with ?x = Err e => change (parse_long_tpl ([b; b0; b1; b2; b3; b4; b5; b6; b7; b8; b9; b10; b11] ++ data) lsb = Err e) in H end.
    rewrite parse_long_layout, E in H. discriminate H.
  - right. revert H. get_reduce. intros H.
    assert (E' : bcd_hex_digits_to_u32 (if lsb then [b3; b2; b1; b0] else [b0; b1; b2; b3]) = Err e')
      by (destruct lsb; exact E).
    rewrite E' in H. cbn [bind] in H. assert (e' = e) by (inversion H; reflexivity). subst e'.
    destruct (bcd_error _ _ E) as [Hn [n He]].
    exists b, [], (if lsb then rev [b0; b1; b2; b3] else [b0; b1; b2; b3]), data, n.
    destruct lsb; repeat split; assumption.
  - exfalso. apply (bcd_panic _ (ex_intro _ p E)).
Qed.

Lemma parse_fixed_layout ci i0 i1 i2 i3 acc st d u a0 a1 a2 a3 b0 b1 b2 b3 rest :
  parse_fixed ([ci; i0; i1; i2; i3; acc; st; d; u; a0; a1; a2; a3; b0; b1; b2; b3] ++ rest) =
  (n <- bcd_hex_digits_to_u32 [i0; i1; i2; i3] ;;
   c1 <- bcd_hex_digits_to_u32 [a0; a1; a2; a3] ;;
   c2 <- bcd_hex_digits_to_u32 [b0; b1; b2; b3] ;;
   Ok (FixedDataStructure n acc st (256 * d + u) c1 c2)).
Proof.
  unfold parse_fixed. get_reduce. reflexivity.
Qed.

Lemma parse_fixed_err data e :
  parse_fixed data = Err e ->
  (e = InsufficientData /\ len data < 17) \/ number_error data false e.
Proof.
  intros H. unfold parse_fixed in H.
  cut_bytes 5%nat data ltac:(short_case H).
  destruct (bcd_hex_digits_to_u32 [b0; b1; b2; b3]) as [n|e'|p] eqn:E.
  2:{ right. revert H. get_reduce. intros H. rewrite E in H. cbn [bind] in H.
      assert (e' = e) by (inversion H; reflexivity). subst e'.
      destruct (bcd_error _ _ E) as [Hn [m He]].
      exists b, [], [b0; b1; b2; b3], data, m. repeat split; assumption. }
  2:{ exfalso. apply (bcd_panic _ (ex_intro _ p E)). }
  cut_bytes 8%nat data ltac:(left; split; [revert H; get_reduce; rewrite E; cbn [bind]; intros H; inversion H; reflexivity|reflexivity]).
  destruct (bcd_hex_digits_to_u32 [b8; b9; b10; b11]) as [n1|e1|p] eqn:E1.
  2:{ right. revert H. get_reduce. intros H. rewrite E in H. cbn [bind] in H. rewrite E1 in H. cbn [bind] in H.
      assert (e1 = e) by (inversion H; reflexivity). subst e1.
      destruct (bcd_error _ _ E1) as [Hn [m He]].
      exists b, [b0; b1; b2; b3; b4; b5; b6; b7], [b8; b9; b10; b11], data, m. repeat split; assumption. }
  2:{ exfalso. apply (bcd_panic _ (ex_intro _ p E1)). }
  cut_bytes 4%nat data ltac:(left; split; [revert H; get_reduce; rewrite E; cbn [bind]; rewrite E1; cbn [bind]; intros H; inversion H; reflexivity|reflexivity]).
  destruct (bcd_hex_digits_to_u32 [b12; b13; b14; b15]) as [n2|e2|p] eqn:E2.
  2:{ right. revert H. get_reduce. intros H. rewrite E in H. cbn [bind] in H. rewrite E1 in H. cbn [bind] in H.
      rewrite E2 in H. cbn [bind] in H.
      assert (e2 = e) by (inversion H; reflexivity). subst e2.
      destruct (bcd_error _ _ E2) as [Hn [m He]].
      exists b, [b0; b1; b2; b3; b4; b5; b6; b7; b8; b9; b10; b11], [b12; b13; b14; b15], data, m.
      repeat split; assumption. }
  2:{ exfalso. apply (bcd_panic _ (ex_intro _ p E2)). }
  exfalso. change (parse_fixed ([b; b0; b1; b2; b3; b4; b5; b6; b7; b8; b9; b10; b11; b12; b13; b14; b15] ++ data) = Err e) in H.
  rewrite parse_fixed_layout, E in H; cbn [bind] in H. rewrite E1 in H; cbn [bind] in H. rewrite E2 in H. discriminate H.
Qed.

Lemma parse_short_layout ci acc st c0 c1 block : ci <> 0xA0 ->
  parse_short_tpl ([ci; acc; st; c0; c1] ++ block) = Ok (VariableShort None (short_header acc st c0 c1) block).
Proof.
  intros H. unfold parse_short_tpl. change (index ([ci; acc; st; c0; c1] ++ block) 0) with (@Ok application_layer_error N ci).
  cbn [bind]. destruct (N.eqb_spec ci 0xA0); [contradiction|].
  rewrite get_range_end by reflexivity. cbn [N.add Pos.add Pos.succ]. get_reduce. reflexivity.
Qed.

Lemma parse_short_layout_a0 x acc st c0 c1 block :
  parse_short_tpl ([0xA0; x; acc; st; c0; c1] ++ block) = Ok (VariableShort None (short_header acc st c0 c1) block).
Proof.
  unfold parse_short_tpl. change (index ([0xA0; x; acc; st; c0; c1] ++ block) 0) with (@Ok application_layer_error N 0xA0).
  cbn [bind]. cbn [N.eqb Pos.eqb].
  rewrite get_range_end by reflexivity. cbn [N.add Pos.add Pos.succ]. get_reduce. reflexivity.
Qed.

Lemma get_from_app_exact {A} (a b : list A) n : len a = n -> get_from (a ++ b) n = Some b.
Proof. apply get_from_app_n. Qed.

Lemma parse_ell_ii_layout cc acc s0 s1 s2 s3 p0 p1 block :
  parse_ell_short ([0x8D; cc; acc; s0; s1; s2; s3; p0; p1] ++ block) FormatII =
  Ok (VariableShort (Some (ell_ii cc acc [s0; s1; s2; s3] p0 p1)) (short_header acc cc 0 0) block).
Proof.
  unfold parse_ell_short.
  change ([0x8D; cc; acc; s0; s1; s2; s3; p0; p1] ++ block) with ([0x8D] ++ [cc; acc; s0; s1; s2; s3; p0; p1] ++ block) at 1.
  rewrite get_from_app_exact by reflexivity. cbn [ok_or bind ell_parse].
  unfold ell_parse_format_ii.
  destruct (N.ltb_spec (len ([cc; acc; s0; s1; s2; s3; p0; p1] ++ block)) 8) as [H|_];
    [rewrite len_app in H; change (len [cc; acc; s0; s1; s2; s3; p0; p1]) with 8 in H; lia|].
  unfold index. get_reduce. cbv zeta. change (1 + 8) with 9.
  match goal with |- context [get_from ?l 9] => change l with ([0x8D; cc; acc; s0; s1; s2; s3; p0; p1] ++ block) end.
  rewrite get_from_app_exact by reflexivity. reflexivity.
Qed.

Lemma parse_ell_iii_layout cc acc m0 m1 a0 a1 a2 a3 a4 a5 s0 s1 s2 s3 p0 p1 block :
  parse_ell_short ([0x8E; cc; acc; m0; m1; a0; a1; a2; a3; a4; a5; s0; s1; s2; s3; p0; p1] ++ block) FormatIII =
  Ok (VariableShort (Some (ell_iii cc acc m0 m1 [a0; a1; a2; a3; a4; a5] [s0; s1; s2; s3] p0 p1)) (short_header acc cc 0 0) block).
Proof.
  unfold parse_ell_short.
  change ([0x8E; cc; acc; m0; m1; a0; a1; a2; a3; a4; a5; s0; s1; s2; s3; p0; p1] ++ block)
    with ([0x8E] ++ [cc; acc; m0; m1; a0; a1; a2; a3; a4; a5; s0; s1; s2; s3; p0; p1] ++ block) at 1.
  rewrite get_from_app_exact by reflexivity. cbn [ok_or bind ell_parse].
  unfold ell_parse_format_iii.
  destruct (N.ltb_spec (len ([cc; acc; m0; m1; a0; a1; a2; a3; a4; a5; s0; s1; s2; s3; p0; p1] ++ block)) 16) as [H|_];
    [rewrite len_app in H; change (len [cc; acc; m0; m1; a0; a1; a2; a3; a4; a5; s0; s1; s2; s3; p0; p1]) with 16 in H; lia|].
  unfold index. get_reduce. cbv zeta. change (1 + 16) with 17.
  match goal with |- context [get_from ?l 17] =>
    change l with ([0x8E; cc; acc; m0; m1; a0; a1; a2; a3; a4; a5; s0; s1; s2; s3; p0; p1] ++ block) end.
  rewrite get_from_app_exact by reflexivity. reflexivity.
Qed.

(** the message read by its control information, recursion left alone *)
Lemma try_from_cons b tail :
  user_data_try_from (b :: tail) =
  (ci <- control_information_from b ;;
   match ci with
   | CIResetAtApplicationLevel =>
       x <- ok_or (get (b :: tail) 1) InsufficientData ;; Ok (ResetAtApplicationLevel (reset_subcode_from x))
   | CIResponseWithVariableDataStructure lsb_order => parse_long_tpl (b :: tail) lsb_order
   | CIResponseWithFixedDataStructure => parse_fixed (b :: tail)
   | CIApplicationLayerNoTransport =>
       block <- ok_or (get_range (b :: tail) 1 (len (b :: tail))) InsufficientData ;; Ok (VariableNone None block)
   | CIApplicationLayerShortTransport => parse_short_tpl (b :: tail)
   | CIExtendedLinkLayerI =>
       match tail with
       | cc :: acc :: rest =>
           match user_data_try_from rest with
           | Ok (VariableShort _ h block) => Ok (VariableShort (Some (ell_i cc acc)) h block)
           | Ok (VariableNone _ block) => Ok (VariableNone (Some (ell_i cc acc)) block)
           | Panic p => Panic p
           | _ => Err MissingControlInformation
           end
       | _ => Err InsufficientData
       end
   | CIExtendedLinkLayerII => parse_ell_short (b :: tail) FormatII
   | CIExtendedLinkLayerIII => parse_ell_short (b :: tail) FormatIII
   | _ => Err Unimplemented
   end).
Proof. reflexivity. Qed.

Lemma app_meaning_read data u : bytes_ok data -> app_meaning data u -> user_data_try_from data = Ok u.
Proof.
  intros Hb H; induction H.
  - rewrite try_from_cons. change (control_information_from 0x50) with (@Ok application_layer_error _ CIResetAtApplicationLevel).
    cbn [bind]. change (get (0x50 :: b :: rest) 1) with (Some b). cbn [ok_or bind].
    bytes_split Hb. rewrite (reset_code b f) by assumption. reflexivity.
  - destruct H0 as (Hn & Hm & Hv & Hd & Hs & Hl). cbn [app] in Hb. bytes_split Hb.
    destruct h as [hn hm hv hd hs hl]; cbn [lh_identification_number lh_manufacturer lh_version lh_device_type
      lh_short_tpl_header lh_lsb_order] in *. subst hv hd hs hl.
    apply manufacturer_read_det in Hm; [|lia]. subst hm. rewrite <- device_table by assumption.
    apply bcd_number_ok in Hn.
    destruct H as [-> | ->]; cbn [N.eqb Pos.eqb] in Hn |- *; cbn [app]; rewrite try_from_cons.
    + change (control_information_from 0x72) with (@Ok application_layer_error _ (CIResponseWithVariableDataStructure false)). cbn [bind].
      match goal with |- parse_long_tpl (?a :: ?b :: ?c :: ?d :: ?e :: ?f :: ?g :: ?h :: ?i :: ?j :: ?k :: ?l :: ?m :: ?r) _ = _ =>
        change (parse_long_tpl ([a; b; c; d; e; f; g; h; i; j; k; l; m] ++ r) false = Ok (VariableLong None
          {| lh_identification_number := hn; lh_manufacturer := mc_from_id (m0 + 256 * m1); lh_version := v;
             lh_device_type := device_type_from_u8 i; lh_short_tpl_header := short_header acc st c0 c1;
             lh_lsb_order := false |} r)) end.
      rewrite parse_long_layout, Hn. reflexivity.
    + change (control_information_from 0x76) with (@Ok application_layer_error _ (CIResponseWithVariableDataStructure true)). cbn [bind].
      match goal with |- parse_long_tpl (?a :: ?b :: ?c :: ?d :: ?e :: ?f :: ?g :: ?h :: ?i :: ?j :: ?k :: ?l :: ?m :: ?r) _ = _ =>
        change (parse_long_tpl ([a; b; c; d; e; f; g; h; i; j; k; l; m] ++ r) true = Ok (VariableLong None
          {| lh_identification_number := hn; lh_manufacturer := mc_from_id (m0 + 256 * m1); lh_version := v;
             lh_device_type := device_type_from_u8 i; lh_short_tpl_header := short_header acc st c0 c1;
             lh_lsb_order := true |} r)) end.
      rewrite parse_long_layout, Hn. reflexivity.
  - apply bcd_number_ok in H0, H1, H2.
    assert (E : user_data_try_from ([ci; i0; i1; i2; i3; acc; st; d; u; a0; a1; a2; a3; b0; b1; b2; b3] ++ rest) =
       parse_fixed ([ci; i0; i1; i2; i3; acc; st; d; u; a0; a1; a2; a3; b0; b1; b2; b3] ++ rest))
      by (destruct H as [-> | ->]; reflexivity).
    rewrite E, parse_fixed_layout, H0; cbn [bind]. rewrite H1; cbn [bind]. rewrite H2. reflexivity.
  - rewrite try_from_cons. change (control_information_from 0x78) with (@Ok application_layer_error _ CIApplicationLayerNoTransport).
    cbn [bind]. change (0x78 :: block) with ([0x78] ++ block). rewrite get_range_end by reflexivity. reflexivity.
  - assert (E : control_information_from ci = Ok CIApplicationLayerShortTransport).
    { apply control_table; [lia|]. destruct H as [-> | H]; [cbn; tauto|].
      assert (Hc : ci = 0xA1 \/ ci = 0xA2 \/ ci = 0xA3 \/ ci = 0xA4 \/ ci = 0xA5 \/ ci = 0xA6 \/ ci = 0xA7 \/ ci = 0xA8 \/
        ci = 0xA9 \/ ci = 0xAA \/ ci = 0xAB \/ ci = 0xAC \/ ci = 0xAD \/ ci = 0xAE \/ ci = 0xAF) by lia.
      repeat (destruct Hc as [-> | Hc]; [cbn; tauto|]). subst ci. cbn; tauto. }
    cbn [app]. rewrite try_from_cons, E. cbn [bind].
    apply (parse_short_layout ci acc st c0 c1 block). lia.
  - apply (parse_short_layout_a0 x acc st c0 c1 block).
  - cbn [app] in *. bytes_split Hb. specialize (IHapp_meaning Hb).
    rewrite try_from_cons. change (control_information_from 0x8C) with (@Ok application_layer_error _ CIExtendedLinkLayerI).
    cbn [bind]. rewrite IHapp_meaning. destruct H0; reflexivity.
  - apply parse_ell_ii_layout.
  - apply parse_ell_iii_layout.
Qed.

(** the data of a short message, and of one cut off *)
Lemma cut_at (data : list N) n : n <= len data -> exists a b, data = a ++ b /\ len a = n.
Proof.
  intros H. exists (firstn (N.to_nat n) data), (skipn (N.to_nat n) data). rewrite firstn_skipn; split; [reflexivity|].
  unfold len in *. rewrite firstn_length. lia.
Qed.

Lemma parse_short_err ci data : (len (ci :: data) < if ci =? 0xA0 then 6 else 5) ->
  parse_short_tpl (ci :: data) = Err InsufficientData.
Proof.
  intros H. unfold parse_short_tpl. change (index (ci :: data) 0) with (@Ok application_layer_error N ci). cbn [bind].
  destruct (ci =? 0xA0).
  - do 5 (destruct data as [|? data]; [cbn [N.add Pos.add Pos.succ]; get_reduce; reflexivity|]).
    rewrite !len_cons in H. lia.
  - do 4 (destruct data as [|? data]; [cbn [N.add Pos.add Pos.succ]; get_reduce; reflexivity|]).
    rewrite !len_cons in H. lia.
Qed.

Lemma parse_ell_ii_err data : len (0x8D :: data) < 9 -> parse_ell_short (0x8D :: data) FormatII = Err InsufficientData.
Proof.
  intros H. rewrite len_cons in H. unfold parse_ell_short. change (0x8D :: data) with ([0x8D] ++ data).
  rewrite get_from_app_exact by reflexivity. cbn [ok_or bind ell_parse]. unfold ell_parse_format_ii.
  destruct (N.ltb_spec (len data) 8); [reflexivity|lia].
Qed.

Lemma parse_ell_iii_err data : len (0x8E :: data) < 17 -> parse_ell_short (0x8E :: data) FormatIII = Err InsufficientData.
Proof.
  intros H. rewrite len_cons in H. unfold parse_ell_short. change (0x8E :: data) with ([0x8E] ++ data).
  rewrite get_from_app_exact by reflexivity. cbn [ok_or bind ell_parse]. unfold ell_parse_format_iii.
  destruct (N.ltb_spec (len data) 16); [reflexivity|lia].
Qed.

Ltac list_of n l H :=
  lazymatch n with
  | O => destruct l; [|exfalso; rewrite ?len_cons in H; lia]
  | S ?k => destruct l as [|? l]; [exfalso; rewrite ?len_cons in H; change (len (@nil N)) with 0 in H; lia|list_of k l H]
  end.

Definition result_ok (data : list N) : Prop :=
  (exists u, user_data_try_from data = Ok u /\ app_meaning data u) \/
  (exists e, user_data_try_from data = Err e /\ app_error data e).

Lemma result_of_meaning data u : bytes_ok data -> app_meaning data u -> result_ok data.
Proof. intros Hb H. left; exists u; split; [apply app_meaning_read; assumption|assumption]. Qed.

Lemma long_result ci data lsb :
  bytes_ok (ci :: data) -> ci = 0x72 /\ lsb = false \/ ci = 0x76 /\ lsb = true ->
  user_data_try_from (ci :: data) = parse_long_tpl (ci :: data) lsb -> result_ok (ci :: data).
Proof.
  intros Hb Hci E.
  assert (Hlsb : lsb = (ci =? 0x76)) by (destruct Hci as [[-> ->]|[-> ->]]; reflexivity).
  destruct (parse_long_tpl (ci :: data) lsb) as [u|e|p] eqn:P.
  - assert (Hl : 13 <= len (ci :: data)).
    { unfold parse_long_tpl in P. bind_all P.
      match goal with K : ok_or (get (ci :: data) 12) _ = _ |- _ => apply ok_or_ok in K; apply get_lt in K; lia end. }
    destruct (cut_at _ _ Hl) as (a & block & Ea & La). 
    list_of 13%nat a La. cbn [app] in Ea. inversion Ea; subst n data.
    rename n0 into i0, n1 into i1, n2 into i2, n3 into i3, n4 into m0, n5 into m1, n6 into v, n7 into d,
      n8 into acc, n9 into st, n10 into c0, n11 into c1.
    change (parse_long_tpl ([ci; i0; i1; i2; i3; m0; m1; v; d; acc; st; c0; c1] ++ block) lsb = Ok u) in P.
    rewrite parse_long_layout in P. bind_inv P. apply Ok_inj in P. subst u.
    left. eexists; split; [exact E|]. 
    change (app_meaning ([ci; i0; i1; i2; i3; m0; m1; v; d; acc; st; c0; c1] ++ block)
      (VariableLong None
        {| lh_identification_number := a; lh_manufacturer := mc_from_id (m0 + 256 * m1); lh_version := v;
           lh_device_type := device_type_from_u8 d; lh_short_tpl_header := short_header acc st c0 c1;
           lh_lsb_order := lsb |} block)).
    apply AMLong; [tauto|]. bytes_split Hb.
    split; [|split; [|repeat split; try assumption]]; cbn [lh_identification_number lh_manufacturer lh_device_type lh_lsb_order].
    + rewrite <- Hlsb. apply bcd_number_ok. assumption.
    + apply manufacturer_read_ok. lia.
    + apply device_table; assumption.
  - right. exists e; split; [exact E|]. apply parse_long_err in P. destruct P as [[-> Hl]|P].
    + apply AEShort with 13; [|assumption]. destruct Hci as [[-> _]|[-> _]]; reflexivity.
    + destruct P as (ci' & pre & ds & post & n & H4 & Hn & -> & Ed). cbn [app] in Ed. inversion Ed; subst ci' data.
      rewrite Hlsb. apply (AENumber ci pre ds post n); [tauto|assumption|assumption].
  - exfalso. unfold parse_long_tpl in P.
    assert (Hp : is_panic (parse_long_tpl (ci :: data) lsb)) by (exists p; exact P).
    clear P. unfold parse_long_tpl in Hp. panic_steps Hp.
    all: try (apply bcd_panic in Hp; exact Hp).
Qed.

Lemma fixed_result ci data :
  bytes_ok (ci :: data) -> ci = 0x73 \/ ci = 0x77 ->
  user_data_try_from (ci :: data) = parse_fixed (ci :: data) -> result_ok (ci :: data).
Proof.
  intros Hb Hci E.
  destruct (parse_fixed (ci :: data)) as [u|e|p] eqn:P.
  - assert (Hl : 17 <= len (ci :: data)).
    { unfold parse_fixed in P. bind_all P.
      match goal with K : ok_or (get (ci :: data) 16) _ = _ |- _ => apply ok_or_ok in K; apply get_lt in K; lia end. }
    destruct (cut_at _ _ Hl) as (a & rest & Ea & La).
    list_of 17%nat a La. cbn [app] in Ea. inversion Ea; subst n data.
    match type of P with parse_fixed (?a :: ?b :: ?c :: ?d :: ?e :: ?f :: ?g :: ?h :: ?i :: ?j :: ?k :: ?l :: ?m :: ?n :: ?o :: ?p :: ?q :: ?r) = _ =>
      change (parse_fixed ([a; b; c; d; e; f; g; h; i; j; k; l; m; n; o; p; q] ++ r) = Ok u) in P end.
    rewrite parse_fixed_layout in P. bind_inv P. bind_inv P. bind_inv P. apply Ok_inj in P. subst u.
    left. eexists; split; [exact E|].
    apply bcd_number_ok in Ha, Ha0, Ha1.
    exact (AMFixed ci _ _ _ _ _ _ _ _ _ _ _ _ _ _ _ _ rest _ _ _ Hci Ha Ha0 Ha1).
  - right. exists e; split; [exact E|]. apply parse_fixed_err in P. destruct P as [[-> Hl]|P].
    + apply AEShort with 17; [|assumption]. destruct Hci as [-> | ->]; reflexivity.
    + destruct P as (ci' & pre & ds & post & n & H4 & Hn & -> & Ed). cbn [app] in Ed. inversion Ed; subst ci' data.
      assert (Hne : (ci =? 0x76) = false) by (destruct Hci as [-> | ->]; reflexivity).
      pose proof (AENumber ci pre ds post n ltac:(tauto) H4 Hn) as R. rewrite Hne in R. exact R.
  - exfalso.
    assert (Hp : is_panic (parse_fixed (ci :: data))) by (exists p; exact P).
    clear P. unfold parse_fixed in Hp. panic_steps Hp.
    all: try (apply bcd_panic in Hp; exact Hp).
Qed.

Lemma result_all data : bytes_ok data -> result_ok data.
Proof.
  remember (length data) as n eqn:Hn. assert (Hle : (length data <= n)%nat) by lia. clear Hn.
  revert data Hle. induction n as [|n IH]; intros data Hle Hb.
  { destruct data; [|cbn in Hle; lia]. right. eexists; split; [reflexivity|constructor]. }
  destruct data as [|b tail]; [right; eexists; split; [reflexivity|constructor]|].
  assert (Hb1 : b < 256) by (apply bytes_ok_cons in Hb; exact (proj1 Hb)).
  pose proof (try_from_cons b tail) as T.
  destruct (control_information_from b) as [ci|e|p] eqn:Eci.
  2:{ right. exists e. split; [exact T|].
      rewrite control_lookup in Eci by assumption. destruct (lookup control_codes b) as [c|] eqn:El; [discriminate|].
      inversion Eci; subst e. apply AEUnknown. intros c Hc.
      apply lookup_In in Hc; [congruence|]. apply nodup_keys_ok; vm_compute; reflexivity. }
  2:{ rewrite control_lookup in Eci by assumption. destruct (lookup control_codes b); discriminate. }
  cbn [bind] in T.
  pose proof (proj2 (ci_byte _ _ Eci)) as HIn.
  assert (U : fixed_part b = None -> user_data_try_from (b :: tail) = Err Unimplemented -> result_ok (b :: tail)).
  { intros Hf Hu. right. exists Unimplemented; split; [exact Hu|]. apply AEUnimplemented with ci; assumption. }
  destruct ci;
    try (apply U; [clear - HIn; cbn [In control_codes] in HIn;
           repeat (destruct HIn as [HIn|HIn]; [inversion HIn; subst; reflexivity|]); contradiction|exact T]).
  - (* reset *)
    assert (b = 0x50) by (which_ci Eci; reflexivity). subst b.
    destruct tail as [|x rest].
    + right. eexists; split; [exact T|]. apply AEShort with 2; [reflexivity|reflexivity].
    + destruct (reset_some x) as [f Hf]. exact (result_of_meaning _ _ Hb (AMReset x rest f Hf)).
  - (* long *)
    assert (Hc : b = 0x72 /\ lsb_order = false \/ b = 0x76 /\ lsb_order = true) by (which_ci Eci; tauto).
    apply (long_result b tail lsb_order); assumption.
  - assert (Hc : b = 0x73 \/ b = 0x77) by (which_ci Eci; tauto).
    apply fixed_result; assumption.
  - assert (b = 0x78) by (which_ci Eci; reflexivity). subst b.
    exact (result_of_meaning _ _ Hb (AMNone tail)).
  - (* short *)
    assert (Hc : b = 0x7A \/ 0xA0 <= b <= 0xAF) by (which_ci Eci; lia).
    destruct (N.lt_ge_cases (len (b :: tail)) (if b =? 0xA0 then 6 else 5)) as [Hl|Hl].
    + right. exists InsufficientData; split; [rewrite T; apply parse_short_err; assumption|].
      apply AEShort with (if b =? 0xA0 then 6 else 5); [|assumption].
      destruct (N.eqb_spec b 0xA0) as [->|Hne]; [reflexivity|].
      clear - Hc Hne. destruct Hc as [->|Hc]; [reflexivity|].
      assert (E : b = 0xA1 \/ b = 0xA2 \/ b = 0xA3 \/ b = 0xA4 \/ b = 0xA5 \/ b = 0xA6 \/ b = 0xA7 \/ b = 0xA8 \/
        b = 0xA9 \/ b = 0xAA \/ b = 0xAB \/ b = 0xAC \/ b = 0xAD \/ b = 0xAE \/ b = 0xAF) by lia.
      repeat (destruct E as [-> | E]; [reflexivity|]). subst b; reflexivity.
    + destruct (N.eqb_spec b 0xA0) as [->|Hne].
      * destruct (cut_at _ _ Hl) as (a & block & Ea & La). list_of 6%nat a La. cbn [app] in Ea. inversion Ea; subst.
        exact (result_of_meaning _ _ Hb (AMShortA0 _ _ _ _ _ block)).
      * destruct (cut_at _ _ Hl) as (a & block & Ea & La). list_of 5%nat a La. cbn [app] in Ea. inversion Ea; subst.
        refine (result_of_meaning _ _ Hb (AMShort _ _ _ _ _ block _)). lia.
  - (* ELL I *)
    assert (b = 0x8C) by (which_ci Eci; reflexivity). subst b.
    destruct tail as [|cc [|acc rest]];
      try (right; eexists; split; [exact T|]; apply AEShort with 3; [reflexivity|reflexivity]).
    assert (Hbr : bytes_ok rest) by (bytes_split Hb; assumption).
    destruct (IH rest ltac:(cbn [length] in Hle; lia) Hbr) as [(u & Eu & Mu)|(e & Ee & Me)].
    + rewrite Eu in T.
      assert (Bad : (forall u', ~ with_ell (ell_i cc acc) u u') ->
                    user_data_try_from (0x8C :: cc :: acc :: rest) = Err MissingControlInformation ->
                    result_ok (0x8C :: cc :: acc :: rest)).
      { intros Hno Hu. right. eexists; split; [exact Hu|]. apply AEEll.
        intros v v' Hv Hw. apply app_meaning_read in Hv; [|assumption]. rewrite Eu in Hv.
        inversion Hv; subst v. exact (Hno _ Hw). }
      destruct u.
      * apply Bad; [intros u' Hw; inversion Hw|exact T].
      * apply Bad; [intros u' Hw; inversion Hw|exact T].
      * apply Bad; [intros u' Hw; inversion Hw|exact T].
      * exact (result_of_meaning _ _ Hb (AMEllI cc acc rest _ _ Mu (we_short _ _ _ _))).
      * exact (result_of_meaning _ _ Hb (AMEllI cc acc rest _ _ Mu (we_none _ _ _))).
    + rewrite Ee in T. right. eexists; split; [exact T|]. apply AEEll.
      intros v v' Hv Hw. apply app_meaning_read in Hv; [|assumption]. congruence.
  - (* ELL II *)
    assert (b = 0x8D) by (which_ci Eci; reflexivity). subst b.
    destruct (N.lt_ge_cases (len (0x8D :: tail)) 9) as [Hl|Hl].
    + right. exists InsufficientData; split; [rewrite T; apply parse_ell_ii_err; assumption|].
      apply AEShort with 9; [reflexivity|assumption].
    + destruct (cut_at _ _ Hl) as (a & block & Ea & La). list_of 9%nat a La. cbn [app] in Ea. inversion Ea; subst.
      exact (result_of_meaning _ _ Hb (AMEllII _ _ _ _ _ _ _ _ block)).
  - (* ELL III *)
    assert (b = 0x8E) by (which_ci Eci; reflexivity). subst b.
    destruct (N.lt_ge_cases (len (0x8E :: tail)) 17) as [Hl|Hl].
    + right. exists InsufficientData; split; [rewrite T; apply parse_ell_iii_err; assumption|].
      apply AEShort with 17; [reflexivity|assumption].
    + destruct (cut_at _ _ Hl) as (a & block & Ea & La). list_of 17%nat a La. cbn [app] in Ea. inversion Ea; subst.
      exact (result_of_meaning _ _ Hb (AMEllIII _ _ _ _ _ _ _ _ _ _ _ _ _ _ _ _ block)).
Qed.

Lemma dispatch_exact data u : bytes_ok data -> user_data_try_from data = Ok u <-> app_meaning data u.
Proof.
  intros Hb. split; [|apply app_meaning_read; assumption].
  intros H. destruct (result_all data Hb) as [(u' & E & M)|(e & E & _)]; congruence.
Qed.

Lemma dispatch_errors data e : bytes_ok data -> user_data_try_from data = Err e -> app_error data e.
Proof. intros Hb H. destruct (result_all data Hb) as [(u' & E & M)|(e' & E & M)]; congruence. Qed.

Lemma dispatch_no_panic data : bytes_ok data -> ~ is_panic (user_data_try_from data).
Proof. intros Hb [p H]. destruct (result_all data Hb) as [(u' & E & M)|(e' & E & M)]; congruence. Qed.

(** *** Encryption *)

(** the configuration field announces encryption: bits 8 to 12 are not all zero *)
Lemma no_encryption_mode raw : configuration_security_mode raw = NoEncryption <-> (raw / 256) mod 32 = 0.
Proof.
  pose proof (configuration_mode raw) as H. split.
  - intros E. rewrite E in H. symmetry; exact H.
  - intros E. rewrite E in H. destruct (configuration_security_mode raw) eqn:C; try discriminate H; [reflexivity|].
    cbn in H. exfalso. unfold configuration_security_mode, security_mode_from_bits in C.
    cbv zeta in C.
    assert (L : N.land (N.land (N.shiftr raw 8) 31) 31 = (raw / 256) mod 32).
    { change 31 with (N.ones 5). rewrite !N.land_ones, shiftr_8. change (2 ^ 5) with 32. apply N.mod_mod. discriminate. }
    rewrite L, E in C. discriminate C.
Qed.

Lemma short_encrypted_iff h :
  short_is_encrypted h = true <-> (sh_configuration_field h / 256) mod 32 <> 0.
Proof.
  rewrite <- (no_encryption_mode (sh_configuration_field h)). unfold short_is_encrypted.
  destruct (configuration_security_mode (sh_configuration_field h)); split; intros H; try reflexivity; try discriminate;
    try (intros C; discriminate C). exfalso; apply H; reflexivity.
Qed.

Lemma records_unless_encrypted u :
  match u with
  | VariableLong _ h block =>
      user_data_records u = if (sh_configuration_field (lh_short_tpl_header h) / 256) mod 32 =? 0
                            then Some (records_new block (Some h)) else None
  | VariableShort _ h block =>
      user_data_records u = if (sh_configuration_field h / 256) mod 32 =? 0 then Some (records_new block None) else None
  | VariableNone _ block => user_data_records u = Some (records_new block None)
  | _ => user_data_records u = None
  end.
Proof.
  destruct u as [s| |ell h block|ell h block|ell block]; try reflexivity; cbn [user_data_records].
  - unfold long_is_encrypted. pose proof (short_encrypted_iff (lh_short_tpl_header h)) as I.
    destruct (N.eqb_spec ((sh_configuration_field (lh_short_tpl_header h) / 256) mod 32) 0), (short_is_encrypted _);
      try reflexivity; exfalso; intuition discriminate.
  - pose proof (short_encrypted_iff h) as I.
    destruct (N.eqb_spec ((sh_configuration_field h / 256) mod 32) 0), (short_is_encrypted _);
      try reflexivity; exfalso; intuition discriminate.
Qed.

Lemma config_mode c0 c1 : c0 < 256 -> ((c0 + 256 * c1) / 256) mod 32 = c1 mod 32.
Proof. intros H. rewrite (N.mul_comm 256), N.div_add, N.div_small by lia. reflexivity. Qed.

Lemma long_records ci i0 i1 i2 i3 m0 m1 v d acc st c0 c1 block u :
  bytes_ok ([ci; i0; i1; i2; i3; m0; m1; v; d; acc; st; c0; c1] ++ block) ->
  ci = 0x72 \/ ci = 0x76 ->
  user_data_try_from ([ci; i0; i1; i2; i3; m0; m1; v; d; acc; st; c0; c1] ++ block) = Ok u ->
  (c1 mod 32 <> 0 -> user_data_records u = None) /\
  (c1 mod 32 = 0 -> exists h, long_header ci [i0; i1; i2; i3] m0 m1 v d acc st c0 c1 h /\
                              user_data_records u = Some (records_new block (Some h))).
Proof.
  intros Hb Hci H. pose proof Hb as Hb'. apply dispatch_exact in H; [|assumption].
  inversion H; subst; try (exfalso; lia).
  cbn [app] in *. bytes_split Hb'.
  match goal with K : long_header _ _ _ _ _ _ _ _ _ _ ?h |- _ => pose proof K as LH; destruct K as (_ & _ & _ & _ & Hs & _) end.
  pose proof (records_unless_encrypted (VariableLong None h block)) as R. cbn beta iota in R.
  rewrite Hs in R. unfold short_header in R; cbn [sh_configuration_field] in R. rewrite config_mode in R by assumption.
  split; intros E.
  - rewrite R. apply N.eqb_neq in E. rewrite E. reflexivity.
  - exists h. split; [exact LH|]. rewrite R, E. reflexivity.
Qed.

Lemma short_records ci pre acc st c0 c1 block u :
  bytes_ok (ci :: pre ++ [acc; st; c0; c1] ++ block) ->
  (ci = 0x7A \/ 0xA1 <= ci <= 0xAF) /\ pre = [] \/ ci = 0xA0 /\ (length pre = 1)%nat ->
  user_data_try_from (ci :: pre ++ [acc; st; c0; c1] ++ block) = Ok u ->
  user_data_records u = if c1 mod 32 =? 0 then Some (records_new block None) else None.
Proof.
  intros Hb Hci H. pose proof Hb as Hb'. apply dispatch_exact in H; [|assumption].
  assert (E : u = VariableShort None (short_header acc st c0 c1) block).
  { destruct Hci as [[Hci ->]|[-> Hp]].
    - inversion H; subst; try (exfalso; lia). reflexivity.
    - destruct pre as [|x [|]]; try discriminate. inversion H; subst; try (exfalso; lia). reflexivity. }
  assert (Hc0 : c0 < 256).
  { change (ci :: pre ++ [acc; st; c0; c1] ++ block) with ((ci :: pre) ++ [acc; st; c0; c1] ++ block) in Hb'.
    apply bytes_ok_app in Hb'. destruct Hb' as [_ Hb']. cbn [app] in Hb'. bytes_split Hb'. assumption. }
  subst u. pose proof (records_unless_encrypted (VariableShort None (short_header acc st c0 c1) block)) as R.
  cbn beta iota in R. unfold short_header in R at 2; cbn [sh_configuration_field] in R.
  rewrite config_mode in R by assumption. exact R.
Qed.

Lemma ell_records cc acc rest u :
  user_data_try_from ([0x8C; cc; acc] ++ rest) = Ok u ->
  exists u', user_data_try_from rest = Ok u' /\ user_data_records u = user_data_records u'.
Proof.
  cbn [app]. rewrite try_from_cons. change (control_information_from 0x8C) with (@Ok application_layer_error _ CIExtendedLinkLayerI).
  cbn [bind]. destruct (user_data_try_from rest) as [u'|e|p]; try discriminate.
  destruct u'; try discriminate; intros H; inversion H; subst; eexists; split; reflexivity.
Qed.

Lemma long_encryption ci i0 i1 i2 i3 m0 m1 v d acc st c0 c1 block u :
  bytes_ok ([ci; i0; i1; i2; i3; m0; m1; v; d; acc; st; c0; c1] ++ block) ->
  ci = 0x72 \/ ci = 0x76 ->
  user_data_try_from ([ci; i0; i1; i2; i3; m0; m1; v; d; acc; st; c0; c1] ++ block) = Ok u ->
  user_data_is_encrypted u = Some (negb (c1 mod 32 =? 0)).
Proof.
  intros Hb Hci H. destruct (long_records _ _ _ _ _ _ _ _ _ _ _ _ _ _ _ Hb Hci H) as [H1 H2].
  apply dispatch_exact in H; [|assumption].
  inversion H; subst; try (exfalso; lia). cbn [user_data_is_encrypted user_data_records] in *.
  destruct (N.eqb_spec (c1 mod 32) 0) as [E|E].
  - destruct (H2 E) as (h' & _ & R). destruct (long_is_encrypted h); [discriminate R|reflexivity].
  - specialize (H1 E). destruct (long_is_encrypted h); [reflexivity|discriminate H1].
Qed.

Lemma only_long_reports data u b : bytes_ok data -> user_data_try_from data = Ok u ->
  user_data_is_encrypted u = Some b -> exists rest, data = 0x72 :: rest \/ data = 0x76 :: rest.
Proof.
  intros Hb H E. apply dispatch_exact in H; [|assumption].
  inversion H; subst; try discriminate E.
  - match goal with K : _ \/ _ |- _ => destruct K as [-> | ->] end; eexists; [left|right]; reflexivity.
  - match goal with K : with_ell _ _ _ |- _ => destruct K; discriminate E end.
Qed.

Lemma ell_i_transparent cc acc rest h block ell :
  user_data_try_from rest = Ok (VariableShort ell h block) ->
  user_data_try_from ([0x8C; cc; acc] ++ rest) = Ok (VariableShort (Some (ell_i cc acc)) h block).
Proof. intros H. cbn [app]. rewrite try_from_cons, H. reflexivity. Qed.

Lemma ell_i_transparent_none cc acc rest block ell :
  user_data_try_from rest = Ok (VariableNone ell block) ->
  user_data_try_from ([0x8C; cc; acc] ++ rest) = Ok (VariableNone (Some (ell_i cc acc)) block).
Proof. intros H. cbn [app]. rewrite try_from_cons, H. reflexivity. Qed.

Lemma ell_i_others cc acc rest :
  (forall ell h block, user_data_try_from rest <> Ok (VariableShort ell h block)) ->
  (forall ell block, user_data_try_from rest <> Ok (VariableNone ell block)) ->
  bytes_ok rest ->
  user_data_try_from ([0x8C; cc; acc] ++ rest) = Err MissingControlInformation.
Proof.
  intros H1 H2 Hb. cbn [app]. rewrite try_from_cons.
  change (control_information_from 0x8C) with (@Ok application_layer_error _ CIExtendedLinkLayerI). cbn [bind].
  pose proof (dispatch_no_panic rest Hb) as P.
  destruct (user_data_try_from rest) as [u|e|p]; [|reflexivity|exfalso; apply P; exists p; reflexivity].
  destruct u; try reflexivity; exfalso; [eapply H1|eapply H2]; reflexivity.
Qed.
