(** Data fields of variable length: texts, wide integers, reserved lengths. *)
From Coq Require Import Reals Psatz.
From Flocq Require Import Core IEEE754.BinarySingleNaN IEEE754.Bits.
From Verif Require Import Proof.BaseFacts Proof.CoreFacts Model.Core Model.F64 Model.DataInfo Model.ValueInfo
  Model.Record Spec.RecordSpec Spec.FloatSpec Proof.RecordFacts Proof.HeaderFacts Proof.HeaderProps
  Proof.DateFacts Proof.FloatFacts Proof.NumberFacts Proof.NumberProps.

Lemma variable_text_record cf head n rest hdr h dif vif :
  header_of cf head (n :: rest) h dif vif -> ~ date_vif vif -> dif mod 16 = 13 -> n <= 0xBF ->
  reads (data_record_parse cf (head ++ n :: rest) hdr) h head (n :: rest) (1 + n) (fun body x => x = Text (tl body)).
Proof.
  intros Hh Hd H13 Hn. rewrite (variable_record _ _ _ _ _ _ _ _ Hh Hd H13).
  unfold parse_variable_length. change (get (n :: rest) 0) with (Some n). cbn [ok_or bind].
  destruct (N.leb_spec n 0xBF); [|lia].
  destruct (N.lt_ge_cases (len rest) n) as [Hl|Hl].
  - left; split; [rewrite len_cons; lia|]. rewrite get_range_1 by assumption. reflexivity.
  - destruct (take_w rest n Hl) as (body & rest' & -> & Hlb). right.
    rewrite get_range_1_ok by assumption. cbn [ok_or bind d_size]. rewrite firstn_S_w by assumption.
    exists (n :: body), rest'. do 2 eexists. split; [reflexivity|]. rewrite len_cons. repeat split; lia.
Qed.

(** wider than eight bytes: the low eight are read *)
Lemma wide_number cf body n : bytes_ok body -> len body = n -> 8 < n ->
  integer_to_value cf body n =
  Ok {| d_value := Some (LossyNumber (f64_of_Z (twos_complement (firstn 8 body)))); d_size := n |}.
Proof.
  intros Hb Hl Hn.
  assert (Hb8 : bytes_ok (firstn 8 body)). { unfold bytes_ok in *. apply Forall_forall. intros x Hx.
    rewrite Forall_forall in Hb. apply Hb. rewrite <- (firstn_skipn 8 body). apply in_or_app. left; exact Hx. }
  assert (Hl8 : len (firstn 8 body) = 8). { unfold len in *. rewrite firstn_length. lia. }
  pose proof (integer_number cf (firstn 8 body) [] 8 Hb8 Hl8 ltac:(lia)) as E. rewrite app_nil_r in E.
  unfold integer_to_value in E. destruct (N.ltb_spec (len (firstn 8 body)) 8); [lia|].
  unfold integer_to_value. destruct (N.ltb_spec (len body) n); [lia|].
  unfold integer_to_value_internal in *. change (8 <? 8) with false in E. destruct (N.ltb_spec 8 n); [|lia].
  change (N.to_nat 8) with 8%nat in *. rewrite firstn_firstn in E. change (Init.Nat.min (N.to_nat 8) 8) with 8%nat in E.
  destruct (integer_loop (firstn 8 body) 0 0) as [bits shift]. change (8 <? 8) with false in E. destruct (N.ltb_spec n 8); [lia|].
  cbn [andb] in *. destruct (1 <=? shift); [|destruct (overflow_checks cf)]; cbn [bind] in *; try discriminate E;
    apply Ok_inj in E; injection E as E; rewrite E; reflexivity.
Qed.

Lemma wide_integer_record cf head n rest hdr h dif vif w :
  header_of cf head (n :: rest) h dif vif -> ~ date_vif vif -> dif mod 16 = 13 -> 0xE9 <= n -> lvar_width n = Some w ->
  reads (data_record_parse cf (head ++ n :: rest) hdr) h head (n :: rest) (1 + w)
    (fun body x => exists f, x = LossyNumber f /\ is_f64 f (nearest (IZR (twos_complement (firstn 8 (tl body)))))).
Proof.
  intros Hh Hd H13 Hn Hw. rewrite (variable_record _ _ _ _ _ _ _ _ Hh Hd H13).
  assert (P : 8 < w /\ parse_variable_length cf (n :: rest) (lsb_first hdr) =
     (bytes <- ok_or (get_range (n :: rest) 1 (1 + w)) RInsufficientData ;;
      d <- integer_to_value cf bytes w ;; Ok (plus_one d))).
  { unfold parse_variable_length. change (get (n :: rest) 0) with (Some n). cbn [ok_or bind]. unfold lvar_width in Hw. revert Hw.
    destruct (N.leb_spec n 0xBF); [lia|]. destruct (N.leb_spec n 0xC9); [lia|]. destruct (N.leb_spec n 0xD9); [lia|].
    rewrite !andb_false_r. destruct (N.leb_spec 0xE0 n); [|lia]. cbn [andb].
    destruct (N.leb_spec n 0xEF); cbn [andb]; [intros K; injection K as <-; split; [lia|reflexivity]|].
    destruct (N.leb_spec 0xF0 n); [|lia]. cbn [andb].
    destruct (N.leb_spec n 0xF4); cbn [andb]; [intros K; injection K as <-; split; [lia|reflexivity]|].
    destruct (N.eqb_spec n 0xF5); [intros K; injection K as <-; split; [lia|reflexivity]|].
    destruct (N.eqb_spec n 0xF6); [intros K; injection K as <-; split; [lia|reflexivity]|]. discriminate. }
  destruct P as [W8 P]. rewrite P.
  destruct (N.lt_ge_cases (len rest) w) as [Hl|Hl].
  - left; split; [rewrite len_cons; lia|]. rewrite get_range_1 by assumption. reflexivity.
  - destruct (take_w rest w Hl) as (body & rest' & -> & Hlb). right.
    destruct Hh as (Hbo & _). apply bytes_ok_app in Hbo; destruct Hbo as [_ Hbo].
    apply bytes_ok_cons in Hbo; destruct Hbo as [_ Hbo]. apply bytes_ok_app in Hbo; destruct Hbo as [Hbo _].
    rewrite get_range_1_ok by assumption. cbn [ok_or bind]. rewrite (wide_number cf body w Hbo Hlb W8). cbn [bind plus_one d_size].
    rewrite firstn_S_w by assumption.
    exists (n :: body), rest'. do 2 eexists. split; [reflexivity|]. rewrite len_cons. split; [lia|].
    split; [reflexivity|]. split; [reflexivity|]. split; [reflexivity|]. split; [reflexivity|].
    cbn [tl]. eexists; split; [reflexivity|]. apply twos_number.
    + unfold bytes_ok in *. apply Forall_forall. intros x Hx.
      rewrite Forall_forall in Hbo. apply Hbo. rewrite <- (firstn_skipn 8 body). apply in_or_app. left; exact Hx.
    + unfold len in *. rewrite firstn_length. lia.
Qed.

Lemma reserved_record cf head n rest hdr h dif vif :
  header_of cf head (n :: rest) h dif vif -> ~ date_vif vif -> dif mod 16 = 13 -> lvar_width n = None ->
  data_record_parse cf (head ++ n :: rest) hdr = Err (DataInformationError DUnimplemented).
Proof.
  intros Hh Hd H13 Hn. rewrite (variable_record _ _ _ _ _ _ _ _ Hh Hd H13).
  unfold parse_variable_length. change (get (n :: rest) 0) with (Some n). cbn [ok_or bind]. unfold lvar_width in Hn. revert Hn.
  destruct (n <=? 0xBF); [discriminate|]. destruct ((0xC0 <=? n) && _)%bool; [discriminate|]. destruct ((0xD0 <=? n) && _)%bool; [discriminate|].
  destruct ((0xE0 <=? n) && _)%bool; [discriminate|]. destruct ((0xF0 <=? n) && _)%bool; [discriminate|].
  destruct (n =? 0xF5); [discriminate|]. destruct (n =? 0xF6); [discriminate|]. reflexivity.
Qed.
Lemma no_length_record cf head hdr h dif vif :
  header_of cf head [] h dif vif -> ~ date_vif vif -> dif mod 16 = 13 ->
  data_record_parse cf (head ++ []) hdr = Err RInsufficientData.
Proof.
  intros Hh Hd H13. rewrite (record_of_coding _ _ _ _ _ _ _ Hh Hd).
  unfold data_field_coding_of. cbv zeta. rewrite land_15, H13. reflexivity.
Qed.
(** an integer of no bytes *)
Lemma empty_integer_record cf head rest hdr h dif vif :
  header_of cf head (0xE0 :: rest) h dif vif -> ~ date_vif vif -> dif mod 16 = 13 ->
  (overflow_checks cf = true /\ exists p, data_record_parse cf (head ++ 0xE0 :: rest) hdr = Panic p) \/
  (overflow_checks cf = false /\
   reads (data_record_parse cf (head ++ 0xE0 :: rest) hdr) h head (0xE0 :: rest) 1 (fun _ => is_number 0)).
Proof.
  intros Hh Hd H13. rewrite (variable_record _ _ _ _ _ _ _ _ Hh Hd H13).
  unfold parse_variable_length. change (get (0xE0 :: rest) 0) with (Some 0xE0). cbn [ok_or bind].
  change (0xE0 <=? 0xBF) with false. change (0xE0 <=? 0xC9) with false. change (0xE0 <=? 0xD9) with false. rewrite !andb_false_r.
  change ((0xE0 <=? 0xE0) && (0xE0 <=? 0xEF))%bool with true. change (0xE0 - 0xE0) with 0. cbv iota zeta.
  pose proof (get_range_1_ok 0xE0 [] rest 0 eq_refl) as G. cbn [app] in G. rewrite G. cbn [ok_or bind].
  unfold integer_to_value, integer_to_value_internal. cbn [firstn integer_loop].
  change (len (@nil N) <? 0) with false. change (8 <? 0) with false. change (firstn (N.to_nat 0) []) with (@nil N). cbn [integer_loop].
  change (1 <=? 0) with false. cbv iota. destruct (overflow_checks cf) eqn:Eo; [left|right]; (split; [reflexivity|]).
  - eexists. cbn [bind]. reflexivity.
  - cbn [bind plus_one d_size]. right. exists [0xE0], rest. do 2 eexists. split; [reflexivity|]. split; [reflexivity|].
    split; [reflexivity|]. split; [reflexivity|]. split; [reflexivity|]. split; [reflexivity|].
    eexists; split; [reflexivity|]. apply val_is_f64. apply (f64_of_Z_exact 0); lia.
Qed.
