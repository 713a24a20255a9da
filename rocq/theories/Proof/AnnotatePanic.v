(** When annotating a frame panics. *)
From Coq Require Import List NArith Lia Bool.
Import ListNotations.
From Verif Require Import Model.Base Model.Core Model.Wired Model.Wireless Model.DataInfo Model.Record Model.UserData Model.MbusData Model.Annotate
  Spec.WiredSpec Spec.WirelessSpec Spec.RecordSpec Spec.AppSpec Spec.AnnotateSpec Spec.MbusSpec Spec.OutputSpec
  Proof.BaseFacts Proof.WiredFacts Proof.WiredProps Proof.WirelessFacts Proof.FormatAFacts Proof.RecordFacts Proof.PanicFacts
  Proof.AnnotateFacts Proof.AnnotateApp Proof.AnnotateFormatA Proof.AnnotateProps Proof.MbusFacts Proof.OutputFrames.
Open Scope N_scope.

(** somewhere in [data] there is a record whose reading panics *)
Definition suspect (cf : config) (data : list N) : Prop :=
  exists pre suf post, data = pre ++ suf ++ post /\ panic_cause cf suf.
Lemma suspect_part cf a b c : suspect cf b -> suspect cf (a ++ b ++ c).
Proof. intros (pre & suf & post & -> & H). exists (a ++ pre), suf, (post ++ c). split; [now rewrite <- !app_assoc|exact H]. Qed.
Lemma suspect_tail cf a b : suspect cf b -> suspect cf (a ++ b).
Proof. intros H. rewrite <- (app_nil_r b). now apply suspect_part. Qed.
Lemma suspect_range cf (data part : list N) a b : get_range data a b = Some part -> suspect cf part -> suspect cf data.
Proof.
  intros H S. destruct (get_range_split _ _ _ _ H) as (x & y & -> & _). now apply suspect_part.
Qed.

Lemma loop_panic cf data base : bytes_ok data -> forall fuel offset k, is_panic (annotate_records_loop cf fuel base data offset k) -> suspect cf data.
Proof.
  intros B. induction fuel as [|fuel IH]; intros offset k H; [destruct H; discriminate|].
  cbn [annotate_records_loop] in H. destruct (offset <? len data) eqn:E; cbn [negb] in H; [|destruct (is_panic_Ok _ H)].
  apply N.ltb_lt in E. destruct (get data offset) as [dif|]; [|destruct (is_panic_Ok _ H)].
  destruct (_ =? 0x0F).
  - destruct (dif =? 0x2F); [|destruct (_ || _); [destruct (is_panic_Ok _ H)|]];
      (apply is_panic_bind in H; destruct H as [H|(? & _ & H)]; [eauto|destruct (is_panic_Ok _ H)]).
  - apply is_panic_bind in H as [H|(rem & Er & H)].
    { exfalso. unfold index_range in H. destruct (get_range data offset (len data)) eqn:Eg; [destruct (is_panic_Ok _ H)|].
      unfold get_range in Eg. rewrite N.leb_refl in Eg. destruct (N.leb_spec offset (len data)); cbn in Eg; [discriminate|lia]. }
    unfold index_range in Er. destruct (get_range data offset (len data)) as [part|] eqn:Eg; [|discriminate]. apply Ok_inj in Er. subst part.
    pose proof (suspect_range cf _ _ _ _ Eg) as S.
    destruct (data_record_parse cf rem None) as [r|e|p] eqn:Ed.
    + destruct (record_segments _ _ _ _) as [[segs adv] go]. destruct go; [|destruct (is_panic_Ok _ H)].
      apply is_panic_bind in H; destruct H as [H|(? & _ & H)]; [eauto|destruct (is_panic_Ok _ H)].
    + destruct (is_panic_Ok _ H).
    + apply S. exists [], rem, []. split; [now rewrite app_nil_r|].
      apply record_panic with None; [|rewrite Ed; now exists p].
      destruct (get_range_split _ _ _ _ Eg) as (x & y & Ex & _). rewrite Ex in B. apply bytes_ok_app in B as [_ B]. apply bytes_ok_app in B; tauto.
Qed.
Lemma records_panic cf base data : bytes_ok data -> is_panic (annotate_data_records cf base data) -> suspect cf data.
Proof. intros B. unfold annotate_data_records. now apply loop_panic. Qed.

Lemma index_range_tail {E} (l : list N) a (P : Prop) : a <= len l -> is_panic (@index_range E N l a (len l)) -> P.
Proof.
  intros H K. exfalso. unfold index_range in K. destruct (get_range l a (len l)) eqn:Eg; [destruct (is_panic_Ok _ K)|].
  unfold get_range in Eg. rewrite N.leb_refl in Eg. destruct (N.leb_spec a (len l)); cbn in Eg; [discriminate|lia].
Qed.
Lemma index_safe {E} (l : list N) a (P : Prop) : a < len l -> is_panic (@index E N l a) -> P.
Proof.
  intros H K. exfalso. unfold index in K. destruct (get l a) eqn:Eg; [destruct (is_panic_Ok _ K)|]. apply get_none in Eg. lia.
Qed.
Lemma index_range_is {E} (l m : list N) a b : @index_range E N l a b = Ok m -> get_range l a b = Some m.
Proof. unfold index_range. destruct (get_range l a b); [|discriminate]. intros H. apply Ok_inj in H. now subst. Qed.
Lemma long_enc_safe {E} l (P : Prop) : is_panic (@is_long_tpl_encrypted E l) -> P.
Proof.
  unfold is_long_tpl_encrypted. destruct (N.ltb_spec (len l) 13); intros H0; [destruct (is_panic_Ok _ H0)|].
  apply is_panic_bind in H0 as [H0|(? & _ & H0)]; [eapply index_safe; [|exact H0]; lia|].
  apply is_panic_bind in H0 as [H0|(? & _ & H0)]; [eapply index_safe; [|exact H0]; lia|destruct (is_panic_Ok _ H0)].
Qed.
Lemma short_enc_safe {E} l k (P : Prop) : is_panic (@is_short_tpl_encrypted E l k) -> P.
Proof.
  unfold is_short_tpl_encrypted. destruct (N.ltb_spec (len l) (k + 4)); intros H0; [destruct (is_panic_Ok _ H0)|].
  apply is_panic_bind in H0 as [H0|(? & _ & H0)]; [eapply index_safe; [|exact H0]; lia|].
  apply is_panic_bind in H0 as [H0|(? & _ & H0)]; [eapply index_safe; [|exact H0]; lia|destruct (is_panic_Ok _ H0)].
Qed.
Lemma payload_panic cf enc start data : bytes_ok data -> is_panic (payload_segments cf enc start data) -> suspect cf data.
Proof. intros B. unfold payload_segments. destruct enc; intros H; [destruct (is_panic_Ok _ H)|now apply records_panic in H]. Qed.
Lemma range_bytes (data part : list N) a b : get_range data a b = Some part -> bytes_ok data -> bytes_ok part.
Proof. intros H B. destruct (get_range_split _ _ _ _ H) as (x & y & -> & _). apply bytes_ok_app in B as [_ B]. apply bytes_ok_app in B; tauto. Qed.

Lemma app_panic cf n : forall data base, (length data <= n)%nat -> bytes_ok data ->
  is_panic (annotate_application_layer cf base data) -> suspect cf data.
Proof.
  induction n as [|n IH]; intros data base Hn B H.
  - destruct data; [destruct H; discriminate|cbn in Hn; lia].
  - destruct data as [|ci tail]; [destruct H; discriminate|]. cbn [annotate_application_layer] in H.
    assert (M : forall part k, get_range (ci :: tail) k (len (ci :: tail)) = Some part -> bytes_ok part /\ (suspect cf part -> suspect cf (ci :: tail))).
    { intros part k Hg. split; [eapply range_bytes; eassumption|eapply suspect_range; eassumption]. }
    assert (R : forall part b k, get_range (ci :: tail) k (len (ci :: tail)) = Some part ->
       is_panic (match part with [] => Ok [] | _ => annotate_data_records cf b part end) -> suspect cf (ci :: tail)).
    { intros part b k Hg Hp. destruct (M _ _ Hg) as [Bp Sp]. apply Sp. destruct part; [destruct (is_panic_Ok _ Hp)|]. now apply records_panic in Hp. }
    set (app := ci :: tail) in *.
    destruct (_ || _).
    { destruct (N.ltb_spec (len app) 13); [destruct (is_panic_Ok _ H)|].
      apply is_panic_bind in H as [H|(rd & Er & H)]; [eapply index_range_tail; [|exact H]; lia|]. apply index_range_is in Er.
      apply is_panic_bind in H as [H|(enc & _ & H)]; [eapply long_enc_safe; exact H|].
      apply is_panic_bind in H as [H|(? & _ & H)]; [|destruct (is_panic_Ok _ H)].
      destruct (M _ _ Er) as [Bp Sp]. apply Sp. now apply payload_panic in H. }
    destruct (_ || _).
    { destruct (N.ltb_spec (len app) (if ci =? 160 then 6 else 5)); [destruct (is_panic_Ok _ H)|].
      apply is_panic_bind in H as [H|(rd & Er & H)]; [eapply index_range_tail; [|exact H]; lia|]. apply index_range_is in Er.
      apply is_panic_bind in H as [H|(enc & _ & H)]; [eapply short_enc_safe; exact H|].
      apply is_panic_bind in H as [H|(? & _ & H)]; [|destruct (is_panic_Ok _ H)].
      destruct (M _ _ Er) as [Bp Sp]. apply Sp. now apply payload_panic in H. }
    destruct (_ =? 0x78).
    { apply is_panic_bind in H as [H|(? & _ & H)]; [|destruct (is_panic_Ok _ H)].
      destruct tail as [|t0 tail]; [destruct (is_panic_Ok _ H)|]. apply records_panic in H; [|apply bytes_ok_cons in B; tauto].
      exact (suspect_tail cf [ci] _ H). }
    destruct (_ =? 0x8C).
    { destruct tail as [|b [|c inner]]; [destruct (is_panic_Ok _ H)..|].
      apply is_panic_bind in H as [H|(? & _ & H)]; [|destruct (is_panic_Ok _ H)].
      destruct inner as [|t0 inner]; [destruct (is_panic_Ok _ H)|].
      apply IH in H; [exact (suspect_tail cf [ci; b; c] _ H)|unfold app in Hn; cbn in Hn |- *; lia|].
      unfold app in B. apply (bytes_ok_app [ci; b; c]) in B; tauto. }
    destruct (_ =? 0x8D).
    { destruct (N.ltb_spec (len app) 9); [destruct (is_panic_Ok _ H)|].
      apply is_panic_bind in H as [H|(rd & Er & H)]; [eapply index_range_tail; [|exact H]; lia|]. apply index_range_is in Er.
      apply is_panic_bind in H as [H|(? & _ & H)]; [eapply R; eassumption|destruct (is_panic_Ok _ H)]. }
    destruct (_ =? 0x8E).
    { destruct (N.ltb_spec (len app) 17); [destruct (is_panic_Ok _ H)|].
      apply is_panic_bind in H as [H|(rd & Er & H)]; [eapply index_range_tail; [|exact H]; lia|]. apply index_range_is in Er.
      apply is_panic_bind in H as [H|(? & _ & H)]; [eapply R; eassumption|destruct (is_panic_Ok _ H)]. }
    destruct (is_panic_Ok _ H).
Qed.
Lemma application_panic cf base data : bytes_ok data -> is_panic (annotate_application_layer cf base data) -> suspect cf data.
Proof. now apply (app_panic cf (length data)). Qed.

Lemma inner_panic cf data : bytes_ok data -> is_panic (annotate_wireless_inner cf data) -> suspect cf data.
Proof.
  intros B H. unfold annotate_wireless_inner in H.
  apply is_panic_bind in H as [H|(fr & _ & H)].
  { exfalso. rewrite is_panic_map_err in H. revert H. apply wireless_panic. }
  apply is_panic_bind in H as [H|(cs & Ec & H)].
  { exfalso. unfold trailing_frame_crc_start in H. destruct (N.ltb_spec (len data) 2); [destruct (is_panic_Ok _ H)|].
    cbv zeta in H. destruct (N.ltb_spec (len data - 2) 10); [destruct (is_panic_Ok _ H)|].
    apply is_panic_bind in H as [H|(? & _ & H)]; [eapply index_safe; [|exact H]; lia|].
    apply is_panic_bind in H as [H|(? & _ & H)]; [eapply index_safe; [|exact H]; lia|].
    apply is_panic_bind in H as [H|(? & _ & H)]; [|destruct (is_panic_Ok _ H)].
    unfold index_range in H. destruct (get_range _ _ _) eqn:Eg; [destruct (is_panic_Ok _ H)|].
    unfold get_range in Eg. destruct (N.leb_spec 0 (len data - 2)); [|lia]. destruct (N.leb_spec (len data - 2) (len data)); [discriminate|lia]. }
  apply is_panic_bind in H as [H|(? & _ & H)]; [|destruct (is_panic_Ok _ H)].
  assert (Hle : match cs with Some s => s | None => len data end <= len data).
  { destruct cs as [s|]; [|lia]. apply trailing_value in Ec. lia. }
  set (e := match cs with Some s => s | None => len data end) in *.
  destruct (N.ltb_spec 10 e); [|destruct (is_panic_Ok _ H)].
  apply is_panic_bind in H as [H|(ad & Ea & H)].
  { exfalso. unfold index_range in H. destruct (get_range _ _ _) eqn:Eg; [destruct (is_panic_Ok _ H)|].
    unfold get_range in Eg. destruct (N.leb_spec 10 e); [|lia]. destruct (N.leb_spec e (len data)); [discriminate|lia]. }
  apply index_range_is in Ea. eapply suspect_range; [exact Ea|]. eapply application_panic; [|exact H]. eapply range_bytes; eassumption.
Qed.

Lemma map_loop_safe data : bytes_ok data -> forall fuel pos, ~ is_panic (offset_map_loop fuel data pos).
Proof.
  intros B. induction fuel as [|fuel IH]; intros pos H; [destruct H; discriminate|]. cbn [offset_map_loop] in H.
  destruct (negb _); [destruct (is_panic_Ok _ H)|]. cbv zeta in H. destruct (_ <? 3); [destruct (is_panic_Ok _ H)|].
  apply is_panic_bind in H as [H|(f & _ & H)].
  { unfold no_fuel in H. rewrite is_panic_map_err in H. edestruct (find_block_spec data pos) as [E|(? & E & _)]; [exact B| |]; rewrite E in H; destruct (is_panic_Ok _ H). }
  destruct f; [|destruct (is_panic_Ok _ H)]. apply is_panic_bind in H as [H|(? & _ & H)]; [eapply IH; exact H|destruct (is_panic_Ok _ H)].
Qed.
Lemma crc_loop_safe data : bytes_ok data -> forall fuel pos, ~ is_panic (crc_positions_loop fuel data pos).
Proof.
  intros B. induction fuel as [|fuel IH]; intros pos H; [destruct H; discriminate|]. cbn [crc_positions_loop] in H.
  destruct (negb _); [destruct (is_panic_Ok _ H)|]. cbv zeta in H. destruct (_ <? 3); [destruct (is_panic_Ok _ H)|].
  apply is_panic_bind in H as [H|(f & _ & H)].
  { unfold no_fuel in H. rewrite is_panic_map_err in H. edestruct (find_block_spec data pos) as [E|(? & E & _)]; [exact B| |]; rewrite E in H; destruct (is_panic_Ok _ H). }
  destruct f; [|destruct (is_panic_Ok _ H)]. apply is_panic_bind in H as [H|(? & _ & H)]; [eapply IH; exact H|destruct (is_panic_Ok _ H)].
Qed.

Lemma annotate_panic cf data : bytes_ok data -> is_panic (annotate_frame cf data) ->
  (overflow_checks cf = true /\ get data 0 = Some 0x68 /\ 4 <= len data <= 5) \/
  exists w pre suf post, normalized data w /\ w = pre ++ suf ++ post /\ panic_cause cf suf.
Proof.
  intros B H. unfold annotate_frame in H.
  destruct (annotate_wired cf data) as [s|e|p] eqn:Ew; [destruct (is_panic_Ok _ H)| |].
  - right. destruct e as [e|]; [|destruct (is_panic_Err _ H)].
    apply is_panic_bind in H as [H|([st out] & Es & H)].
    { exfalso. unfold no_fuel in H. rewrite is_panic_map_err in H.
      destruct (strip_cases data (repeat 0 512) B) as [(E & _)|(? & ? & ? & ? & ? & _ & _ & _ & _ & _ & E)]; rewrite E in H; destruct (is_panic_Ok _ H). }
    unfold no_fuel in Es. apply map_err_ok in Es. pose proof (strip_normalized _ _ _ _ B Es) as Nm.
    assert (P : is_panic (annotate_wireless_inner cf data) -> exists w pre suf post, normalized data w /\ w = pre ++ suf ++ post /\ panic_cause cf suf).
    { intros Hp. apply inner_panic in Hp; [|exact B]. destruct Hp as (pre & suf & post & E & Hc). exists data, pre, suf, post. split; [constructor|auto]. }
    assert (P' : is_panic (match annotate_wireless_inner cf data with
        | Panic p => Panic p | Ok segments => Ok segments | Err AFuel => Err AFuel
        | Err (AError _) => Err (AError (MFrameError InvalidStartByte)) end) -> exists w pre suf post, normalized data w /\ w = pre ++ suf ++ post /\ panic_cause cf suf).
    { intros Hp. apply P. destruct (annotate_wireless_inner cf data) as [?|[?|]|q]; [destruct (is_panic_Ok _ Hp)|destruct (is_panic_Err _ Hp)..|now exists q]. }
    destruct st as [w|]; [|auto].
    destruct (annotate_wireless_format_a cf data w) as [?|[?|]|q] eqn:Ef; [destruct (is_panic_Ok _ H)|auto|destruct (is_panic_Err _ H)|].
    assert (K : is_panic (annotate_wireless_format_a cf data w)) by (rewrite Ef; now exists q). unfold annotate_wireless_format_a in K.
    apply is_panic_bind in K as [K|(? & _ & K)].
    { exfalso. unfold build_format_a_offset_map in K. destruct (_ <? 12); [destruct (is_panic_Ok _ K)|].
      apply is_panic_bind in K as [K|(? & _ & K)]; [now apply map_loop_safe in K|destruct (is_panic_Ok _ K)]. }
    apply is_panic_bind in K as [K|(? & _ & K)].
    { apply inner_panic in K; [|eapply normalized_bytes; eassumption]. destruct K as (pre & suf & post & E & Hc). exists w, pre, suf, post. auto. }
    apply is_panic_bind in K as [K|(? & _ & K)]; [|destruct (is_panic_Ok _ K)].
    exfalso. unfold crc_positions in K. apply is_panic_bind in K as [K|(? & _ & K)]; [now apply crc_loop_safe in K|destruct (is_panic_Ok _ K)].
  - assert (K : is_panic (annotate_wired cf data)) by (rewrite Ew; now exists p). unfold annotate_wired in K.
    apply is_panic_bind in K as [K|(fr & Ef & K)].
    { left. rewrite is_panic_map_err in K. now apply wired_panic_iff. }
    right. apply map_err_ok, wired_ok_iff in Ef.
    assert (L : forall f a pl b, wired_meaning data (LongFrame f a pl) \/ b = true -> is_panic (annotate_long_or_control cf data pl b) ->
      exists w pre suf post, normalized data w /\ w = pre ++ suf ++ post /\ panic_cause cf suf).
    { intros f a pl b W Hp. unfold annotate_long_or_control in Hp. cbv zeta in Hp.
      apply is_panic_bind in Hp as [Hp|(? & _ & Hp)]; [|destruct (is_panic_Ok _ Hp)].
      destruct pl as [|p0 pl]; [destruct (is_panic_Ok _ Hp)|]. destruct b; [destruct (is_panic_Ok _ Hp)|]. destruct W as [W|W]; [|discriminate W].
      apply application_panic in Hp; [|eapply wired_payload_ok; eassumption].
      destruct (wired_part _ _ _ _ W) as (pre' & post' & Ew').
      apply (suspect_part cf pre' _ post') in Hp. rewrite <- Ew' in Hp. destruct Hp as (pre & suf & post & E & Hc). exists data, pre, suf, post. split; [constructor|auto]. }
    destruct fr; [destruct (is_panic_Ok _ K)..|eapply L; [left; exact Ef|exact K]|eapply L; [right; reflexivity|exact K]].
    Unshelve. all: exact (RspUd false false) || exact (Primary 0).
Qed.

Lemma annotate_panic_example : is_panic (annotate_frame debug (long_frame ([0x78] ++ [0x01; 0x7D; 5]))) /\ panic_cause debug [0x01; 0x7D; 5].
Proof.
  split; [eexists; vm_compute; reflexivity|]. apply (pc_vif debug 1 [1] [5]).
  split; [discriminate|]. exists []. split; [reflexivity|]. left. split; [lia|reflexivity].
Qed.
