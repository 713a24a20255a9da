(** Facts about the older outputs. *)
From Coq Require Import List NArith ZArith Lia Bool String.
Import ListNotations.
From Verif Require Import Model.Base Model.Text Model.Core Model.Wired Model.Wireless Model.F64 Model.DataInfo Model.ValueInfo Model.Record Model.Decrypt
  Model.UserData Model.Hex Model.MbusData Model.Show Model.Output Model.Render Model.Manufacturers Model.Legacy
  Spec.CoreSpec Spec.TextSpec Spec.CrcSpec Spec.WiredSpec Spec.WirelessSpec Spec.DecryptSpec Spec.RecordSpec Spec.AppSpec
  Spec.AnnotateSpec Spec.MbusSpec Spec.OutputSpec Spec.RenderSpec Spec.LegacySpec
  Proof.BaseFacts Proof.WiredFacts Proof.CoreFacts Proof.WirelessFacts Proof.FormatAProps Proof.AppFacts Proof.HexFacts Proof.MbusFacts Proof.TextFacts Proof.ShowFacts
  Proof.RecordFacts Proof.IterFacts
  Proof.OutputFacts Proof.OutputRecords Proof.OutputFrames Proof.OutputMore Proof.RenderFacts.
Open Scope N_scope.
Open Scope list_scope.

(** ** The registry *)
Lemma codes_nodup : NoDup (map fst registered).
Proof. apply nodup_text. vm_compute. reflexivity. Qed.
Lemma codes_capital : Forall (fun code => three_capitals code) (map fst registered).
Proof.
  apply Forall_forall. intros code H.
  assert (K : forallb (fun t => match t with [a; b; c] => (65 <=? a) && (a <=? 90) && (65 <=? b) && (b <=? 90) && (65 <=? c) && (c <=? 90) | _ => false end) (map fst registered) = true)
    by (vm_compute; reflexivity).
  rewrite forallb_forall in K. specialize (K _ H). destruct code as [|a [|b [|c [|]]]]; try discriminate.
  rewrite !andb_true_iff, !N.leb_le in K. exists a, b, c. unfold capital. split; [reflexivity|]. lia.
Qed.
Lemma find_entry {A} (l : list (text * A)) code : NoDup (map fst l) -> forall info,
  (exists e, find (fun e => text_eqb code (fst e)) l = Some e /\ snd e = info) <-> In (code, info) l.
Proof.
  induction l as [|[k v] l IH]; intros ND info.
  - split; [intros (e & H & _); discriminate|contradiction].
  - cbn [map fst] in ND. inversion ND as [|? ? Hk ND']; subst. cbn [find fst]. destruct (text_eqb code k) eqn:E.
    + apply text_eqb_ok in E. subst k. split.
      * intros (e & H & <-). inversion H; subst e. left. reflexivity.
      * intros [H|H]; [inversion H; subst; eexists; split; reflexivity|]. exfalso. apply Hk. apply (in_map fst) in H. exact H.
    + rewrite (IH ND'). split; [right; assumption|]. intros [H|H]; [|exact H]. inversion H; subst.
      rewrite (proj2 (text_eqb_ok _ _) eq_refl) in E. discriminate.
Qed.
Lemma registry_lookup code info : lookup_manufacturer code = Some info <-> In (code, info) registered.
Proof.
  rewrite <- (find_entry registered code codes_nodup). unfold lookup_manufacturer.
  destruct (find _ registered) as [[k i]|].
  - split; [intros H; inversion H; subst; eexists; split; reflexivity|]. intros (e & H & <-). inversion H; subst. reflexivity.
  - split; [discriminate|]. intros (e & H & _). discriminate.
Qed.
Lemma registry_codes code info : In (code, info) registered ->
  exists m, mc_from_id m = Ok {| mc1 := nth 0 code 0; mc2 := nth 1 code 0; mc3 := nth 2 code 0 |} /\ m < 65536 /\
    show_manufacturer {| mc1 := nth 0 code 0; mc2 := nth 1 code 0; mc3 := nth 2 code 0 |} = code.
Proof.
  intros H. apply (in_map fst) in H. pose proof codes_capital as F. rewrite Forall_forall in F. destruct (F _ H) as (a & b & c & E & Ca & Cb & Cc).
  cbn [fst] in E. subst code. cbn [nth]. exists (flag_id a b c). assert (L : flag_id a b c < 65536) by (unfold flag_id, capital in *; lia).
  split; [|split; [exact L|reflexivity]]. apply (proj2 (mc_from_id_ok _ {| mc1 := a; mc2 := b; mc3 := c |} L)).
  split; [split; [exact Ca|split; [exact Cb|exact Cc]]|reflexivity].
Qed.

(** ** The wide CSV *)
Definition value_header (i : nat) : text := txt "DataPoint" ++ dec (N.of_nat i) ++ txt "_Value".
Definition info_header (i : nat) : text := txt "DataPoint" ++ dec (N.of_nat i) ++ txt "_Info".
Definition wide_fields : list text :=
  [txt "FrameType"; txt "Function"; txt "Address"; txt "Identification Number"; txt "Manufacturer"; txt "Manufacturer Name";
   txt "Access Number"; txt "Status"; txt "Security Mode"; txt "Version"; txt "Device Type"].
Definition point_header (i : nat) (f : text) : text := txt "DataPoint" ++ dec (N.of_nat i) ++ 95 :: f.
Lemma point_injective i j f g : point_header i f = point_header j g -> i = j /\ f = g.
Proof.
  unfold point_header. intros H. apply app_inv_head in H.
  destruct (digits_under _ _ f g (proj1 (dec_digits (N.of_nat i))) (proj1 (dec_digits (N.of_nat j))) H) as [E ->].
  apply dec_injective in E. split; [lia|reflexivity].
Qed.
Lemma point_frame i f : ~ In (point_header i f) wide_fields.
Proof.
  intros H. unfold wide_fields, point_header in H. cbn [In] in H.
  repeat (destruct H as [H|H]; [apply (f_equal (firstn 9)) in H; discriminate H|]). exact H.
Qed.
Lemma point_headers_nodup n : forall k, NoDup (flat_map (fun i => [value_header i; info_header i]) (seq k n)).
Proof.
  assert (G : forall n k x, In x (flat_map (fun i => [value_header i; info_header i]) (seq k n)) -> exists i f, (k <= i)%nat /\ x = point_header i f).
  { clear. intros n k x H. apply in_flat_map in H. destruct H as (i & Hi & Hx). apply in_seq in Hi.
    destruct Hx as [<-|[<-|[]]]; [exists i, (txt "Value")|exists i, (txt "Info")]; (split; [lia|reflexivity]). }
  induction n as [|n IH]; intros k; [constructor|]. cbn [seq flat_map app].
  constructor; [|constructor; [|apply IH]].
  - intros [H|H].
    + apply (point_injective k k (txt "Info") (txt "Value")) in H. destruct H as [_ H]. discriminate H.
    + apply G in H. destruct H as (i & f & Hi & H). apply (point_injective k i (txt "Value") f) in H. lia.
  - intros H. apply G in H. destruct H as (i & f & Hi & H). apply (point_injective k i (txt "Info") f) in H. lia.
Qed.
Lemma wide_fields_nodup : NoDup wide_fields.
Proof. apply nodup_text. vm_compute. reflexivity. Qed.

Lemma point_columns rs : forall k x c,
  column (flat_map (fun i => [value_header i; info_header i]) (seq k (length rs))) (flat_map (fun r => [rs_display r; rs_data_information r]) rs) x c <->
  exists i r, nth_error rs i = Some r /\ (x = value_header (k + i) /\ c = rs_display r \/ x = info_header (k + i) /\ c = rs_data_information r).
Proof.
  induction rs as [|r rs IH]; intros k x c.
  - split; [intros ([|] & H & _); discriminate|intros ([|] & r & H & _); discriminate].
  - cbn [length seq flat_map app]. rewrite !column_cons, IH. split.
    + intros [[<- <-]|[[<- <-]|(i & r0 & H & E)]].
      * exists 0%nat, r. rewrite Nat.add_0_r. auto.
      * exists 0%nat, r. rewrite Nat.add_0_r. auto.
      * exists (S i), r0. split; [exact H|]. replace (k + S i)%nat with (S k + i)%nat by lia. exact E.
    + intros ([|i] & r0 & H & E); cbn [nth_error] in H.
      * inversion H; subst r0. rewrite Nat.add_0_r in E. destruct E as [[-> ->]|[-> ->]]; auto.
      * right. right. exists i, r0. split; [exact H|]. replace (S k + i)%nat with (k + S i)%nat by lia. exact E.
Qed.

Lemma given_or o : or_empty o = given o [].
Proof. destruct o; reflexivity. Qed.
Lemma wide_csv env display input key o : parse_frame_output env display input key = Ok (Some o) ->
  exists headers row, parse_to_csv env display input key = Ok [headers; row] /\
    length headers = length row /\ NoDup headers /\
    forall name cell, column headers row name cell <-> wide_column (po_summary o) name cell.
Proof.
  intros H. set (s := po_summary o). assert (Es : po_summary o = s) by reflexivity. clearbody s. unfold parse_to_csv. rewrite H. cbn [bind]. rewrite Es. cbn [wide_csv_rows]. do 2 eexists. split; [reflexivity|].
  fold wide_fields. change (fun i => [txt "DataPoint" ++ dec (N.of_nat i) ++ txt "_Value"; txt "DataPoint" ++ dec (N.of_nat i) ++ txt "_Info"])
    with (fun i => [value_header i; info_header i]).
  split; [|split].
  - rewrite !app_length. cbn [wide_fields length]. f_equal. generalize 1%nat.
    induction (fs_records s) as [|r l IH]; intros k; [reflexivity|]. cbn [length seq flat_map app]. rewrite (IH (S k)). reflexivity.
  - apply nodup_app; [exact wide_fields_nodup|apply point_headers_nodup|].
    intros x H1 H2. apply in_flat_map in H2. destruct H2 as (i & _ & [<-|[<-|[]]]).
    + exact (point_frame i (txt "Value") H1).
    + exact (point_frame i (txt "Info") H1).
  - intros x c. rewrite column_app by reflexivity. rewrite point_columns. unfold wide_fields. rewrite !column_cons, !given_or.
    assert (Hn := column_nil x c). split.
    + intros [K|(i & r & Hi & [[-> ->]|[-> ->]])].
      * repeat (destruct K as [[<- <-]|K]); [..|contradiction];
        try (destruct (fs_manufacturer s) as [m|] eqn:Em; [|apply WcNoManufacturer; [exact Em|cbn; tauto]]);
        try (destruct (ms_info m) as [[[n w] ds]|] eqn:Ei); try (econstructor; eassumption).
        all: try (destruct (fs_access_number s) eqn:Ea; [pose proof (WcAccess s) as Z|pose proof (WcAccess s) as Z]; rewrite Ea in Z; exact Z).
        all: try (destruct (fs_version s) eqn:Ea; [pose proof (WcVersion s) as Z|pose proof (WcVersion s) as Z]; rewrite Ea in Z; exact Z).
        all: constructor.
      * exact (WcValue s i r Hi).
      * exact (WcInfo s i r Hi).
    + intros K. destruct K as [| | | |m Hm|m n w ds Hm Hi|m Hm Hi|name Hm Hin| | | | | |i r Hi|i r Hi];
        try rewrite Hm; try rewrite Hi; try tauto.
      * left. destruct Hin as [<-|[<-|[]]]; tauto.
      * left. destruct (fs_access_number s); cbn [option_map given]; tauto.
      * left. destruct (fs_version s); cbn [option_map given]; tauto.
      * right. exists i, r. split; [exact Hi|]. left. auto.
      * right. exists i, r. split; [exact Hi|]. right. auto.
Qed.
