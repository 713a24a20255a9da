(** The tooltips of Model/AnnotateText.v: their ranges are those of Model/Annotate.v. *)
From Coq Require Import List NArith ZArith Lia Bool String.
Import ListNotations.
From Verif Require Import Model.Base Model.Text Model.Core Model.F64 Model.Wired Model.Wireless Model.DataInfo Model.ValueInfo
  Model.Record Model.MbusData Model.Show Model.Legacy Model.Annotate Model.AnnotateText
  Spec.AnnotateSpec Spec.TooltipSpec.
Open Scope N_scope.
Open Scope list_scope.

Lemma ranges_bind e e' g g' : ranges e = e' -> (forall l, map fst (g l) = g' (map fst l)) ->
  ranges (bind e (fun l => Ok (g l))) = bind e' (fun l => Ok (g' l)).
Proof. intros <- H. destruct e as [l|x|p]; cbn; [now rewrite H|reflexivity|reflexivity]. Qed.
Lemma ranges_step {A} (e : outcome annotate_error A) f g : (forall a, ranges (f a) = g a) -> ranges (bind e f) = bind e g.
Proof. intros H. destruct e; cbn; auto. Qed.
Lemma ranges_if (b : bool) x y x' y' : ranges x = x' -> ranges y = y' -> ranges (if b then x else y) = if b then x' else y'.
Proof. destruct b; auto. Qed.

Lemma record_ranges display r base data offset i :
  let '(l, a, g) := record_told display r base data offset i in
  record_segments r (base + offset) (len data - offset) i = (map fst l, a, g).
Proof.
  unfold record_told, record_segments. cbv zeta.
  destruct (rh_vib (drh_raw (dr_header r))) as [v|].
  - f_equal. f_equal. rewrite !map_app.
    set (o := 1 + (dib_get_size (rh_dib (drh_raw (dr_header r))) - 1)).
    assert (E : forall (b : bool) (s : segment) (t : text), (if b then [s] else []) = map fst (if b then [(s, t)] else [])).
    { intros [] s t; reflexivity. }
    rewrite <- !E. destruct (vib_plaintext v); reflexivity.
  - f_equal. f_equal. rewrite !map_app.
    assert (E : forall (b : bool) (s : segment) (t : text), (if b then [s] else []) = map fst (if b then [(s, t)] else [])).
    { intros [] s t; reflexivity. }
    rewrite <- !E. reflexivity.
Qed.

Lemma loop_ranges cf display fuel : forall base data offset i,
  ranges (records_told_loop cf display fuel base data offset i) = annotate_records_loop cf fuel base data offset i.
Proof.
  induction fuel as [|fuel IH]; intros base data offset i; [reflexivity|]. cbn [records_told_loop annotate_records_loop].
  apply ranges_if; [reflexivity|]. destruct (get data offset) as [b|]; [|reflexivity].
  apply ranges_if.
  - apply ranges_if; [|apply ranges_if; [reflexivity|]].
    + apply (ranges_bind _ _ _ (fun l => seg (base + offset) (base + offset + 1) KIdleFiller None LRecordField :: l)); [apply IH|reflexivity].
    + apply (ranges_bind _ _ _ (fun l => seg (base + offset) (base + offset + 1) KUnknown None LRecordField :: l)); [apply IH|reflexivity].
  - apply ranges_step. intros rem. destruct (data_record_parse cf rem None) as [r|e|p]; try reflexivity.
    pose proof (record_ranges display r base data offset i) as R.
    destruct (record_told display r base data offset i) as [[l a] g]. rewrite R.
    apply ranges_if; [|reflexivity].
    apply (ranges_bind _ _ _ (fun x => map fst l ++ x)); [apply IH|]. intros x. apply map_app.
Qed.
Lemma records_ranges cf display base data : ranges (records_told cf display base data) = annotate_data_records cf base data.
Proof. apply loop_ranges. Qed.

Lemma payload_ranges cf display e start data : ranges (payload_told cf display e start data) = payload_segments cf e start data.
Proof. unfold payload_told, payload_segments. apply ranges_if; [destruct data; reflexivity|apply records_ranges]. Qed.

Lemma application_ranges_n cf display n : forall p base, (length p <= n)%nat ->
  ranges (application_told cf display base p) = annotate_application_layer cf base p.
Proof.
  induction n as [|n IH]; intros p base L; (destruct p as [|ci tail]; [reflexivity|]); [cbn in L; lia|].
  cbn [application_told annotate_application_layer].
  apply ranges_if; [|apply ranges_if; [|apply ranges_if; [|apply ranges_if; [|apply ranges_if; [|apply ranges_if; [|reflexivity]]]]]].
  - apply ranges_if; [reflexivity|]. apply ranges_step. intros d. apply ranges_step. intros e.
    apply (ranges_bind _ _ _ (fun x => long_tpl_segments base ++ x)); [apply payload_ranges|]. intros l. now rewrite map_app.
  - apply ranges_if; [reflexivity|]. apply ranges_step. intros d. apply ranges_step. intros e.
    set (o := if ci =? 0xA0 then 2 else 1).
    match goal with |- _ = bind _ (fun x => Ok (?a ++ ?b ++ ?c ++ x)) => apply (ranges_bind _ _ _ (fun x => a ++ b ++ c ++ x)) end;
      [apply payload_ranges|]. intros l. rewrite !map_app. f_equal. f_equal. destruct (ci =? 0xA0); reflexivity.
  - match goal with |- _ = bind _ (fun x => Ok (?a :: x)) => apply (ranges_bind _ _ _ (fun x => a :: x)) end; [|reflexivity].
    destruct tail; [reflexivity|apply records_ranges].
  - destruct tail as [|x [|y inner]]; [reflexivity|reflexivity|].
    match goal with |- _ = bind _ (fun x => Ok (?a ++ x)) => apply (ranges_bind _ _ _ (fun x => a ++ x)) end.
    + destruct inner as [|z inner]; [reflexivity|]. apply IH. cbn in L |- *. lia.
    + intros l. now rewrite map_app.
  - apply ranges_if; [reflexivity|]. apply ranges_step. intros d.
    match goal with |- _ = bind _ (fun x => Ok (?a ++ x)) => apply (ranges_bind _ _ _ (fun x => a ++ x)) end.
    + destruct d; [reflexivity|apply records_ranges].
    + intros l. now rewrite map_app.
  - apply ranges_if; [reflexivity|]. apply ranges_step. intros d.
    match goal with |- _ = bind _ (fun x => Ok (?a ++ x)) => apply (ranges_bind _ _ _ (fun x => a ++ x)) end.
    + destruct d; [reflexivity|apply records_ranges].
    + intros l. now rewrite map_app.
Qed.
Lemma application_ranges cf display base p : ranges (application_told cf display base p) = annotate_application_layer cf base p.
Proof. exact (application_ranges_n cf display _ p base (le_n _)). Qed.

Lemma long_ranges cf display data f a d ctl :
  ranges (long_or_control_told cf display data f a d ctl) = annotate_long_or_control cf data d ctl.
Proof.
  unfold long_or_control_told, annotate_long_or_control. cbv zeta.
  match goal with |- _ = bind _ (fun x => Ok (?a ++ x ++ ?b)) => apply (ranges_bind _ _ _ (fun x => a ++ x ++ b)) end.
  - destruct d; [reflexivity|]. apply ranges_if; [reflexivity|apply application_ranges].
  - intros l. rewrite !map_app. f_equal. f_equal.
    destruct (6 + len d <? len data), (6 + len d + 1 <? len data); reflexivity.
Qed.

Lemma wired_ranges cf display data : ranges (wired_told cf display data) = annotate_wired cf data.
Proof.
  unfold wired_told, annotate_wired. apply ranges_step. intros [c|f a|f a d|f a d]; try reflexivity; apply long_ranges.
Qed.

Lemma wireless_ranges cf display data : ranges (wireless_told cf display data) = annotate_wireless_inner cf data.
Proof.
  unfold wireless_told, annotate_wireless_inner. apply ranges_step. intros _. cbv zeta. apply ranges_step. intros s.
  match goal with |- _ = bind _ (fun x => Ok (?a ++ x ++ ?b)) => apply (ranges_bind _ _ _ (fun x => a ++ x ++ b)) end.
  - apply ranges_if; [|reflexivity]. apply ranges_step. intros x. apply application_ranges.
  - intros l. rewrite !map_app. f_equal. f_equal. destruct s; reflexivity.
Qed.

Lemma last_opt_map {A B} (f : A -> B) l : last_opt (map f l) = option_map f (last_opt l).
Proof.
  unfold last_opt. destruct l as [|x l]; [reflexivity|]. cbn [map]. rewrite <- (map_cons f x l), map_length.
  now rewrite nth_error_map.
Qed.
Lemma insert_ranges original (l : list (segment * text)) crc : map fst (insert_crc_told original l crc) = insert_crc (map fst l) crc.
Proof.
  destruct crc as [a b]. unfold insert_crc_told, insert_crc, told.
  rewrite !firstn_map, !skipn_map, last_opt_map.
  destruct (last_opt (firstn _ l)) as [[s t]|]; cbn [option_map fst].
  - destruct (a <? s_end s); rewrite !map_app; [|reflexivity].
    f_equal. cbn [map fst]. f_equal. f_equal. destruct (b <? s_end s); reflexivity.
  - rewrite !map_app. reflexivity.
Qed.

Lemma format_a_ranges cf display data stripped :
  ranges (format_a_told cf display data stripped) = annotate_wireless_format_a cf data stripped.
Proof.
  unfold format_a_told, annotate_wireless_format_a. apply ranges_step. intros m.
  rewrite <- (wireless_ranges cf display stripped). destruct (wireless_told cf display stripped) as [l|e|p]; [|reflexivity|reflexivity].
  cbn [bind ranges]. apply ranges_step. intros ps. cbn [ranges]. f_equal.
  assert (F : forall ps l, map fst (fold_left (insert_crc_told data) ps l) = fold_left insert_crc ps (map fst l)).
  { clear. induction ps as [|p ps IH]; intros l; [reflexivity|]. cbn. now rewrite IH, insert_ranges. }
  assert (G : forall l : list told, map fst (filter (fun '(s, _) => s_start s <? s_end s) l) = filter (fun s => s_start s <? s_end s) (map fst l)).
  { clear. induction l as [|[s t] l IH]; [reflexivity|]. cbn. destruct (s_start s <? s_end s); cbn; now rewrite IH. }
  rewrite G, F. f_equal. f_equal. rewrite !map_map. apply map_ext. intros [s t]. reflexivity.
Qed.

Lemma frame_ranges cf display data : ranges (frame_told cf display data) = annotate_frame cf data.
Proof.
  unfold frame_told, annotate_frame. rewrite <- (wired_ranges cf display data).
  destruct (wired_told cf display data) as [l|[e|]|p]; try reflexivity. cbn [ranges].
  apply ranges_step. intros [st o]. cbv zeta.
  assert (P : ranges match wireless_told cf display data with Ok segments => Ok segments
      | Err (AError _) => Err (AError (MFrameError InvalidStartByte)) | Err AFuel => Err AFuel | Panic p => Panic p end =
    match annotate_wireless_inner cf data with Ok segments => Ok segments
      | Err (AError _) => Err (AError (MFrameError InvalidStartByte)) | Err AFuel => Err AFuel | Panic p => Panic p end).
  { rewrite <- (wireless_ranges cf display data). destruct (wireless_told cf display data) as [l|[x|]|p]; reflexivity. }
  destruct st as [s|]; [|exact P].
  rewrite <- (format_a_ranges cf display data s). destruct (format_a_told cf display data s) as [l|[x|]|p]; try reflexivity. exact P.
Qed.

Lemma replace_ranges cf display l shown :
  ranges (replace_encrypted_told cf display l shown) = replace_encrypted cf (map fst l) shown.
Proof.
  induction l as [|[s t] l IH]; [reflexivity|]. cbn [replace_encrypted_told replace_encrypted map fst].
  rewrite <- IH.
  assert (H : ranges (match s_kind s with
              | KEncryptedPayload =>
                  pushed <- match get_range shown (s_start s) (s_end s) with
                            | Some data => records_told cf display (s_start s) data
                            | None => Ok []
                            end ;;
                  Ok (match pushed with [] => [(s, t)] | _ => pushed end)
              | _ => Ok [(s, t)]
              end) = match s_kind s with
              | KEncryptedPayload =>
                  pushed <- match get_range shown (s_start s) (s_end s) with
                            | Some data => annotate_data_records cf (s_start s) data
                            | None => Ok []
                            end ;;
                  Ok (match pushed with [] => [s] | _ => pushed end)
              | _ => Ok [s]
              end).
  { destruct (s_kind s); try reflexivity.
    apply (ranges_bind _ _ _ (fun x => match x with [] => [s] | _ => x end)).
    - destruct (get_range _ _ _); [apply records_ranges|reflexivity].
    - intros [|x m]; reflexivity. }
  rewrite <- H. destruct (match s_kind s with KEncryptedPayload => _ | _ => _ end) as [h|e|p]; [|reflexivity|reflexivity].
  cbn [bind ranges]. destruct (replace_encrypted_told cf display l shown); cbn; [now rewrite map_app|reflexivity|reflexivity].
Qed.
