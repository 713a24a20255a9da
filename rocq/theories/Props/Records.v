(** C17-C25, C27-C31, C33: data records. *)
From Coq Require Import List NArith ZArith Reals Lia Permutation.
Import ListNotations.
From Flocq Require Import IEEE754.Bits.
From Verif Require Import Model.Base Model.Core Model.DataInfo Model.ValueInfo Model.Record
  Spec.RecordSpec Spec.FloatSpec Proof.IterFacts Proof.HeaderProps Proof.PanicFacts Proof.DateFacts
  Proof.NumberProps.
Open Scope N_scope.

Definition debug : config := {| overflow_checks := true; plaintext_before_extension := false |}.
Definition release : config := {| overflow_checks := false; plaintext_before_extension := false |}.

(** an energy record, an idle filler, a volume record *)
Definition ex_energy : list N := [0x04; 0x06; 0x10; 0x27; 0; 0].
Definition ex_volume : list N := [0x0A; 0x13; 0x34; 0x12].
Definition ex_records : list N := ex_energy ++ [0x2F] ++ ex_volume.

(** ** C17 *)
(** [laid_out] (RecordSpec.v): items of the iterator and the bytes they come from *)
Theorem C17_records_are_laid_out : forall cf data hdr,
  bytes_ok data ->
  exists items, records_all cf data hdr = Some items /\
    laid_out (fun d => data_record_parse cf d hdr) data items.
Proof. exact laid_out_records. Qed.
Print Assumptions C17_records_are_laid_out.

Example C17_example : exists r1 r2,
  records_all release ex_records None = Some [Ok r1; Ok r2] /\
  dr_raw_bytes r1 = ex_energy /\ dr_raw_bytes r2 = ex_volume.
Proof. vm_compute. do 2 eexists. repeat split. Qed.

(** ** C18 *)
Theorem C18_error_is_last : forall cf data hdr pre e post,
  records_all cf data hdr = Some (pre ++ Err e :: post) ->
  post = [] /\ Forall (fun x => exists r, x = Ok r) pre.
Proof. exact error_is_last. Qed.
Print Assumptions C18_error_is_last.

(** in every state of the iterator: after an error, and after the end, comes the end *)
Theorem C18_done_after_error : forall cf s e s',
  next cf s = (NItem (Err e), s') -> next cf s' = (NDone, s').
Proof. exact next_error_done. Qed.
Print Assumptions C18_done_after_error.

Theorem C18_done_forever : forall cf s s', next cf s = (NDone, s') -> next cf s' = (NDone, s').
Proof. exact next_done_forever. Qed.
Print Assumptions C18_done_forever.

Theorem C18_vec_all_or_nothing : forall cf data hdr items,
  records_all cf data hdr = Some items ->
  (exists rs, items = map Ok rs /\ records_to_vec cf data hdr = Some (Ok rs)) \/
  (exists rs e, items = map Ok rs ++ [Err e] /\ records_to_vec cf data hdr = Some (Ok [])) \/
  (exists rs p, items = map Ok rs ++ [Panic p] /\ records_to_vec cf data hdr = Some (Panic p)).
Proof. exact vec_all_or_nothing. Qed.
Print Assumptions C18_vec_all_or_nothing.

Example C18_example : exists r,
  records_all release (ex_energy ++ [0x0A; 0x13; 0x3F; 0x12; 0x04]) None =
    Some ([Ok r] ++ Err (DataInformationError InvalidValueInformation) :: []) /\
  records_to_vec release (ex_energy ++ [0x0A; 0x13; 0x3F; 0x12; 0x04]) None = Some (Ok []).
Proof. vm_compute. eexists. split; reflexivity. Qed.

(** ** C19, C20 *)
Theorem C19_idle_fillers_ignored : forall cf hdr fillers buffers,
  Forall bytes_ok buffers ->
  Forall (fun a => exists la, records_all cf a hdr = Some la /\
                    Forall (fun x => exists r, x = Ok r /\ complete_record r) la) buffers ->
  records_all cf (with_fillers fillers buffers) hdr = records_all cf (concat buffers) hdr.
Proof. exact fillers_ignored. Qed.
Print Assumptions C19_idle_fillers_ignored.

Theorem C20_concatenation : forall cf hdr a la b,
  bytes_ok a -> records_all cf a hdr = Some la ->
  Forall (fun x => exists r, x = Ok r /\ complete_record r) la ->
  exists lb, records_all cf b hdr = Some lb /\ records_all cf (a ++ b) hdr = Some (la ++ lb).
Proof. exact concatenation. Qed.
Print Assumptions C20_concatenation.

Example C19_C20_example :
  (exists la, records_all release ex_energy None = Some la /\ la <> [] /\
     Forall (fun x => exists r, x = Ok r /\ complete_record r) la) /\
  with_fillers [1; 2; 3]%nat [ex_energy; ex_volume] =
    [0x2F] ++ ex_energy ++ [0x2F; 0x2F] ++ ex_volume ++ [0x2F; 0x2F; 0x2F].
Proof.
  split; [|reflexivity]. vm_compute records_all. eexists; split; [reflexivity|]. split; [discriminate|].
  repeat constructor. eexists; split; [reflexivity|].
  unfold complete_record; cbn. repeat split; try discriminate.
  intros v Hv; inversion Hv; subst. left; split; reflexivity.
Qed.

(** ** C21 *)
(** full statement: forall cf data hdr, ~ is_panic (data_record_parse cf data hdr); it is
    false in every build *)
Theorem C21_no_panic_refuted : forall cf, exists data,
  bytes_ok data /\ is_panic (data_record_parse cf data None) /\
  exists items p, records_all cf data None = Some items /\ In (Panic p) items.
Proof.
  intros [[] []]; exists [0x04; 0x7D; 1; 2; 3; 4];
    (split; [repeat constructor|]);
    (split; [eexists; vm_compute; reflexivity|]);
    vm_compute; do 2 eexists; (split; [reflexivity|left; reflexivity]).
Qed.
Print Assumptions C21_no_panic_refuted.

(** a panic needs one of the four causes of [panic_cause] (RecordSpec.v), so no input
    without them panics *)
Theorem C21_record_panic_causes_partial : forall cf data hdr,
  bytes_ok data -> is_panic (data_record_parse cf data hdr) -> panic_cause cf data.
Proof. exact record_panic. Qed.
Print Assumptions C21_record_panic_causes_partial.

Theorem C21_iteration_panic_causes_partial : forall cf data hdr items p,
  bytes_ok data -> records_all cf data hdr = Some items -> In (Panic p) items ->
  exists pre suf, data = pre ++ suf /\ panic_cause cf suf.
Proof. exact iter_panic. Qed.
Print Assumptions C21_iteration_panic_causes_partial.

(** each cause does panic on some input: reserved VIF; five VIFEs; long text; LVAR E0 *)
Example C21_example :
  is_panic (data_record_parse release [0x04; 0x7D; 1; 2; 3; 4] None) /\
  is_panic (data_record_parse release [0x04; 0xFD; 0xBA; 0xA8; 0xA8; 0xA8; 0xA8; 0xA8; 0xA8; 0xA8; 0xA8; 0xA8; 0x28; 1; 2; 3; 4] None) /\
  is_panic (data_record_parse release ([0x04; 0xFC; 0x28] ++ 10 :: repeat 65 10 ++ [1; 2; 3; 4]) None) /\
  is_panic (data_record_parse debug [0x0D; 0x13; 0xE0] None) /\
  ~ is_panic (data_record_parse release [0x0D; 0x13; 0xE0] None).
Proof.
  repeat split; try (eexists; vm_compute; reflexivity).
  intros [p Hp]. vm_compute in Hp. discriminate.
Qed.

(** ** C22-C24 *)
(** [header_of], [reads] (RecordSpec.v); [twos_complement], [nearest], [is_number] (FloatSpec.v) *)
Theorem C22_integer_fields : forall cf head rest hdr h dif vif w,
  header_of cf head rest h dif vif -> ~ date_vif vif -> integer_width (dif mod 16) = Some w ->
  reads (data_record_parse cf (head ++ rest) hdr) h head rest w
    (fun body => is_number (nearest (IZR (twos_complement body)))).
Proof. exact integer_record. Qed.
Print Assumptions C22_integer_fields.

Theorem C22_variable_length_integers : forall cf head n rest hdr h dif vif,
  header_of cf head (n :: rest) h dif vif -> ~ date_vif vif -> dif mod 16 = 13 -> 0xE1 <= n <= 0xE8 ->
  reads (data_record_parse cf (head ++ n :: rest) hdr) h head (n :: rest) (1 + (n - 0xE0))
    (fun body => is_number (nearest (IZR (twos_complement (tl body))))).
Proof. exact variable_integer_record. Qed.
Print Assumptions C22_variable_length_integers.
Example C22_variable_example : exists h,
  header_of release [0x0D; 0x13] (0xE3 :: [0xFE; 0xFF; 0xFF; 7]) h 0x0D 0x13 /\ 0x0D mod 16 = 13 /\ 0xE1 <= 0xE3 <= 0xE8.
Proof.
  eexists. split; [|split; [reflexivity|lia]]. split; [repeat constructor|]. split; [vm_compute; reflexivity|].
  split; [reflexivity|]. split; [reflexivity|]. eexists; split; reflexivity.
Qed.

Theorem C22_exact_up_to_2_53 : forall z, (Z.abs z <= 2 ^ 53)%Z -> nearest (IZR z) = IZR z.
Proof. exact nearest_exact. Qed.
Print Assumptions C22_exact_up_to_2_53.

Example C22_example :
  (exists h, header_of release [0x03; 0x13] [0xFE; 0xFF; 0xFF; 7] h 0x03 0x13) /\
  ~ date_vif 0x13 /\ integer_width (0x03 mod 16) = Some 3 /\ twos_complement [0xFE; 0xFF; 0xFF] = (-2)%Z /\
  twos_complement [0; 0; 0; 0; 0; 0; 0; 0x80] = (- 2 ^ 63)%Z.
Proof.
  split; [|repeat split; try reflexivity; intros [H|H]; discriminate H].
  eexists. split; [repeat constructor|]. split; [vm_compute; reflexivity|].
  split; [reflexivity|]. split; [reflexivity|]. eexists; split; reflexivity.
Qed.

(** a BCD field is read as the decimal number of its nibbles, in the byte order of the
    transport header, or some nibble is no digit and the record is an error *)
Theorem C23_bcd_fields : forall cf head rest hdr h dif vif w,
  header_of cf head rest h dif vif -> ~ date_vif vif -> bcd_width (dif mod 16) = Some w ->
  (w <= len rest /\ ~ all_decimal (firstn (N.to_nat w) rest) /\
   data_record_parse cf (head ++ rest) hdr = Err (DataInformationError InvalidValueInformation)) \/
  reads (data_record_parse cf (head ++ rest) hdr) h head rest w
    (fun body x => all_decimal body /\
       is_number (IZR (Z.of_N (decimal (nibbles (ordered (lsb_first hdr) body))))) x).
Proof. exact bcd_record. Qed.
Print Assumptions C23_bcd_fields.

(** BCD numbers of variable length with up to fourteen digits; LVAR D0.. is negative *)
Theorem C23_variable_length_bcd : forall cf head n rest hdr h dif vif sign k,
  header_of cf head (n :: rest) h dif vif -> ~ date_vif vif -> dif mod 16 = 13 ->
  k <= 7 -> (n = 0xC0 + k /\ sign = 1%Z) \/ (n = 0xD0 + k /\ sign = (-1)%Z) ->
  (k <= len rest /\ ~ all_decimal (firstn (N.to_nat k) rest) /\
   data_record_parse cf (head ++ n :: rest) hdr = Err (DataInformationError InvalidValueInformation)) \/
  reads (data_record_parse cf (head ++ n :: rest) hdr) h head (n :: rest) (1 + k)
    (fun body x => all_decimal (tl body) /\
       is_number (IZR (sign * Z.of_N (decimal (nibbles (ordered (lsb_first hdr) (tl body)))))) x).
Proof. exact variable_bcd_record. Qed.
Print Assumptions C23_variable_length_bcd.
Example C23_variable_example : exists h,
  header_of release [0x0D; 0x13] (0xD2 :: [0x34; 0x12]) h 0x0D 0x13 /\ 0x0D mod 16 = 13 /\
  0xD2 = 0xD0 + 2 /\ decimal (nibbles (ordered false [0x34; 0x12])) = 1234.
Proof.
  eexists. split; [|repeat split; reflexivity]. split; [repeat constructor|]. split; [vm_compute; reflexivity|].
  split; [reflexivity|]. split; [reflexivity|]. eexists; split; reflexivity.
Qed.

Example C23_example :
  (exists h, header_of release [0x0B; 0x13] [0x56; 0x34; 0x12] h 0x0B 0x13) /\
  bcd_width (0x0B mod 16) = Some 3 /\ decimal (nibbles [0x56; 0x34; 0x12]) = 123456 /\
  decimal (nibbles (ordered true [0x56; 0x34; 0x12])) = 563412 /\
  data_record_parse release [0x0B; 0x13; 0x56; 0x3F; 0x12] None = Err (DataInformationError InvalidValueInformation).
Proof.
  split; [|repeat split; reflexivity].
  eexists. split; [repeat constructor|]. split; [vm_compute; reflexivity|].
  split; [reflexivity|]. split; [reflexivity|]. eexists; split; reflexivity.
Qed.

(** [b32_of_bits] is Flocq's decoding of the IEEE-754 single precision bit pattern *)
Theorem C24_real_fields : forall cf head rest hdr h dif vif,
  header_of cf head rest h dif vif -> ~ date_vif vif -> dif mod 16 = 5 ->
  reads (data_record_parse cf (head ++ rest) hdr) h head rest 4
    (fun body x => exists f, x = Number f /\ same_number (b32_of_bits (Z.of_N (le_number body))) f).
Proof. exact real_record. Qed.
Print Assumptions C24_real_fields.

Example C24_example :
  exists h, header_of release [0x05; 0x5B] [0; 0; 0xC0; 0x7F] h 0x05 0x5B.
Proof.
  eexists. split; [repeat constructor|]. split; [vm_compute; reflexivity|].
  split; [reflexivity|]. split; [reflexivity|]. eexists; split; reflexivity.
Qed.

(** ** C25 *)
(** full statement: tariff, subunit as below and storage number = en_storage; the storage
    number is wrong as soon as a DIFE carries storage bits *)
Theorem C25_storage_number_refuted : exists b di,
  bytes_ok [0x84; 0x01] /\ dib_try_from [0x84; 0x01] = Ok b /\ data_information_try_from b = Ok di /\
  en_storage 0x84 [0x01] = 2 /\ di_storage_number di = 32.
Proof. do 2 eexists. split; [repeat constructor|]. vm_compute. repeat split. Qed.
Print Assumptions C25_storage_number_refuted.

(** tariff and subunit are as EN 13757-3 says for every chain; the storage bits of the DIFEs
    are four places too high *)
Theorem C25_dib_numbers_partial : forall b,
  bytes_ok (dib_dif b :: match dib_difes b with Some l => l | None => [] end) ->
  match dib_difes b with Some l => len l <= 11 | None => True end ->
  exists di, data_information_try_from b = Ok di /\
    let difes := match dib_difes b with Some l => l | None => [] end in
    di_storage_number di = (dib_dif b / 64) mod 2 + 32 * digits 16 (fun x => x mod 16) difes /\
    di_tariff di = en_tariff difes /\
    di_device di = en_subunit difes /\
    di_size di = 1 + len difes.
Proof. exact data_information_fields. Qed.
Print Assumptions C25_dib_numbers_partial.

Example C25_example :
  bytes_ok [0xC4; 0xB1; 0x52] /\ len [0xB1; 0x52] <= 11 /\
  en_storage 0xC4 [0xB1; 0x52] = 67 /\ en_tariff [0xB1; 0x52] = 7 /\ en_subunit [0xB1; 0x52] = 2.
Proof. split; [repeat constructor|]. vm_compute. repeat split; discriminate. Qed.

(** ** C27 *)
(** full statement: as below with at most 10 DIFEs, 11 bytes in all *)
Theorem C27_dif_chain_refuted : exists b,
  dib_try_from (0x84 :: repeat 0x80 10 ++ [0]) = Ok b /\ dib_get_size b = 12.
Proof. eexists. vm_compute. split; reflexivity. Qed.
Print Assumptions C27_dif_chain_refuted.

Theorem C27_dif_chain_accepted_partial : forall data b,
  bytes_ok data ->
  dib_try_from data = Ok b <->
  (exists dif rest, data = dif :: rest /\ dif < 128 /\ b = {| dib_dif := dif; dib_difes := None |}) \/
  (exists dif difes rest, data = dif :: difes ++ rest /\ 128 <= dif /\ chain difes /\ len difes <= 11 /\
     b = {| dib_dif := dif; dib_difes := Some difes |}).
Proof. exact dib_accepts. Qed.
Print Assumptions C27_dif_chain_accepted_partial.

Theorem C27_dif_chain_errors_partial : forall data e,
  bytes_ok data ->
  dib_try_from data = Err e <->
  (data = [] /\ e = NoData) \/
  (exists dif m rest, data = dif :: m ++ rest /\ 128 <= dif /\ Forall extends m /\ len m = 11 /\ e = DataTooLong) \/
  (exists dif m, data = dif :: m /\ 128 <= dif /\ Forall extends m /\ len m < 11 /\ e = DataTooShort).
Proof. exact dib_rejects. Qed.
Print Assumptions C27_dif_chain_errors_partial.

Example C27_example :
  dib_try_from [0x84; 0x80; 0x40; 0x13] = Ok {| dib_dif := 0x84; dib_difes := Some [0x80; 0x40] |} /\
  dib_try_from (0x84 :: repeat 0x80 11) = Err DataTooLong /\ dib_try_from [0x84; 0x80] = Err DataTooShort.
Proof. vm_compute. repeat split. Qed.

(** ** C28 *)
(** full statement: the chain always ends at a byte without extension bit, and VIF 7C
    always has its text; both fail *)
Theorem C28_vif_chain_refuted :
  (exists v, vib_try_from release [0x93; 0x80] = Ok v /\ vib_vifes v = Some [0x80]) /\
  (exists v, vib_try_from release [0x7C; 2; 0x41; 0x42] = Ok v /\ vib_plaintext v = None /\ vib_get_size v = 1).
Proof. split; eexists; vm_compute; repeat split. Qed.
Print Assumptions C28_vif_chain_refuted.

Theorem C28_vif_chain_partial : forall cf data v,
  bytes_ok data -> vib_try_from cf data = Ok v ->
  let vifes := match vib_vifes v with Some l => l | None => [] end in
  let text := match vib_plaintext v with Some t => len t :: t | None => [] end in
  exists rest,
    data = vib_vif v :: (if plaintext_before_extension cf then text ++ vifes else vifes ++ text) ++ rest /\
    vib_get_size v = len data - len rest /\
    (vib_vif v < 128 /\ vifes = [] \/
     128 <= vib_vif v /\ (chain vifes \/ Forall extends vifes /\ rest = [])) /\
    len vifes <= 10 /\
    (vib_plaintext v <> None <->
     (vib_vif v = 0xFC \/ (vib_vif v = 0x7C /\ plaintext_before_extension cf = true))).
Proof. exact vib_accepts. Qed.
Print Assumptions C28_vif_chain_partial.

Example C28_example : exists v,
  vib_try_from release [0xFC; 0xA8; 0x28; 2; 0x41; 0x42; 9] = Ok v /\ vib_get_size v = 6 /\
  vib_plaintext v = Some [0x41; 0x42].
Proof. eexists; vm_compute; repeat split. Qed.

(** ** C29 *)
Theorem C29_type_g_round_trip : forall cf hdr dif day month year rest,
  dif < 128 -> dif mod 16 <> 15 -> day < 32 -> month < 16 -> year < 128 ->
  exists r, data_record_parse cf ([dif; 0x6C] ++ type_g day month year ++ rest) hdr = Ok r /\
    dr_raw_bytes r = [dif; 0x6C] ++ type_g day month year /\
    d_value (dr_data r) = Some (Date (field_or_every 0 day) (month_number month) (field_or_every 0x7F year)).
Proof. exact type_g_record. Qed.
Print Assumptions C29_type_g_round_trip.

(** the same for any header, reading the field *)
Theorem C29_type_g_any_header : forall cf data hdr r v,
  bytes_ok data -> data_record_parse cf data hdr = Ok r ->
  rh_vib (drh_raw (dr_header r)) = Some v -> vib_vif v mod 128 = 0x6C ->
  exists head b0 b1 rest,
    data = head ++ [b0; b1] ++ rest /\ dr_raw_bytes r = head ++ [b0; b1] /\
    len head = header_get_size (dr_header r) /\
    d_value (dr_data r) = Some (Date (field_or_every 0 (b0 mod 32)) (month_number (b1 mod 16))
                                     (field_or_every 0x7F (g_year b0 b1))).
Proof. exact date_record. Qed.
Print Assumptions C29_type_g_any_header.

Example C29_example : exists r,
  data_record_parse release ([0x42; 0x6C] ++ type_g 31 12 24) None = Ok r /\
  d_value (dr_data r) = Some (Date (Single 31) (Single December) (Single 24)).
Proof. vm_compute. eexists; split; reflexivity. Qed.

(** ** C30 *)
(** full statement: with [b0 b1 b2 b3] of a type F field, the year is that of the type G date
    [b2 b3] (type I: [b3 b4]).  The decoder takes it from [b0 b1], minutes and hours. *)
Theorem C30_timestamp_year_refuted : exists r,
  data_record_parse release ([0x04; 0x6D; 30; 14] ++ type_g 15 6 24) None = Ok r /\
  d_value (dr_data r) = Some (DateTime (Single 15) (Single June) (Single 0) (Single 14) (Single 30)).
Proof. vm_compute. eexists; split; reflexivity. Qed.
Print Assumptions C30_timestamp_year_refuted.

Theorem C30_type_f_fields_partial : forall cf data hdr r v,
  bytes_ok data -> data_record_parse cf data hdr = Ok r ->
  rh_vib (drh_raw (dr_header r)) = Some v -> vib_vif v mod 128 = 0x6D ->
  dib_dif (rh_dib (drh_raw (dr_header r))) mod 16 = 4 ->
  exists head b0 b1 b2 b3 rest,
    data = head ++ [b0; b1; b2; b3] ++ rest /\ dr_raw_bytes r = head ++ [b0; b1; b2; b3] /\
    len head = header_get_size (dr_header r) /\
    d_value (dr_data r) = Some (DateTime (field_or_every 31 (b2 mod 32)) (month_number (b3 mod 16))
                           (field_or_every 0x7F (g_year b0 b1))
                           (field_or_every 31 (b1 mod 32)) (field_or_every 63 (b0 mod 64))).
Proof. exact datetime_record. Qed.
Print Assumptions C30_type_f_fields_partial.

Theorem C30_type_i_fields_partial : forall cf data hdr r v,
  bytes_ok data -> data_record_parse cf data hdr = Ok r ->
  rh_vib (drh_raw (dr_header r)) = Some v -> vib_vif v mod 128 = 0x6D ->
  dib_dif (rh_dib (drh_raw (dr_header r))) mod 16 = 6 ->
  exists head b0 b1 b2 b3 b4 rest,
    data = head ++ [b0; b1; b2; b3; b4] ++ rest /\
    dr_raw_bytes r = head ++ [b0; b1; b2; b3; b4] ++ firstn 1 rest /\
    len head = header_get_size (dr_header r) /\
    d_value (dr_data r) = Some (DateTimeWithSeconds (field_or_every 31 (b3 mod 32)) (month_number (b4 mod 16))
                           (field_or_every 0x7F (g_year b0 b1))
                           (field_or_every 31 (b2 mod 32)) (field_or_every 63 (b1 mod 64))
                           (field_or_every 63 (b0 mod 64))).
Proof. exact datetime48_record. Qed.
Print Assumptions C30_type_i_fields_partial.

Example C30_example : exists r,
  data_record_parse release [0x06; 0x6D; 1; 2; 3; 4; 5; 6] None = Ok r /\
  d_value (dr_data r) = Some (DateTimeWithSeconds (Single 4) (Single May) (Single 0) (Single 3) (Single 2) (Single 1)).
Proof. vm_compute. eexists; split; reflexivity. Qed.

(** ** C31 *)
(** full statement: as below without the condition on the VIF; date VIFs break it: a 32 bit
    field with VIF 6C takes 2 bytes, a 48 bit one with 6D is accepted with 5 *)
Theorem C31_record_width_refuted :
  (exists r, data_record_parse release [0x04; 0x6C; 1; 1; 1; 1] None = Ok r /\ len (dr_raw_bytes r) = 4) /\
  (exists r, data_record_parse release [0x06; 0x6D; 1; 1; 1; 1; 1] None = Ok r /\ len (dr_raw_bytes r) = 7).
Proof. split; vm_compute; eexists; split; reflexivity. Qed.
Print Assumptions C31_record_width_refuted.

Theorem C31_record_width_partial : forall cf data hdr r,
  bytes_ok data -> data_record_parse cf data hdr = Ok r ->
  let raw := drh_raw (dr_header r) in
  let dif := dib_dif (rh_dib raw) in
  (forall v, rh_vib raw = Some v -> ~ date_vif (vib_vif v)) ->
  dif <> 0x0F -> dif <> 0x1F ->
  exists head body rest,
    data = head ++ body ++ rest /\ dr_raw_bytes r = head ++ body /\
    len head = header_get_size (dr_header r) /\ len body = d_size (dr_data r) /\
    if dif mod 16 =? 15 then body = [] else field_width (dif mod 16) (body ++ rest) = Some (len body).
Proof. exact record_width. Qed.
Print Assumptions C31_record_width_partial.

Example C31_example : exists r,
  data_record_parse release [0x0D; 0x78; 3; 65; 66; 67; 1; 2] None = Ok r /\ len (dr_raw_bytes r) = 6 /\
  field_width (0x0D mod 16) [3; 65; 66; 67; 1; 2] = Some 4.
Proof. vm_compute. eexists; repeat split. Qed.

(** ** C33 *)
Theorem C33_corrections_add_up : forall ns b b' v,
  Forall (fun n => n < 8) ns -> correctable b ->
  appended_all b (map (fun n => 0x70 + n) ns) b' ->
  value_information_try_from b = Ok v ->
  value_information_try_from b' = Ok (scaled_by (correction_sum ns) v).
Proof. exact corrections. Qed.
Print Assumptions C33_corrections_add_up.

Theorem C33_any_order : forall ns ns' b b1 b2 v,
  Permutation ns ns' -> Forall (fun n => n < 8) ns -> correctable b ->
  appended_all b (map (fun n => 0x70 + n) ns) b1 ->
  appended_all b (map (fun n => 0x70 + n) ns') b2 ->
  value_information_try_from b = Ok v ->
  value_information_try_from b1 = value_information_try_from b2.
Proof. exact corrections_any_order. Qed.
Print Assumptions C33_any_order.

Definition ex_vib (vif : N) (vifes : option (list N)) : value_information_block :=
  {| vib_vif := vif; vib_vifes := vifes; vib_plaintext := None |}.
Example C33_example :
  correctable (ex_vib 0x13 None) /\
  appended_all (ex_vib 0x13 None) (map (fun n => 0x70 + n) [3; 7]) (ex_vib 0x93 (Some [0xF3; 0x77])) /\
  correction_sum [3; 7] = (-2)%Z /\
  is_ok (value_information_try_from (ex_vib 0x13 None)).
Proof.
  repeat split.
  - repeat constructor.
  - left; reflexivity.
  - intros m C; discriminate C.
  - apply app_cons with (ex_vib 0x93 (Some [0x73])).
    { split; [reflexivity|]. left; repeat split. }
    apply app_cons with (ex_vib 0x93 (Some [0xF3; 0x77])); [|constructor].
    split; [reflexivity|]. right. exists [], 0x73. repeat split.
  - eexists; vm_compute; reflexivity.
Qed.
