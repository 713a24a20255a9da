(** Specification vocabulary for records: where record bytes sit in a buffer, and
    the widths and numbers of EN 13757-3.  Independent of how records are parsed;
    from the model it uses only the result types. *)
From Verif Require Import Model.Base Model.Core Model.DataInfo Model.ValueInfo Model.Record.

(** a byte whose extension bit says that another one follows *)
Definition extends (b : N) : Prop := 128 <= b.

(** a chain of extension bytes: all but the last announce another one *)
Definition chain (l : list N) : Prop :=
  exists m b, l = m ++ [b] /\ Forall extends m /\ b < 128.

(** bytes between records that carry nothing: a DIF with low nibble F that is
    not 0F (manufacturer data follow), 1F (same, more records in the next
    telegram) or 7F (global readout request); 2F is the idle filler *)
Definition skipped (b : N) : Prop :=
  b mod 16 = 15 /\ b <> 0x0F /\ b <> 0x1F /\ b <> 0x7F.

(** what the iterator hands out *)
Notation item := (outcome data_record_error data_record) (only parsing).

(** [laid_out parse data items]: reading [data] from left to right one meets the items
    in order: skipped bytes yield nothing; anything else is handed with all that
    follows to [parse]; a record takes its non-empty run of bytes, an error or a
    panic takes the rest. *)
Inductive laid_out (parse : list N -> item) : list N -> list item -> Prop :=
| lo_end : laid_out parse [] []
| lo_skipped b rest items :
    skipped b -> laid_out parse rest items -> laid_out parse (b :: rest) items
| lo_record b t r rest items :
    ~ skipped b -> parse (b :: t) = Ok r ->
    b :: t = dr_raw_bytes r ++ rest -> dr_raw_bytes r <> [] ->
    laid_out parse rest items ->
    laid_out parse (b :: t) (Ok r :: items)
| lo_error b t e : ~ skipped b -> parse (b :: t) = Err e -> laid_out parse (b :: t) [Err e]
| lo_panic b t p : ~ skipped b -> parse (b :: t) = Panic p -> laid_out parse (b :: t) [Panic p].

(** a record that is not cut short by the end of its buffer: its VIF chain is
    terminated, all announced data bytes are there, and it is not a
    manufacturer block, which by definition takes the rest of the telegram *)
Definition vif_terminated (v : value_information_block) : Prop :=
  (vib_vif v < 128 /\ vib_vifes v = None) \/
  (exists l, vib_vifes v = Some l /\ chain l).
Definition complete_record (r : data_record) : Prop :=
  let raw := drh_raw (dr_header r) in
  dib_dif (rh_dib raw) <> 0x0F /\ dib_dif (rh_dib raw) <> 0x1F /\
  (forall v, rh_vib raw = Some v -> vif_terminated v) /\
  len (dr_raw_bytes r) = header_get_size (dr_header r) + d_size (dr_data r).

(** [buffers] with [fillers] idle filler bytes in front of each, and at the end *)
Fixpoint with_fillers (fillers : list nat) (buffers : list (list N)) : list N :=
  match fillers, buffers with
  | n :: fillers, b :: buffers => repeat 0x2F n ++ b ++ with_fillers fillers buffers
  | n :: _, [] => repeat 0x2F n
  | [], _ => concat buffers
  end.

(** EN 13757-3: number of data bytes announced by an LVAR byte (after it): text up to
    BF, positive and negative BCD numbers C0-C9 and D0-D9, binary numbers E0-EF
    and F0-F6 *)
Definition lvar_width (n : N) : option N :=
  if n <=? 0xBF then Some n
  else if (0xC0 <=? n) && (n <=? 0xC9) then Some (n - 0xC0)
  else if (0xD0 <=? n) && (n <=? 0xD9) then Some (n - 0xD0)
  else if (0xE0 <=? n) && (n <=? 0xEF) then Some (n - 0xE0)
  else if (0xF0 <=? n) && (n <=? 0xF4) then Some (4 * (n - 0xEC))
  else if n =? 0xF5 then Some 48
  else if n =? 0xF6 then Some 64
  else None.

(** EN 13757-3: data bytes announced by the low nibble of a DIF (the data field);
    for D the first data byte is the LVAR byte; F is a special function *)
Definition field_width (nibble : N) (data_bytes : list N) : option N :=
  match nibble with
  | 0 => Some 0 | 1 => Some 1 | 2 => Some 2 | 3 => Some 3 | 4 => Some 4
  | 5 => Some 4 | 6 => Some 6 | 7 => Some 8 | 8 => Some 0 | 9 => Some 1
  | 10 => Some 2 | 11 => Some 3 | 12 => Some 4 | 14 => Some 6
  | 13 => match data_bytes with
          | n :: _ => match lvar_width n with Some w => Some (w + 1) | None => None end
          | [] => None
          end
  | _ => None
  end.

(** VIFs that announce a date or date and time: 6C, 6D with or without extension *)
Definition date_vif (vif : N) : Prop := vif mod 128 = 0x6C \/ vif mod 128 = 0x6D.

(** numbers built from one digit per byte, least significant first *)
Fixpoint digits (base : N) (digit : N -> N) (l : list N) : N :=
  match l with [] => 0 | b :: l => digit b + base * digits base digit l end.

(** EN 13757-3: storage number, tariff and subunit of a DIF with its DIFEs *)
Definition en_storage (dif : N) (difes : list N) : N :=
  (dif / 64) mod 2 + 2 * digits 16 (fun b => b mod 16) difes.
Definition en_tariff (difes : list N) : N := digits 4 (fun b => (b / 16) mod 4) difes.
Definition en_subunit (difes : list N) : N := digits 2 (fun b => (b / 64) mod 2) difes.

(** Appending one VIFE to a terminated chain: the byte that ended the chain gets its
    extension bit.  [appended_all] does it for several VIFEs in turn. *)
Definition appended (b : value_information_block) (x : N) (b' : value_information_block) : Prop :=
  vib_plaintext b' = vib_plaintext b /\
  ((vib_vifes b = None /\ vib_vif b < 128 /\
    vib_vif b' = vib_vif b + 128 /\ vib_vifes b' = Some [x]) \/
   (exists m y, vib_vifes b = Some (m ++ [y]) /\ y < 128 /\
    vib_vif b' = vib_vif b /\ vib_vifes b' = Some (m ++ [y + 128; x]))).
Inductive appended_all : value_information_block -> list N -> value_information_block -> Prop :=
| app_nil b : appended_all b [] b
| app_cons b x b1 xs b2 : appended b x b1 -> appended_all b1 xs b2 -> appended_all b (x :: xs) b2.

(** chains to which a correction can be appended: not the manufacturer specific,
    plain text and reserved VIFs 7B-7F, and not ending in 7C, which with extension
    bit would be the
    prefix FC of another table *)
Definition correctable (b : value_information_block) : Prop :=
  bytes_ok (vib_vif b :: match vib_vifes b with Some l => l | None => [] end) /\
  (vib_vif b < 0x7B \/ 0x80 <= vib_vif b <= 0xFB \/ vib_vif b = 0xFD) /\
  (forall m, vib_vifes b <> Some (m ++ [0x7C])).

(** the sum of the corrections 10^(n-6) *)
Fixpoint correction_sum (ns : list N) : Z :=
  match ns with [] => 0%Z | n :: ns => (Z.of_N n - 6 + correction_sum ns)%Z end.

(** [v] with its decimal scale exponent increased by [z] *)
Definition scaled_by (z : Z) (v : value_information) : value_information :=
  {| vi_decimal_offset_exponent := vi_decimal_offset_exponent v;
     vi_labels := vi_labels v;
     vi_decimal_scale_exponent := (vi_decimal_scale_exponent v + z)%Z;
     vi_units := vi_units v |}.

(** a complete DIF with at most eleven DIFEs, not a special function *)
Definition dif_chain (dif : N) (l : list N) : Prop :=
  dif mod 16 <> 15 /\
  exists difes, l = dif :: difes /\
    (dif < 128 /\ difes = [] \/ extends dif /\ chain difes /\ len difes <= 11).

(** a text with its length in front *)
Definition counted (l : list N) : Prop := exists chars, l = len chars :: chars.

(** a complete VIF with its VIFEs and text; the cargo feature
    [plaintext_before_extension] puts the text first *)
Definition vif_chain (cf : config) (vif : N) (l : list N) : Prop :=
  exists vifes text, (vif < 128 /\ vifes = [] \/ extends vif /\ chain vifes) /\
    (text = [] \/ (vif = 0x7C \/ vif = 0xFC) /\ counted text) /\
    l = vif :: (if plaintext_before_extension cf then text ++ vifes else vifes ++ text).

(** What it takes to make record parsing panic, as bytes: after a complete DIF chain,
    - the VIF 7D;
    - five VIFEs or more (after the text, where text comes first);
    - a plain text VIF whose text is longer than nine characters;
    - with overflow checks, data of variable length with LVAR E0. *)
Inductive panic_cause (cf : config) : list N -> Prop :=
| pc_vif dif h t :
    dif_chain dif h -> panic_cause cf (h ++ 0x7D :: t)
| pc_vifes dif h vif text v1 v2 v3 v4 v5 t :
    dif_chain dif h -> extends vif ->
    (text = [] \/ plaintext_before_extension cf = true /\ vif = 0xFC /\ counted text) ->
    Forall extends [v1; v2; v3; v4] ->
    panic_cause cf (h ++ vif :: text ++ v1 :: v2 :: v3 :: v4 :: v5 :: t)
| pc_text dif h vif vifes chars t :
    dif_chain dif h ->
    (if plaintext_before_extension cf then (vif = 0x7C \/ vif = 0xFC) /\ vifes = []
     else vif = 0xFC /\ chain vifes) ->
    9 < len chars ->
    panic_cause cf (h ++ vif :: vifes ++ len chars :: chars ++ t)
| pc_lvar dif h vif vib t :
    dif_chain dif h -> dif mod 16 = 13 -> vif_chain cf vif vib -> overflow_checks cf = true ->
    panic_cause cf (h ++ vib ++ 0xE0 :: t).

(** EN 13757-3 type G (CP16): day in bits 0-4 of the first byte, month in bits 0-3 of
    the second, year in the remaining bits, low bits first *)
Definition type_g (day month year : N) : list N := [day + 32 * (year mod 8); month + 16 * (year / 8)].

Definition months : list month :=
  [January; February; March; April; May; June; July; August; September; October; November; December].
Definition month_number (n : N) : single_every_or_invalid month :=
  if n =? 0 then Invalid else match get months (n - 1) with Some m => Single m | None => Invalid end.

(** a field whose value [every] stands for "every" *)
Definition field_or_every (every x : N) : single_every_or_invalid N :=
  if x =? every then Every else Single x.
(** the year in the two bytes of a type G date *)
Definition g_year (b0 b1 : N) : N := b0 / 32 + 8 * (b1 / 16).

(** [reads res h head rest w value]: [res], the result of parsing [head ++ rest] as a
    record with header [h] taken from [head], needs [w] data bytes: with fewer it
    is the error for missing data; else the record consists of [head] and the next
    [w] bytes, and these have the given value *)
Definition reads (res : item) (h : data_record_header) (head rest : list N) (w : N)
  (value : list N -> data_type -> Prop) : Prop :=
  (len rest < w /\ res = Err RInsufficientData) \/
  exists body rest' r x,
    rest = body ++ rest' /\ len body = w /\ res = Ok r /\ dr_header r = h /\
    dr_raw_bytes r = head ++ body /\ d_value (dr_data r) = Some x /\ value body x.

(** [header_of cf head rest h dif vif]: the header of the record [head ++ rest] is accepted
    and takes [head], which starts with [dif] and whose VIF is [vif] *)
Definition header_of (cf : config) (head rest : list N) (h : data_record_header) (dif vif : N) : Prop :=
  bytes_ok (head ++ rest) /\ header_try_from cf (head ++ rest) = Ok h /\
  len head = header_get_size h /\ dib_dif (rh_dib (drh_raw h)) = dif /\
  exists v, rh_vib (drh_raw h) = Some v /\ vib_vif v = vif.

(** data bytes of the integer and BCD data fields *)
Definition integer_width (nibble : N) : option N :=
  match nibble with 1 => Some 1 | 2 => Some 2 | 3 => Some 3 | 4 => Some 4 | 6 => Some 6 | 7 => Some 8 | _ => None end.
Definition bcd_width (nibble : N) : option N :=
  match nibble with 9 => Some 1 | 10 => Some 2 | 11 => Some 3 | 12 => Some 4 | 14 => Some 6 | _ => None end.

(** the byte order flag of the long transport header, if there is one *)
Definition lsb_first (hdr : option long_tpl_header) : bool :=
  match hdr with Some h => lh_lsb_order h | None => false end.
