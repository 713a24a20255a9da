(** Spellings of bytes and numbers as text, written without reference to the code.  Text is
    a list of character codes. *)
From Coq Require Import List NArith ZArith QArith.
Import ListNotations.
Open Scope N_scope.

(** the character [c] is a hexadecimal digit of value [v]: 0-9, A-F, a-f *)
Definition hex_digit (c v : N) : Prop :=
  (v < 10 /\ c = 48 + v) \/ (10 <= v < 16 /\ (c = 55 + v \/ c = 87 + v)).

(** two digits, high one first *)
Definition two_digits (s : list N) (b : N) : Prop :=
  exists c1 v1 c2 v2, s = [c1; c2] /\ hex_digit c1 v1 /\ hex_digit c2 v2 /\ b = 16 * v1 + v2.

(** the compact spelling: two digits for each byte and nothing else *)
Inductive compact : list N -> list N -> Prop :=
| compact_nil : compact [] []
| compact_cons s b rest bytes :
    two_digits s b -> compact rest bytes -> compact (s ++ rest) (b :: bytes).

(** a byte on its own: two digits, perhaps after 0x or 0X *)
Definition byte_token (s : list N) (b : N) : Prop :=
  exists pre ds, s = pre ++ ds /\ (pre = [] \/ pre = [48; 120] \/ pre = [48; 88]) /\ two_digits ds b.

(** space, tab, line feed, form feed, carriage return, colon, dash *)
Definition separator (c : N) : Prop := In c [32; 9; 10; 12; 13; 58; 45].

(** bytes one by one, with separators between them and perhaps around *)
Inductive separated : list N -> list N -> Prop :=
| sep_end seps : Forall separator seps -> separated seps []
| sep_last seps tok b : Forall separator seps -> byte_token tok b -> separated (seps ++ tok) [b]
| sep_more seps tok b s rest bytes :
    Forall separator seps -> byte_token tok b -> separator s -> separated rest bytes ->
    separated (seps ++ tok ++ s :: rest) (b :: bytes).

(** white space of Unicode *)
Definition white (c : N) : Prop :=
  In c ([9; 10; 11; 12; 13; 32; 0x85; 0xA0; 0x1680] ++ map (fun i => 0x2000 + N.of_nat i) (seq 0 11)
        ++ [0x2028; 0x2029; 0x202F; 0x205F; 0x3000]).

(** the text without white space around it *)
Definition stripped (input core : list N) : Prop :=
  exists l r, input = l ++ core ++ r /\ Forall white l /\ Forall white r /\
    (forall c, hd_error core = Some c -> ~ white c) /\ (forall c m, core = m ++ [c] -> ~ white c).

(** what a hexadecimal input means *)
Definition hex_input (input bytes : list N) : Prop :=
  bytes <> [] /\ exists l core r,
    input = l ++ core ++ r /\ Forall white l /\ Forall white r /\
    (compact core bytes \/ separated core bytes).

(** number of bytes of the text in UTF-8 *)
Definition byte_length (s : list N) : N :=
  fold_right (fun c n => n + (if c <? 128 then 1 else if c <? 2048 then 2 else if c <? 65536 then 3 else 4)) 0 s.

(** [tok] is a run of characters between separators that starts at byte [i] *)
Definition run_at (s : list N) (i : N) (tok : list N) : Prop :=
  exists pre post, s = pre ++ tok ++ post /\ i = byte_length pre /\ tok <> [] /\
    Forall (fun c => ~ separator c) tok /\
    (forall m c, pre = m ++ [c] -> separator c) /\ (forall c, hd_error post = Some c -> separator c).

(** the older spelling: two digits for each byte, perhaps after 0x, with spaces and commas
    between bytes and at the end *)
Inductive loose : list N -> list N -> Prop :=
| loose_nil : loose [] []
| loose_sep c s bytes : c = 32 \/ c = 44 -> loose s bytes -> loose (c :: s) bytes
| loose_byte pre ds b s bytes :
    pre = [] \/ pre = [48; 120] -> two_digits ds b -> loose s bytes -> loose (pre ++ ds ++ s) (b :: bytes).

(** decimal numbers: characters 0-9, most significant digit first *)
Definition digit_char (c : N) : Prop := 48 <= c <= 57.
Definition number (s : list N) : N := fold_left (fun n c => 10 * n + (c - 48)) s 0.
Definition no_leading_zero (s : list N) : Prop := forall c rest, s = c :: rest -> c = 48 -> rest = [].

(** the canonical decimal text of an integer: digits without leading zeros, a minus sign
    only before negative numbers *)
Definition integer_text (s : list N) (z : Z) : Prop :=
  exists ds, ds <> [] /\ Forall digit_char ds /\ no_leading_zero ds /\
    ((s = ds /\ z = Z.of_N (number ds)) \/ (s = 45 :: ds /\ z = (- Z.of_N (number ds))%Z /\ z <> 0%Z)).

(** a decimal text, perhaps with a fraction after a point, and the number it denotes *)
Definition decimal_text (s : list N) (q : Q) : Prop :=
  exists (neg : bool) ip fp,
    s = (if neg then [45] else []) ++ ip ++ (match fp with [] => [] | _ => 46 :: fp end) /\
    ip <> [] /\ Forall digit_char ip /\ Forall digit_char fp /\
    (q == (if neg then -1 else 1) * inject_Z (Z.of_N (number (ip ++ fp))) / inject_Z (10 ^ Z.of_nat (length fp)))%Q.

(** ... in canonical form: no leading zeros, no trailing zeros in the fraction, no "-0" *)
Definition canonical_decimal (s : list N) : Prop :=
  exists (neg : bool) ip fp,
    s = (if neg then [45] else []) ++ ip ++ (match fp with [] => [] | _ => 46 :: fp end) /\
    ip <> [] /\ Forall digit_char ip /\ Forall digit_char fp /\
    no_leading_zero ip /\ (forall m, fp <> m ++ [48]) /\ (neg = true -> number (ip ++ fp) <> 0).

(** ten to a power *)
Definition ten_power (e : Z) : Q := Qpower (inject_Z 10) e.

(** the number an additive correction contributes *)
Definition addend (offset : option Z) : Q := match offset with Some o => ten_power o | None => 0%Q end.

(** the text spells a lower-case word, in letters of either case *)
Definition spells_word (s word : list N) : Prop :=
  Forall2 (fun c w => c = w \/ (65 <= c <= 90 /\ w = c + 32)) s word.
