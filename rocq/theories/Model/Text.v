(** Rust text: [&str] and [String] as lists of Unicode scalar values, and the methods of
    the standard library the modelled code calls on them.  Nothing here models a
    function of /repo. *)
From Coq Require Import Ascii String.
From Verif Require Import Model.Base.

Notation text := (list N) (only parsing).

(** a string literal *)
Definition txt (s : string) : text := map N_of_ascii (list_ascii_of_string s).

(** [char::len_utf8], [str::len] *)
Definition utf8_len (c : N) : N :=
  if c <? 0x80 then 1 else if c <? 0x800 then 2 else if c <? 0x10000 then 3 else 4.
Definition text_len (s : text) : N := fold_right (fun c n => utf8_len c + n) 0 s.

(** [char::is_whitespace]: the Unicode property White_Space *)
Definition is_whitespace (c : N) : bool :=
  (9 <=? c) && (c <=? 13) || (c =? 0x20) || (c =? 0x85) || (c =? 0xA0) || (c =? 0x1680)
  || (0x2000 <=? c) && (c <=? 0x200A) || (c =? 0x2028) || (c =? 0x2029) || (c =? 0x202F)
  || (c =? 0x205F) || (c =? 0x3000).
(** [char::is_ascii_whitespace] *)
Definition is_ascii_whitespace (c : N) : bool :=
  (c =? 9) || (c =? 10) || (c =? 12) || (c =? 13) || (c =? 0x20).
(** [char::is_ascii_hexdigit] *)
Definition is_ascii_hexdigit (c : N) : bool :=
  (48 <=? c) && (c <=? 57) || (65 <=? c) && (c <=? 70) || (97 <=? c) && (c <=? 102).

(** [str::trim_start_matches(p)], [str::trim_end_matches(p)], [str::trim] *)
Fixpoint trim_start (p : N -> bool) (s : text) : text :=
  match s with
  | [] => []
  | c :: s' => if p c then trim_start p s' else s
  end.
Definition trim_end (p : N -> bool) (s : text) : text := rev (trim_start p (rev s)).
Definition trim (s : text) : text := trim_end is_whitespace (trim_start is_whitespace s).

(** [str::to_ascii_lowercase] *)
Definition ascii_lower (c : N) : N := if (65 <=? c) && (c <=? 90) then c + 32 else c.
Definition to_ascii_lowercase (s : text) : text := map ascii_lower s.

(** [a == b] on strings *)
Fixpoint text_eqb (a b : text) : bool :=
  match a, b with
  | [], [] => true
  | x :: a', y :: b' => (x =? y) && text_eqb a' b'
  | _, _ => false
  end.

(** [str::strip_prefix(&str)] *)
Fixpoint strip_prefix (p s : text) : option text :=
  match p, s with
  | [], _ => Some s
  | x :: p', y :: s' => if x =? y then strip_prefix p' s' else None
  | _ :: _, [] => None
  end.

(** value of a hexadecimal digit ([char::to_digit(16)]); total, meaningless elsewhere *)
Definition hex_value (c : N) : N :=
  if (48 <=? c) && (c <=? 57) then c - 48
  else if (65 <=? c) && (c <=? 70) then c - 55 else c - 87.

(** [str::replace(char, &str)] *)
Definition replace_char (a : N) (b : text) (s : text) : text :=
  flat_map (fun c => if c =? a then b else [c]) s.

(** ["0".repeat(n)] *)
Definition zeros (n : nat) : text := repeat 48 n.

(** [str::split(char)] *)
Fixpoint split_char (sep : N) (s : text) : list text :=
  match s with
  | [] => [[]]
  | c :: s' =>
      if c =? sep then [] :: split_char sep s'
      else match split_char sep s' with
           | piece :: rest => (c :: piece) :: rest
           | [] => [[c]]
           end
  end.
