(** Model of the exact decimal arithmetic of src/output.rs.  Strings of ASCII digits are
    lists of character codes. *)
From Coq Require Import String.
From Verif Require Import Model.Base Model.Text.

(** src/output.rs:1691-1701: negate the two's complement bytes: complement all, then add
    the carry of 1 until it is 0 *)
Fixpoint add_carry (value : bytes) (carry : N) : bytes :=
  match value with
  | [] => []
  | b :: value' =>
      let sum := b + carry in
      let carry' := N.shiftr sum 8 in
      (sum mod 256) :: (if carry' =? 0 then value' else add_carry value' carry')
  end.

(** output.rs:1708-1712: multiply the digits (least significant first) by 256 and add *)
Fixpoint times256 (digits : list N) (carry : N) : list N * N :=
  match digits with
  | [] => ([], carry)
  | d :: digits' =>
      let value := d * 256 + carry in
      let '(rest, c) := times256 digits' (value / 10) in
      (value mod 10 :: rest, c)
  end.
(** output.rs:1713-1716: push the rest of the carry; it is below 256 + 255/10, so three
    rounds are enough ([fuel]) *)
Fixpoint push_carry (fuel : nat) (carry : N) : list N :=
  match fuel with
  | O => []
  | S fuel' => if carry =? 0 then [] else carry mod 10 :: push_carry fuel' (carry / 10)
  end.
(** output.rs:1706-1717, one round of the outer loop *)
Definition digit_round (digits : list N) (b : N) : list N :=
  let '(ds, carry) := times256 digits b in ds ++ push_carry 6 carry.
(** output.rs:1718-1720, applied to the digits most significant first *)
Fixpoint drop_leading_zeros (digits : list N) : list N :=
  match digits with
  | 0 :: ((_ :: _) as digits') => drop_leading_zeros digits'
  | _ => digits
  end.

(** output.rs:1683-1728, [signed_le_decimal] *)
Definition signed_le_decimal (data : bytes) : option text :=
  match last_opt data with
  | None => None
  | Some l =>
      let negative := negb (N.land l 0x80 =? 0) in
      let magnitude := if negative then add_carry (map (fun b => 255 - b) data) 1 else data in
      let digits := fold_left digit_round (rev magnitude) [0] in
      let value := map (fun d => 48 + d) (drop_leading_zeros (rev digits)) in
      Some (if negative && negb (text_eqb value (txt "0")) then 45 :: value else value)
  end.

(** output.rs:1767-1771, [split_sign] *)
Definition split_sign (value : text) : bool * text :=
  match value with
  | c :: digits => if c =? 45 then (true, digits) else (false, value)
  | [] => (false, value)
  end.

(** output.rs:1801-1819, [add_abs], on the digits least significant first; [value - b'0']
    is meant for digits only.  [add_tail]: the rounds in which one text has ended. *)
Fixpoint add_tail (digits : text) (carry : N) : text :=
  match digits with
  | [] => if carry =? 0 then [] else [48 + carry mod 10]
  | d :: digits' => let sum := (d - 48) + carry in (48 + sum mod 10) :: add_tail digits' (sum / 10)
  end.
Fixpoint add_rev (left right : text) (carry : N) : text :=
  match left, right with
  | [], _ => add_tail right carry
  | _, [] => add_tail left carry
  | a :: left', b :: right' =>
      let sum := (a - 48) + (b - 48) + carry in
      (48 + sum mod 10) :: add_rev left' right' (sum / 10)
  end.
Definition add_abs (left right : text) : text := rev (add_rev (rev left) (rev right) 0).

(** output.rs:1821-1844, [subtract_abs]: the loop over the larger, least significant
    first; [u8::try_from(digit - sub).unwrap_or(0)] *)
Fixpoint sub_rev (larger smaller : text) (borrow : Z) : text :=
  match larger with
  | [] => []
  | v :: larger' =>
      let digit := (Z.of_N (v - 48) - borrow)%Z in
      let sub := match smaller with s :: _ => Z.of_N (s - 48) | [] => 0%Z end in
      let '(digit, borrow) := if (digit <? sub)%Z then ((digit + 10)%Z, 1%Z) else (digit, 0%Z) in
      (48 + Z.to_N (digit - sub)) :: sub_rev larger' (tl smaller) borrow
  end.
(** output.rs:1838-1840, on the output most significant first *)
Fixpoint drop_leading_48 (s : text) : text :=
  match s with
  | c :: ((_ :: _) as s') => if c =? 48 then drop_leading_48 s' else s
  | _ => s
  end.
Definition subtract_abs (larger smaller : text) : text :=
  drop_leading_48 (rev (sub_rev (rev larger) (rev smaller) 0)).

(** [str::cmp]: lexicographic *)
Fixpoint text_compare (a b : text) : comparison :=
  match a, b with
  | [], [] => Eq
  | [], _ => Lt
  | _, [] => Gt
  | x :: a', y :: b' => match x ?= y with Eq => text_compare a' b' | c => c end
  end.

(** output.rs:1846-1850, [compare_abs] *)
Definition compare_abs (left right : text) : comparison :=
  let left := trim_start (N.eqb 48) left in
  let right := trim_start (N.eqb 48) right in
  match len left ?= len right with Eq => text_compare left right | c => c end.

(** output.rs:1773-1799, [add_signed_decimal_integers] *)
Definition add_signed_decimal_integers (left right : text) : text :=
  let '(left_negative, left_digits) := split_sign left in
  let '(right_negative, right_digits) := split_sign right in
  if eqb left_negative right_negative then
    let result := add_abs left_digits right_digits in
    if left_negative && negb (text_eqb result (txt "0")) then 45 :: result else result
  else
    match compare_abs left_digits right_digits with
    | Eq => txt "0"
    | Gt => let result := subtract_abs left_digits right_digits in
            if left_negative then 45 :: result else result
    | Lt => let result := subtract_abs right_digits left_digits in
            if right_negative then 45 :: result else result
    end.

(** output.rs:1870-1875: drop trailing zeros of a fraction, then a trailing point *)
Definition trim_fraction (output : text) : text :=
  let output := if existsb (N.eqb 46) output then trim_end (N.eqb 48) output else output in
  match rev output with
  | c :: rest => if c =? 46 then rev rest else output
  | [] => output
  end.

(** output.rs:1852-1881, [apply_power10].  The loop at 1870 stops when no point is left;
    zeros are only popped while the text ends in one, so it cannot remove the point. *)
Definition apply_power10 (integer : text) (exponent : Z) : text :=
  let '(negative, digits) := split_sign integer in
  if forallb (N.eqb 48) digits then txt "0" else
  let output :=
    if (0 <=? exponent)%Z then digits ++ zeros (Z.to_nat exponent)
    else
      let places := Z.abs_nat exponent in
      if (places <? length digits)%nat then
        let split := (length digits - places)%nat in
        firstn split digits ++ 46 :: skipn split digits
      else txt "0." ++ zeros (places - length digits) ++ digits in
  let output := trim_fraction output in
  if negative && negb (text_eqb output (txt "0")) then 45 :: output else output.

(** output.rs:1749-1765, [scaled_decimal]; [usize::try_from(..).unwrap_or(0)] is
    [Z.to_nat] *)
Definition scaled_decimal (significand : text) (scale : Z) (offset : option Z) : text :=
  let '(negative, digits) := split_sign significand in
  let minimum_exponent := match offset with Some v => Z.min v scale | None => scale end in
  let left := digits ++ zeros (Z.to_nat (scale - minimum_exponent)) in
  let signed_left := if negative then 45 :: left else left in
  let integer :=
    match offset with
    | Some e => add_signed_decimal_integers signed_left (49 :: zeros (Z.to_nat (e - minimum_exponent)))
    | None => signed_left
    end in
  apply_power10 integer minimum_exponent.
