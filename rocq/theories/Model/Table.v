(** Model of the box drawing part of the text table (src/output.rs).  The crate
    unicode-width is not part of the code base: [cw] stands for
    [UnicodeWidthChar::width(c).unwrap_or(0)] and [sw] for [UnicodeWidthStr::width]. *)
From Verif Require Import Model.Base Model.Text.

(** output.rs:2374-2385: the loop over the characters of one source line *)
Fixpoint wrap_line (cw : N -> N) (width : N) (characters : text) (line : text) (line_width : N) : list text :=
  match characters with
  | [] => [line]
  | c :: characters' =>
      let character_width := cw c in
      if negb (line_width =? 0) && (width <? line_width + character_width)
      then line :: wrap_line cw width characters' [c] character_width
      else wrap_line cw width characters' (line ++ [c]) (line_width + character_width)
  end.

(** output.rs:2363-2391, [wrap_display]; [split] gives at least one piece, so the lines are
    never empty (2387-2389 never applies) *)
Definition wrap_display (cw : N -> N) (value : text) (width : N) : list text :=
  if width =? 0 then [[]]
  else flat_map (fun source_line =>
    match source_line with
    | [] => [[]]
    | _ => wrap_line cw width source_line [] 0
    end) (split_char 10 value).

(** output.rs:2326-2337, [push_border]; 0x2500 is the horizontal line *)
Fixpoint border_cells (middle right : N) (widths : list N) : text :=
  match widths with
  | [] => []
  | w :: widths' =>
      repeat 0x2500 (N.to_nat (w + 2))
      ++ (match widths' with [] => right | _ => middle end) :: border_cells middle right widths'
  end.
(** output.rs:2326-2337 *)
Definition push_border (left middle right : N) (widths : list N) : text :=
  left :: border_cells middle right widths ++ [10].

(** output.rs:2346-2360, one round of the loop over lines; 0x2502 is the vertical line *)
Definition row_line (sw : text -> N) (wrapped : list (list text)) (widths : list N) (line : nat) : text :=
  0x2502 :: flat_map (fun '(index, width) =>
    let value := match nth_error wrapped index with
                 | Some lines => match nth_error lines line with Some v => v | None => [] end
                 | None => []
                 end in
    32 :: value ++ repeat 32 (N.to_nat (width - sw value)) ++ [32; 0x2502])
    (combine (seq 0 (length widths)) widths) ++ [10].

(** output.rs:2339-2361, [push_row]; [unwrap_or(1)] applies to a row without columns *)
Definition push_row (cw : N -> N) (sw : text -> N) (cells : list text) (widths : list N) : text :=
  let wrapped := map (fun '(index, width) =>
    wrap_display cw (match nth_error cells index with Some v => v | None => [] end) width)
    (combine (seq 0 (length widths)) widths) in
  let height := match wrapped with [] => 1%nat | _ => fold_right Nat.max 0%nat (map (@length _) wrapped) end in
  flat_map (row_line sw wrapped widths) (seq 0 height).

(** output.rs:2316-2321: rows with borders between them *)
Fixpoint body_rows (cw : N -> N) (sw : text -> N) (rows : list (list text)) (widths : list N) : text :=
  match rows with
  | [] => []
  | row :: rows' =>
      push_row cw sw row widths
      ++ (match rows' with [] => [] | _ => push_border 0x251C 0x253C 0x2524 widths end)
      ++ body_rows cw sw rows' widths
  end.

(** output.rs:2304-2324, [box_table] *)
Definition box_table (cw : N -> N) (sw : text -> N) (headers : list text) (rows : list (list text)) (widths : list N) : text :=
  push_border 0x250C 0x252C 0x2510 widths
  ++ push_row cw sw headers widths
  ++ push_border 0x251C 0x253C 0x2524 widths
  ++ body_rows cw sw rows widths
  ++ push_border 0x2514 0x2534 0x2518 widths.

(** output.rs:2293-2302, [key_value_box]: the column widths *)
Definition key_value_widths (width : N) : list N :=
  let content := width - 7 in
  let key_width := N.min (N.max (content / 3) 10) 24 in
  [key_width; N.max (content - key_width) 1].
