(** Specification of text tables. *)
From Coq Require Import List NArith.
Import ListNotations.
Open Scope N_scope.

(** display width, from the widths of the characters *)
Definition display (cw : N -> N) (s : list N) : N := fold_right (fun c n => cw c + n) 0 s.

(** the line fits the column, or ends in one character wider than the column with nothing
    visible before it *)
Definition fits (cw : N -> N) (width : N) (line : list N) : Prop :=
  display cw line <= width \/
  exists before c, line = before ++ [c] /\ display cw before = 0 /\ width < cw c.

(** a text without line feeds broken into lines: nothing lost, nothing added, every line
    fits, no line is broken early or empty *)
Definition broken (cw : N -> N) (width : N) (source : list N) (lines : list (list N)) : Prop :=
  lines <> [] /\ concat lines = source /\ Forall (fits cw width) lines /\
  (source <> [] -> Forall (fun l => l <> []) lines) /\
  (forall before l1 c l2 after, lines = before ++ l1 :: (c :: l2) :: after -> width < display cw l1 + cw c).

(** the pieces between line feeds *)
Fixpoint joined (pieces : list (list N)) : list N :=
  match pieces with
  | [] => []
  | [p] => p
  | p :: rest => p ++ 10 :: joined rest
  end.

(** a cell laid out in a column *)
Definition laid_out (cw : N -> N) (width : N) (value : list N) (lines : list (list N)) : Prop :=
  exists pieces groups,
    pieces <> [] /\ value = joined pieces /\ Forall (fun p => ~ In 10 p) pieces /\
    Forall2 (broken cw width) pieces groups /\ lines = concat groups.

(** a text made of lines, each ended by a line feed *)
Definition unlines (lines : list (list N)) : list N := concat (map (fun l => l ++ [10]) lines).

(** width of a table with these columns: a space on either side of each cell, and the lines
    between and around them *)
Definition table_width (widths : list N) : N := 1 + fold_right (fun w n => w + 3 + n) 0 widths.

(** the characters tables are drawn with *)
Definition box_chars : list N :=
  [32; 0x2500; 0x2502; 0x250C; 0x252C; 0x2510; 0x251C; 0x253C; 0x2524; 0x2514; 0x2534; 0x2518].

(** a cell in its column *)
Definition padded (cw : N -> N) (width : N) (s : list N) : list N :=
  s ++ repeat 32 (N.to_nat (width - display cw s)).

(** the [j]-th line of a row whose cells are laid out as [columns] *)
Definition row_text (cw : N -> N) (widths : list N) (columns : list (list (list N))) (j : nat) : list N :=
  0x2502 :: concat (map (fun wc => 32 :: padded cw (fst wc) (nth j (snd wc) []) ++ [32; 0x2502]) (combine widths columns)).

(** [row_shown cw widths cells lines]: the lines show the cells side by side, as many lines as
    the highest cell needs *)
Definition row_shown (cw : N -> N) (widths : list N) (cells : list (list N)) (lines : list (list N)) : Prop :=
  length cells = length widths /\
  exists columns, Forall2 (fun wc column => laid_out cw (fst wc) (snd wc) column) (combine widths cells) columns /\
    lines = map (row_text cw widths columns) (seq 0 (fold_right Nat.max 0%nat (map (@length _) columns))).

(** a border: the horizontal line with the given ends and crossings *)
Definition border (left middle right : N) (widths : list N) : list N :=
  let fix cells ws := match ws with
                      | [] => []
                      | [w] => repeat 0x2500 (N.to_nat (w + 2)) ++ [right]
                      | w :: ws' => repeat 0x2500 (N.to_nat (w + 2)) ++ middle :: cells ws'
                      end in left :: cells widths.

(** rows with a border between neighbours *)
Fixpoint with_borders (b : list N) (rows : list (list (list N))) : list (list N) :=
  match rows with
  | [] => []
  | [r] => r
  | r :: rest => r ++ b :: with_borders b rest
  end.

(** [boxed cw widths headers rows lines]: the lines are a box with a line of headers and the rows *)
Definition boxed (cw : N -> N) (widths : list N) (headers : list (list N)) (rows : list (list (list N)))
  (lines : list (list N)) : Prop :=
  exists head body, row_shown cw widths headers head /\ Forall2 (row_shown cw widths) rows body /\
    lines = border 0x250C 0x252C 0x2510 widths :: head ++ border 0x251C 0x253C 0x2524 widths
            :: with_borders (border 0x251C 0x253C 0x2524 widths) body ++ [border 0x2514 0x2534 0x2518 widths].
