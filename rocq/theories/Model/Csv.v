(** Model of the CSV writer of the crate csv as src/output.rs:1944 and src/mbus_data.rs:748 use it
    ([csv::Writer::from_writer]: comma, double quotes only where needed, doubled within quotes, line feed after each record).
    The crate is not part of /repo. *)
From Coq Require Import List NArith Bool.
Import ListNotations.
From Verif Require Import Model.Base Model.Text Model.Show.
Open Scope N_scope.
Open Scope list_scope.

(** the characters for which a field is put between quotes, src/output.rs:1944 and src/mbus_data.rs:748 (crate csv) *)
Definition csv_needs_quotes (c : N) : bool := (c =? 44) || (c =? 34) || (c =? 13) || (c =? 10).
(** one field, src/output.rs:1974-1990 and src/mbus_data.rs:751-817 (crate csv) *)
Definition csv_cell (t : text) : text :=
  if existsb csv_needs_quotes t then [34] ++ flat_map (fun c => if c =? 34 then [34; 34] else [c]) t ++ [34] else t.
(** [write_record], src/output.rs:1974-1990 and src/mbus_data.rs:751-817 (crate csv): the fields and a line feed; a record of
    one empty field is written as two quotes, to differ from an empty line *)
Definition csv_line (cells : list text) : text :=
  match cells with
  | [[]] => [34; 34; 10]
  | _ => join [44] (map csv_cell cells) ++ [10]
  end.
