(** A reader for the part of the Mermaid flowchart language that is used. *)
From Coq Require Import List NArith String Bool.
Import ListNotations.
From Verif Require Import Model.Text.
Open Scope N_scope.
Open Scope list_scope.

(** a statement: labels are given as written, with their entities *)
Inductive statement :=
| Blank
| Flowchart
| Open (name label : list N)
| Direction
| Node (name label : list N)
| Edge (a b : list N)
| Beside (a b : list N)
| End
| ClassDef (name : list N)
| Class (names : list (list N)) (class : list N)
| Style (name : list N).

(** letters, digits, underscore *)
Definition word_char (c : N) : bool :=
  (48 <=? c) && (c <=? 57) || (65 <=? c) && (c <=? 90) || (97 <=? c) && (c <=? 122) || (c =? 95).

(** the longest beginning made of such characters, and the rest *)
Fixpoint take (p : N -> bool) (s : list N) : list N * list N :=
  match s with
  | c :: s' => if p c then let (a, b) := take p s' in (c :: a, b) else ([], s)
  | [] => ([], [])
  end.

Fixpoint same (a b : list N) : bool :=
  match a, b with
  | [], [] => true
  | x :: a', y :: b' => (x =? y) && same a' b'
  | _, _ => false
  end.
(** [s] without the beginning [p] *)
Fixpoint after (p s : list N) : option (list N) :=
  match p, s with
  | [], _ => Some s
  | x :: p', y :: s' => if x =? y then after p' s' else None
  | _ :: _, [] => None
  end.
(** the words between commas *)
Fixpoint words (fuel : nat) (s : list N) : list (list N) :=
  match fuel with
  | O => []
  | S fuel' => let (w, rest) := take word_char s in
               match rest with 44 :: rest' => w :: words fuel' rest' | _ => [w] end
  end.
Definition whole_word (s : list N) : option (list N) :=
  match s with [] => None | _ => if forallb word_char s then Some s else None end.

(** a label: bracket, quote, no quotes, quote, bracket, and nothing more *)
Definition read_label (s : list N) : option (list N) :=
  match s with
  | 91 :: 34 :: s' => let (label, rest) := take (fun c => negb (c =? 34)) s' in
                      if same rest [34; 93] then Some label else None
  | _ => None
  end.

(** one line *)
Definition read_statement (line : list N) : option statement :=
  let s := snd (take (fun c => c =? 32) line) in
  match s with
  | [] => Some Blank
  | _ =>
      let (word, rest) := take word_char s in
      let is x := same word (txt x) in
      if is "flowchart"%string then if same rest (txt " TD") then Some Flowchart else None
      else if is "direction"%string then if same rest (txt " LR") then Some Direction else None
      else if is "end"%string then match rest with [] => Some End | _ => None end
      else if is "subgraph"%string then
        let (name, rest') := take word_char (snd (take (fun c => c =? 32) rest)) in
        match read_label rest' with Some l => Some (Open name l) | None => None end
      else if is "classDef"%string then Some (ClassDef (fst (take word_char (snd (take (fun c => c =? 32) rest)))))
      else if is "style"%string then Some (Style (fst (take word_char (snd (take (fun c => c =? 32) rest)))))
      else if is "class"%string then
        let (names, rest') := take (fun c => word_char c || (c =? 44)) (snd (take (fun c => c =? 32) rest)) in
        match whole_word (snd (take (fun c => c =? 32) rest')) with
        | Some class => Some (Class (words (List.length names) names) class)
        | None => None
        end
      else
        match read_label rest with
        | Some l => Some (Node word l)
        | None =>
            match after (txt " --> ") rest with
            | Some r => match whole_word r with Some b => Some (Edge word b) | None => None end
            | None =>
                match after (txt " ~~~ ") rest with
                | Some r => match whole_word r with Some b => Some (Beside word b) | None => None end
                | None => None
                end
            end
        end
  end.

(** [nodes group statements]: the nodes with the group they are in ([] for none) and their
    labels; None if groups are not closed or contain each other *)
Fixpoint nodes (group : option (list N)) (statements : list statement)
  : option (list (list N * list N * list N)) :=
  match statements with
  | [] => match group with None => Some [] | Some _ => None end
  | Open name _ :: rest => match group with None => nodes (Some name) rest | Some _ => None end
  | End :: rest => match group with Some _ => nodes None rest | None => None end
  | Node name label :: rest =>
      match nodes group rest with
      | Some l => Some ((match group with Some g => g | None => [] end, name, label) :: l)
      | None => None
      end
  | _ :: rest => nodes group rest
  end.

(** the groups, the names used by edges, classes and styles, and classes defined and used *)
Definition groups (statements : list statement) : list (list N) :=
  flat_map (fun s => match s with Open name _ => [name] | _ => [] end) statements.
Definition references (statements : list statement) : list (list N) :=
  flat_map (fun s => match s with
                     | Edge a b | Beside a b => [a; b]
                     | Class names _ => names
                     | Style name => [name]
                     | _ => []
                     end) statements.
Definition classes_defined (statements : list statement) : list (list N) :=
  flat_map (fun s => match s with ClassDef c => [c] | _ => [] end) statements.
Definition classes_used (statements : list statement) : list (list N) :=
  flat_map (fun s => match s with Class _ c => [c] | _ => [] end) statements.

(** the nodes of one group: name and label as written *)
Definition nodes_of (group : list N) (l : list (list N * list N * list N)) : list (list N * list N) :=
  flat_map (fun x => if same (fst (fst x)) group then [(snd (fst x), snd x)] else []) l.

(** names are unique, everything named exists, groups are closed *)
Definition well_formed (statements : list statement) (l : list (list N * list N * list N)) : Prop :=
  nodes None statements = Some l /\
  NoDup (groups statements ++ map (fun x => snd (fst x)) l) /\
  (forall r, In r (references statements) -> In r (groups statements ++ map (fun x => snd (fst x)) l)) /\
  (forall c, In c (classes_used statements) -> In c (classes_defined statements)).

(** the arrows, and the pairs placed beside each other *)
Definition arrows (statements : list statement) : list (list N * list N) :=
  flat_map (fun s => match s with Edge a b => [(a, b)] | _ => [] end) statements.
Definition neighbours (statements : list statement) : list (list N * list N) :=
  flat_map (fun s => match s with Beside a b => [(a, b)] | _ => [] end) statements.
(** each with the next *)
Fixpoint chain (l : list (list N)) : list (list N * list N) :=
  match l with
  | a :: ((b :: _) as rest) => (a, b) :: chain rest
  | _ => []
  end.
