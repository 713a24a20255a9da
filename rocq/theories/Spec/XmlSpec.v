(** A reader for XML, and what the elements of the libmbus vocabulary stand for; written
    without reference to the code that prints them. *)
From Coq Require Import List NArith String Bool.
Import ListNotations.
From Verif Require Import Model.Text Spec.EscapeSpec.
Open Scope N_scope.
Open Scope list_scope.

(** content of an element: characters, and elements with attributes and content *)
Inductive xml :=
| XChar (c : N)
| XElem (name : text) (attributes : list (text * text)) (content : list xml).

Definition same_text (a b : text) : bool := if list_eq_dec N.eq_dec a b then true else false.

(** the text before the first [c], and what follows that [c] if there is one *)
Fixpoint cut (c : N) (s : text) : text * option text :=
  match s with
  | [] => ([], None)
  | x :: s => if x =? c then ([], Some s) else let '(a, b) := cut c s in (x :: a, b)
  end.

(** names are made of ASCII letters *)
Definition letter (c : N) : bool := ((65 <=? c) && (c <=? 90)) || ((97 <=? c) && (c <=? 122)).
Definition name_ok (s : text) : bool := match s with [] => false | _ => forallb letter s end.

(** what stands between the angle brackets that open an element: its name and at most one
    attribute in double quotes *)
Definition start_tag (tag : text) : option (text * list (text * text)) :=
  match cut 32 tag with
  | (name, None) => if name_ok name then Some (name, []) else None
  | (name, Some attribute) =>
      match cut 61 attribute with
      | (key, Some (34 :: quoted)) =>
          match cut 34 quoted with
          | (value, Some []) => if name_ok name && name_ok key then Some (name, [(key, value)]) else None
          | _ => None
          end
      | _ => None
      end
  end.

(** the character an entity stands for *)
Definition entity (spelling : text) : option N :=
  match find (fun e => same_text (fst e) spelling) xml_entities with Some (_, c) => Some c | None => None end.

(** control characters, of which only the line feed may occur *)
Definition bad_control (c : N) : bool := ((c <? 32) && negb (c =? 10)) || (c =? 127).

(** where the reader is: in text, between angle brackets, in an entity *)
Inductive place := InText | InTag (read : text) | InEntity (read : text).

(** [read s p open done]: what the content [s] consists of, when the elements [open] have been
    opened, with what preceded them, and [done] has been read since the last one (both
    backwards); [None] if it is not well-formed.  Markup characters and control characters
    may not occur in text, nor markup characters in tags. *)
Fixpoint read (s : text) (p : place) (open : list (text * list (text * text) * list xml)) (done : list xml)
  : option (list xml) :=
  match s with
  | [] => match p, open with InText, [] => Some (rev done) | _, _ => None end
  | c :: s =>
      match p with
      | InText =>
          if c =? 60 then read s (InTag []) open done
          else if c =? 38 then read s (InEntity [c]) open done
          else if (c =? 62) || bad_control c then None
          else read s InText open (XChar c :: done)
      | InEntity e =>
          if c =? 59 then
            match entity (rev (c :: e)) with Some x => read s InText open (XChar x :: done) | None => None end
          else read s (InEntity (c :: e)) open done
      | InTag t =>
          if c =? 62 then
            match rev t with
            | [] => None
            | first :: name =>
                if first =? 47 then
                  match open with
                  | (opened, attributes, outer) :: open =>
                      if same_text opened name then read s InText open (XElem opened attributes (rev done) :: outer) else None
                  | [] => None
                  end
                else
                  match start_tag (first :: name) with
                  | Some (name, attributes) => read s InText ((name, attributes, done) :: open) []
                  | None => None
                  end
            end
          else if (c =? 60) || (c =? 38) || bad_control c then None
          else read s (InTag (c :: t)) open done
      end
  end.

(** the first line: XML 1.0, in the encoding ISO-8859-1 *)
Definition declaration : text := txt "<?xml version=""1.0"" encoding=""ISO-8859-1""?>" ++ [10].
Fixpoint after (prefix s : text) : option text :=
  match prefix, s with
  | [], _ => Some s
  | a :: prefix, b :: s => if a =? b then after prefix s else None
  | _ :: _, [] => None
  end.

(** content without the spaces and line feeds between elements *)
Definition is_blank (x : xml) : bool := match x with XChar c => (c =? 32) || (c =? 10) | _ => false end.
Definition unblanked (l : list xml) : list xml := filter (fun x => negb (is_blank x)) l.

(** content that is text *)
Fixpoint characters (l : list xml) : option text :=
  match l with
  | [] => Some []
  | XChar c :: l => match characters l with Some s => Some (c :: s) | None => None end
  | XElem _ _ _ :: _ => None
  end.

(** elements that hold text: their names and texts *)
Fixpoint fields_of (l : list xml) : option (list (text * text)) :=
  match l with
  | [] => Some []
  | XElem name [] content :: l =>
      match characters content, fields_of l with
      | Some value, Some fields => Some ((name, value) :: fields)
      | _, _ => None
      end
  | _ => None
  end.

(** data records: their numbers and fields *)
Fixpoint records_of (l : list xml) : option (list (text * list (text * text))) :=
  match l with
  | [] => Some []
  | XElem name [(key, id)] content :: l =>
      if same_text name (txt "DataRecord") && same_text key (txt "id") then
        match fields_of (unblanked content), records_of l with
        | Some fields, Some records => Some ((id, fields) :: records)
        | _, _ => None
        end
      else None
  | _ => None
  end.

(** what a document says: the fields of its slave information, and its data records *)
Definition document (s : text) : option (list (text * text) * list (text * list (text * text))) :=
  match after declaration s with
  | Some s =>
      match read s InText [] [] with
      | Some l =>
          match unblanked l with
          | [XElem root [] content] =>
              match unblanked content with
              | XElem slave [] info :: rest =>
                  if same_text root (txt "MBusData") && same_text slave (txt "SlaveInformation") then
                    match fields_of (unblanked info), records_of rest with
                    | Some fields, Some records => Some (fields, records)
                    | _, _ => None
                    end
                  else None
              | _ => None
              end
          | _ => None
          end
      | None => None
      end
  | None => None
  end.

(** the text of one data record on its own *)
Definition record_element (s : text) : option (text * list (text * text)) :=
  match read s InText [] [] with
  | Some l => match records_of (unblanked l) with Some [r] => Some r | _ => None end
  | None => None
  end.

(** the text in the field of that name *)
Definition lookup (name : text) (fields : list (text * text)) : option text :=
  match find (fun f => same_text (fst f) name) fields with Some (_, v) => Some v | None => None end.
