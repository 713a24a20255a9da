(** What the command line tool, the Python module and the JavaScript module should do, written without reference to the code
    that does it. *)
From Coq Require Import List NArith Bool String.
Import ListNotations.
From Verif Require Import Model.Base Model.Text Model.Decimal Model.Format Model.Output Model.Render Model.Serialize Model.Bindings
  Spec.TextSpec Spec.FormatSpec Spec.SerializeSpec.
Open Scope N_scope.
Open Scope list_scope.

(** the text names this format *)
Definition names_format (t : text) (f : output_format) : Prop :=
  exists core n, stripped t core /\ In (n, f) format_names /\ spells_word core (txt n).

(** a key of 16 bytes in 32 hexadecimal digits, or no key *)
Definition key_text (given : option text) (key : option (list N)) : Prop :=
  match given, key with
  | None, None => True
  | Some t, Some k => compact t k /\ List.length k = 16%nat
  | _, _ => False
  end.

(** [unread input code offset]: why a text is not the text of bytes *)
Definition unread (input : text) (code : text) (offset : option N) : Prop :=
  (forall data, ~ hex_input input data) /\
  ((code = txt "input.empty" /\ offset = None /\ Forall (fun c => white c \/ separator c) input) \/
   (code = txt "input.invalid_hex" /\ exists core j, stripped input core /\ offset = Some j /\
      ((Forall (fun c => exists v, hex_digit c v) core /\ len core mod 2 = 1 /\ j + 1 = len core) \/
       (exists tok, run_at core j tok /\ forall b, ~ byte_token tok b)))).

(** ** The command line tool *)

(** the text that the arguments give, either in a file or directly *)
Definition given_text (su : surroundings) (ar : arguments) (input : text) : Prop :=
  (exists path, ar_file ar = Some path /\ ar_data ar = None /\ su_read su path = inl input) \/
  (ar_file ar = None /\ ar_data ar = Some input).
(** the width asked for, or else that of the terminal, or else 100 *)
Definition table_width (su : surroundings) (ar : arguments) : N :=
  match ar_width ar, su_terminal su, su_columns su with
  | Some w, _, _ => w
  | None, true, Some columns => columns
  | None, _, _ => 100
  end.
(** what is asked of the library *)
Definition asked (key : option (list N)) (enrichment : bool) (width : N) : render_options :=
  {| op_key := key; op_include_enrichment := enrichment; op_table_width := Some width |}.

Definition success (t : text) : outcome unit ending := Ok {| en_exit := 0; en_out := t; en_error := [] |}.
Definition complaint (code message : text) : outcome unit ending :=
  Ok {| en_exit := 1; en_out := []; en_error := txt "error: [" ++ code ++ txt "] " ++ message ++ [10] |}.

(** what can be wrong, in the order in which it is looked for, with the code *)
Inductive cli_cause (su : surroundings) (ar : arguments) : text -> text -> Prop :=
| NoFile path error : ar_file ar = Some path -> ar_data ar = None -> su_read su path = inr error ->
    cli_cause su ar (txt "input.file") (txt "failed to read " ++ path ++ txt ": " ++ error)
| NoInput : ar_file ar = None -> ar_data ar = None ->
    cli_cause su ar (txt "option.invalid") (txt "either --file or --data must be provided")
| NoFormat input message : given_text su ar input -> (forall f, ~ names_format (ar_format ar) f) ->
    cli_cause su ar (txt "format.unsupported") message
| NoKey input f value : given_text su ar input -> names_format (ar_format ar) f -> ar_key ar = Some value ->
    (forall k, ~ key_text (ar_key ar) k) ->
    cli_cause su ar (txt "option.invalid") (txt "key must contain exactly 32 hexadecimal characters")
| NoBytes input f k code offset message : given_text su ar input -> names_format (ar_format ar) f -> key_text (ar_key ar) k ->
    unread input code offset -> cli_cause su ar code message
| NoWidth input data k : given_text su ar input -> names_format (ar_format ar) FTable -> key_text (ar_key ar) k ->
    hex_input input data -> table_width su ar < 32 ->
    cli_cause su ar (txt "option.invalid") (txt "invalid table_width: must be at least 32 columns")
| NoRendering input data f k code layer message : given_text su ar input -> names_format (ar_format ar) f ->
    key_text (ar_key ar) k -> hex_input input data -> failure data k f code layer -> cli_cause su ar code message.

(** ** The Python module *)

(** the bytes that an argument stands for: as text, or as they are *)
Definition py_bytes (value : py_value) (data : list N) : Prop :=
  match value with
  | PyText t => hex_input t data
  | PyBytes b => data = b /\ b <> []
  | PyOther => False
  end.
Definition py_key (value : option py_value) (key : option (list N)) : Prop :=
  match value, key with
  | None, None => True
  | Some v, Some k => py_bytes v k /\ List.length k = 16%nat
  | _, _ => False
  end.
Definition py_complaint {A} (code message : text) : outcome py_error A :=
  Err (MbusParserError (txt "[" ++ code ++ txt "] " ++ message)).
(** an argument of this name that stands for no bytes *)
Definition py_refused {A} (name : string) (value : py_value) (answer : outcome py_error A) : Prop :=
  match value with
  | PyOther => answer = Err (TypeError (txt name ++ txt " must be a hexadecimal string or bytes-like object"))
  | PyBytes b => b = [] /\ answer = py_complaint (txt "input.empty") (txt "input must not be empty")
  | PyText t => exists code offset message, unread t code offset /\ answer = py_complaint code message
  end.

(** ** The JavaScript module *)

(** the key: none if the text is blank, else 16 bytes *)
Definition js_key_text (given : option text) (key : option (list N)) : Prop :=
  match key with
  | None => match given with None => True | Some t => Forall white t end
  | Some k => exists t, given = Some t /\ hex_input t k /\ List.length k = 16%nat
  end.
Definition js_complaint {A} (code layer message : text) (offset : option N) : outcome js_error A :=
  Err {| je_message := message; je_code := code; je_layer := layer; je_byte_offset := offset |}.

(** ** All of them: the same complaint, with the code, the layer to blame, the place and the message *)
Definition all_complain (python : list (outcome py_error text)) (javascript : outcome js_error text) (tool : outcome unit ending)
  (code layer message : text) (offset : option N) : Prop :=
  Forall (fun answer => answer = py_complaint code message) python /\
  javascript = js_complaint code layer message offset /\ tool = complaint code message.
