(** Shared vocabulary of the model: bytes, slices, outcomes, build settings.

    Nothing in this file models a particular function of /repo; it models the
    Rust primitives the functions are written with. *)
From Coq Require Export List NArith ZArith Bool.
Export ListNotations.
Open Scope N_scope.

(** A [u8]; the model keeps bytes as [N], [bytes_ok] says they are in range. *)
Notation byte := N (only parsing).
Notation bytes := (list N) (only parsing).
Definition byte_ok (b : N) : Prop := b < 256.
Definition bytes_ok (l : bytes) : Prop := Forall byte_ok l.

(** The panics of Rust that occur in the modelled code. *)
Inductive panic :=
| POverflow     (* arithmetic overflow in a build with overflow checks *)
| PIndex        (* slice or array index out of bounds *)
| PUnreachable  (* unreachable!() / todo!() *)
| PCapacity.    (* ArrayVec::push on a full vector *)

(** Result of a Rust function returning [Result<A, E>] that may also panic. *)
Inductive outcome (E A : Type) :=
| Ok (a : A)
| Err (e : E)
| Panic (p : panic).
Arguments Ok {E A} a.
Arguments Err {E A} e.
Arguments Panic {E A} p.

Definition bind {E A B} (x : outcome E A) (f : A -> outcome E B) : outcome E B :=
  match x with
  | Ok a => f a
  | Err e => Err e
  | Panic p => Panic p
  end.
Notation "x <- e ;; k" := (bind e (fun x => k))
  (at level 61, e at next level, right associativity).
Notation "' pat <- e ;; k" := (bind e (fun x => match x with pat => k end))
  (at level 61, pat pattern, e at next level, right associativity).

(** [opt.ok_or(e)?] *)
Definition ok_or {E A} (o : option A) (e : E) : outcome E A :=
  match o with Some a => Ok a | None => Err e end.

(** [res.map_err(f)?] / [From] conversion of an error by [?] *)
Definition map_err {E F A} (f : E -> F) (x : outcome E A) : outcome F A :=
  match x with Ok a => Ok a | Err e => Err (f e) | Panic p => Panic p end.

Definition is_panic {E A} (x : outcome E A) : Prop := exists p, x = Panic p.
Definition is_ok {E A} (x : outcome E A) : Prop := exists a, x = Ok a.
Definition is_err {E A} (x : outcome E A) : Prop := exists e, x = Err e.

(** Build settings on which behaviour depends.
    [overflow_checks]: true in debug builds, false in release builds
    (/repo/Cargo.toml does not enable overflow-checks for release).
    [plaintext_before_extension]: the cargo feature of the same name
    (/repo/Cargo.toml [features]). *)
Record config := {
  overflow_checks : bool;
  plaintext_before_extension : bool
}.

(** Slices: [s.len()], [s.get(i)], [s.get(a..)], [s.get(..b)], [s.get(a..b)]. *)
Definition len {A} (l : list A) : N := N.of_nat (length l).
Definition get {A} (l : list A) (i : N) : option A := nth_error l (N.to_nat i).
Definition get_from {A} (l : list A) (a : N) : option (list A) :=
  if a <=? len l then Some (skipn (N.to_nat a) l) else None.
Definition get_to {A} (l : list A) (b : N) : option (list A) :=
  if b <=? len l then Some (firstn (N.to_nat b) l) else None.
Definition get_range {A} (l : list A) (a b : N) : option (list A) :=
  if (a <=? b) && (b <=? len l)
  then Some (firstn (N.to_nat (b - a)) (skipn (N.to_nat a) l)) else None.
Definition last_opt {A} (l : list A) : option A :=
  match l with [] => None | _ => nth_error l (length l - 1) end.

(** Indexing with panics: [s[i]], [&s[a..b]]. *)
Definition index {E A} (l : list A) (i : N) : outcome E A :=
  match get l i with Some a => Ok a | None => Panic PIndex end.
Definition index_range {E A} (l : list A) (a b : N) : outcome E (list A) :=
  match get_range l a b with Some s => Ok s | None => Panic PIndex end.

(** [a - b] on usize (64 bit). *)
Definition sub_usize {E} (cf : config) (a b : N) : outcome E N :=
  if b <=? a then Ok (a - b)
  else if overflow_checks cf then Panic POverflow
  else Ok (a + 2 ^ 64 - b).

(** Bit tests and fields of small words. *)
Definition bit (n i : N) : bool := N.testbit n i.
Definition u16_le (lo hi : N) : N := lo + 256 * hi.
Definition u16_be (hi lo : N) : N := 256 * hi + lo.
Definition u32_le (a b c d : N) : N := a + 256 * b + 65536 * c + 16777216 * d.
