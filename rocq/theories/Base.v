(** Common vocabulary: results with explicit panics, bytes, big-endian numbers. *)
From Coq Require Export List NArith ZArith Lia Bool Arith.
Export ListNotations.

(** A Rust call: a value, an error value, or a panic (unwinding).
    [P] is a short label telling which panic it is. *)
Inductive outcome (E A : Type) : Type :=
| Ok (a : A)
| Err (e : E)
| Panic (why : N).
Arguments Ok {E A} a.
Arguments Err {E A} e.
Arguments Panic {E A} why.

Definition bind {E A B} (x : outcome E A) (f : A -> outcome E B) : outcome E B :=
  match x with
  | Ok a => f a
  | Err e => Err e
  | Panic w => Panic w
  end.
Notation "'let!' x ':=' c1 'in' c2" := (bind c1 (fun x => c2))
  (at level 61, x pattern, c1 at next level, right associativity).

Definition map_err {E F A} (f : E -> F) (x : outcome E A) : outcome F A :=
  match x with Ok a => Ok a | Err e => Err (f e) | Panic w => Panic w end.

Definition of_option {E A} (e : E) (x : option A) : outcome E A :=
  match x with Some a => Ok a | None => Err e end.

Definition unwrap {E A} (why : N) (x : option A) : outcome E A :=
  match x with Some a => Ok a | None => Panic why end.

Definition is_ok {E A} (x : outcome E A) : bool :=
  match x with Ok _ => true | _ => false end.

(** Bytes are numbers; [bytes_ok] says they are really bytes. *)
Definition bytes := list N.
Definition bytes_ok (b : bytes) : Prop := Forall (fun x => (x < 256)%N) b.

(** Length of a list as an [N]. *)
Definition nlen {A} (l : list A) : N := N.of_nat (length l).

(** Big-endian decoding of a byte string. *)
Definition be_dec (b : bytes) : N := fold_left (fun acc x => (acc * 256 + x)%N) b 0%N.

(** Big-endian encoding of [v] on [k] bytes (high bytes cut off). *)
Fixpoint be_enc (k : nat) (v : N) : bytes :=
  match k with
  | O => []
  | S k' => be_enc k' (v / 256)%N ++ [(v mod 256)%N]
  end.

Fixpoint list_eqb {A} (eqb : A -> A -> bool) (x y : list A) : bool :=
  match x, y with
  | [], [] => true
  | a :: x', b :: y' => eqb a b && list_eqb eqb x' y'
  | _, _ => false
  end.
Definition bytes_eqb : bytes -> bytes -> bool := list_eqb N.eqb.

Definition option_eqb {A} (eqb : A -> A -> bool) (x y : option A) : bool :=
  match x, y with
  | None, None => true
  | Some a, Some b => eqb a b
  | _, _ => false
  end.
