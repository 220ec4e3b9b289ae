(** Specification for key exchange. *)
From Verif Require Import Base KexModel.
Local Open Scope N_scope.

(** Three strings, each preceded by its length on two bytes. *)
Inductive is_field : bytes -> bytes -> Prop :=
| field hi lo s : hi < 256 -> lo < 256 -> nlen s = hi * 256 + lo -> is_field s (hi :: lo :: s).
Definition is_kex_string (x y r s : bytes) : Prop :=
  exists a b c, is_field x a /\ is_field y b /\ is_field r c /\ s = a ++ b ++ c.

(** What the curve must provide (hypotheses of C18): public keys are valid points of at most 66-byte
    coordinates, and multiplying each other's point by the own key gives the same point. *)
Record curve_laws (o : kex_ops) : Prop := {
  cl_valid : forall s k P, ec_pub o s k = Some P -> ec_valid o s P = true;
  cl_small : forall s k x y, ec_pub o s k = Some (x, y) -> x < 256 ^ 66 /\ y < 256 ^ 66;
  cl_commute : forall s k1 k2 P1 P2, ec_pub o s k1 = Some P1 -> ec_pub o s k2 = Some P2 -> ec_mul o s P2 k1 = ec_mul o s P1 k2
}.

(** A key exchange as KeyExchange::new (types.rs:1006-1022) makes it: an ECDH suite with a random of
    the suite's size, or a DH suite. *)
Definition fresh (k : kex) : Prop :=
  match k with
  | Ecdh Ecdh256 _ r => nlen r = 16
  | Ecdh Ecdh384 _ r => nlen r = 48
  | Dhkex DhkexId14 _ | Dhkex DhkexId15 _ => True
  | _ => False
  end.
Definition suite_of (k : kex) : kexsuite := match k with Ecdh s _ _ | Dhkex s _ => s end.
