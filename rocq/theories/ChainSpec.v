(** Specification for certificate chains. *)
From Verif Require Import Base TypesModel.
Local Open Scope N_scope.

(** [issuer] issued [cert]: the names match and the signature verifies under the issuer's key. *)
Definition linked (c : crypto) (cert issuer : bytes) : Prop :=
  c_issued c issuer cert = true /\
  exists k, c_cert_key c issuer = Some k /\ c_cert_verify c cert k = Some true.

(** The chain (leaf first) reaches a certificate in [T]: alone, or over an unbroken row of issuers. *)
Definition reaches (c : crypto) (T : bytes -> Prop) (ch : list bytes) (leaf : bytes) : Prop :=
  (ch = [leaf] /\ T leaf) \/
  (exists k root, (1 <= k)%nat /\ nth_error ch 0 = Some leaf /\ nth_error ch k = Some root /\ T root /\
     forall i a b, (i < k)%nat -> nth_error ch i = Some a -> nth_error ch (S i) = Some b -> linked c a b).

(** Nothing wrong, and nothing trusted, among the first [p] links. *)
Definition inconclusive (c : crypto) (T : bytes -> Prop) (ch : list bytes) (p : nat) : Prop :=
  forall i a b, (i < p)%nat -> nth_error ch i = Some a -> nth_error ch (S i) = Some b -> linked c a b /\ ~ T b.

(** A link at position [p] of the chain. *)
Definition link_at (ch : list bytes) (p : nat) (a b : bytes) : Prop :=
  nth_error ch p = Some a /\ nth_error ch (S p) = Some b.
