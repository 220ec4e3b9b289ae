(** What the theorems assume of cryptography, when they assume anything.  Each is a plain
    hypothesis of the theorems that use it; [toy] (ToyCrypto.v) satisfies them all. *)
From Verif Require Import Base TypesModel.
Local Open Scope N_scope.

(** A signature made with a private key verifies under its public half. *)
Definition sign_correct (c : crypto) : Prop :=
  forall sk m r, c_verify c (c_pub c sk) m (c_sign c sk m r) = true.

(** Outputs are byte strings of moderate size; algorithm numbers fit in 32 bits. *)
Definition outputs_ok (c : crypto) : Prop :=
  (forall t d, bytes_ok (c_hash c t d) /\ nlen (c_hash c t d) <= 1024) /\
  (forall sk m r, bytes_ok (c_sign c sk m r) /\ nlen (c_sign c sk m r) <= 65536) /\
  (forall k a, c_alg c k = Some a -> (-2147483648 <= a < 2147483648)%Z).

(** Two different strings with the same digest. *)
Definition collision (c : crypto) : Prop :=
  exists t x y, x <> y /\ c_hash c t x = c_hash c t y.

(** Values of moderate size that mean what they say. *)

(** A public key as the program builds it: its cached key is the one its data contains. *)
Definition pubkey_valid (c : crypto) (p : pubkey) : Prop :=
  is_pk_type (pk_type p) = true /\ is_pk_enc (pk_enc p) = true /\ bytes_ok (pk_data p) /\
  pubkey_new c (pk_type p) (pk_enc p) (pk_data p) = Ok p.

Definition rv_ok (r : rv_info) : Prop :=
  nlen r < 4294967296 /\
  Forall (fun d => nlen d < 4294967296 /\
    Forall (fun i => fst i <= 14 /\ bytes_ok (snd i) /\ nlen (snd i) < 4294967296) d) r.

Definition chain_ok (c : crypto) (ch : x5chain) : Prop :=
  nlen ch < 4294967296 /\
  Forall (fun b => bytes_ok b /\ nlen b < 4294967296 /\ c_cert_of_der c b = Some b) ch.

Definition hash_small (h : hash) : Prop := bytes_ok (h_value h) /\ nlen (h_value h) < 4294967296.

(** [key] is the key that data in an encoding (1: a DER key; 2: a certificate chain) stands for. *)
Definition encodes_key (c : crypto) (encoding : N) (data : bytes) (certs : option x5chain) (key : bytes) : Prop :=
  (encoding = 1 /\ certs = None /\ c_key_of_der c data = Some key) \/
  (encoding = 2 /\ exists leaf rest, certs = Some (leaf :: rest) /\
     from_slice (as_x5chain c) data = Ok (leaf :: rest) /\ c_cert_key c leaf = Some key).
