(** The store a server uses, as the operations it calls; the two backends of StoreModel.v as instances. *)
From Verif Require Import Base ValueModel Text Assoc StoreModel.
Local Open Scope N_scope.

(** store/src/lib.rs: load_data, store_data, store_metadata, perform_maintenance; the time where it is used *)
Record backend (V W : Type) := Backend {
  b_load : N -> W -> str -> W * outcome serr (option V);
  b_store : W -> str -> V -> W * outcome serr unit;
  b_meta : N -> W -> str -> mkey -> mvalue -> W * outcome serr unit;
  b_maint : N -> W -> W * outcome serr unit
}.
Arguments Backend {V W}. Arguments b_load {V W}. Arguments b_store {V W}. Arguments b_meta {V W}. Arguments b_maint {V W}.

(** store/src/directory.rs *)
Definition dir_backend {V} (c : codec V) : backend V dir := Backend (dir_load c) (dir_store c) dir_set_meta dir_maint.
(** store/src/sqlite.rs, pg.rs *)
Definition db_backend {V} (c : codec V) (guid_of : V -> str) (sty : server_type) : backend V table :=
  Backend (fun _ t k => (t, db_load c t k)) (db_store c guid_of sty) (db_set_meta sty) (db_maint sty).
