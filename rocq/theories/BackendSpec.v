(** What the servers' theorems use of a store: it makes nothing up.  Proved of both backends in BackendProofs.v. *)
From Verif Require Import Base ValueModel Text Assoc StoreModel StoreSpec Backend.
Local Open Scope N_scope.

Section laws.
Context {V W : Type} (be : backend V W) (cd : codec V) (keeps : W -> key -> V -> Prop) (okv : key -> V -> Prop).
(** [w'] keeps only what [w] keeps. *)
Definition forgets (w w' : W) : Prop := forall k v, plain_key k -> keeps w' k v -> keeps w k v.
(** Loading returns what is kept; storing adds what is read back from what was written; nothing else adds. *)
Record store_laws : Prop := {
  sl_load : forall now w k w' r, plain_key k -> b_load be now w k = (w', r) ->
    forgets w w' /\ (forall v, r = Ok (Some v) -> keeps w k v);
  sl_store : forall w k v w' r, plain_key k -> okv k v -> b_store be w k v = (w', r) ->
    forall k' v', plain_key k' -> keeps w' k' v' ->
      keeps w k' v' \/ (k' = k /\ exists data, ser cd v = Ok data /\ de cd data = Some v');
  sl_meta : forall now w k m x w' r, plain_key k -> b_meta be now w k m x = (w', r) -> forgets w w';
  sl_maint : forall now w w' r, b_maint be now w = (w', r) -> forgets w w'
}.
End laws.

(** What a directory, and a table, keep under a key. *)
Definition dir_keeps {V} (cd : codec V) (d : dir) (k : key) (v : V) : Prop :=
  exists f, In (get_path k, f) d /\ de cd (f_data f) = Some v.
Definition db_keeps {V} (cd : codec V) (t : table) (k : key) (v : V) : Prop :=
  exists r, In (k, r) t /\ de cd (r_contents r) = Some v.
