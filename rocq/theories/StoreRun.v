(** Runs of the store models over operation sequences. *)
From Verif Require Import Base ValueModel Text Assoc StoreModel StoreSpec.
Local Open Scope N_scope.

Definition ans_unit {V} (o : outcome serr unit) : answer V :=
  match o with Ok _ => ADone | Err _ => AFail | Panic _ => APanic end.
Definition ans_val {V} (o : outcome serr (option V)) : answer V :=
  match o with Ok v => AVal v | Err _ => AFail | Panic _ => APanic end.
Definition ans_list {V} (o : outcome serr (list V)) : answer V :=
  match o with Ok v => AList v | Err _ => AFail | Panic _ => APanic end.
Definition mk (a : attr) : mkey := match a with AExp => Ttl | ATo2 => To2Performed | ATo0 => To0Wait end.

Section run.
Context {V : Type} (c : codec V).

(** Values that can be written and read back. *)
Definition storable (v : V) : Prop := exists data, ser c v = Ok data /\ de c data = Some v.
Definition op_value_ok (o : op V) : Prop :=
  match o with OStore _ v | OCrash _ v _ => storable v | _ => True end.

(** The owner's query (owner-onboarding-server/src/main.rs:121-133). *)
Definition owner_query (now : N) (d : dir) : outcome serr (list V) :=
  dir_query c [(To2Performed, to_stored now (MBool true))] [(To0Wait, Z.of_N (unix_timestamp now))] d.

(** A store interrupted after [written] bytes (directory.rs:347-361). *)
Definition dir_crash (d : dir) (k : str) (v : V) (written : option N) : dir :=
  let tmp := tmp_of (get_path k) in
  match ser c v, written with
  | Ok data, None => fs_rename tmp (get_path k) (fs_write tmp data (fs_create tmp d))
  | Ok data, Some n => fs_write tmp (firstn (N.to_nat n) data) (fs_create tmp d)
  | _, _ => fs_create tmp d
  end.

Definition dir_step (s : N * dir) (o : op V) : N * dir * answer V :=
  let '(now, d) := s in
  match o with
  | OStore k v => let '(d', a) := dir_store c d k v in (now, d', ans_unit a)
  | OCrash k v w => (now, dir_crash d k v w, APanic)
  | OLoad k => let '(d', a) := dir_load c now d k in (now, d', ans_val a)
  | ODestroy k => let '(d', a) := dir_destroy d k in (now, d', ans_unit a)
  | OExpire k s => let '(d', a) := dir_set_meta now d k Ttl (MDur s) in (now, d', ans_unit a)
  | OTo0 k s => let '(d', a) := dir_set_meta now d k To0Wait (MDur s) in (now, d', ans_unit a)
  | OTo2 k b => let '(d', a) := dir_set_meta now d k To2Performed (MBool b) in (now, d', ans_unit a)
  | ODel k a => let '(d', a) := dir_del_meta d k (mk a) in (now, d', ans_unit a)
  | OMaint => let '(d', a) := dir_maint now d in (now, d', ans_unit a)
  | OTick t => (now + t, d, ADone)
  | ODue => (now, d, ans_list (owner_query now d))
  | OAll => (now, d, ans_list (dir_load_all c d))
  end.
Fixpoint dir_run (s : N * dir) (os : list (op V)) : list (answer V) :=
  match os with
  | [] => []
  | o :: r => let '(now, d, a) := dir_step s o in a :: dir_run (now, d) r
  end.
Fixpoint dir_final (s : N * dir) (os : list (op V)) : N * dir :=
  match os with
  | [] => s
  | o :: r => let '(now, d, a) := dir_step s o in dir_final (now, d) r
  end.

(** Operation sequences over the keys [K], with writable values and times below 2^63 seconds. *)
Definition usable (K : key -> Prop) (lo : bool) (now : N) (os : list (op V)) : Prop :=
  (forall o k, In o os -> op_key o = Some k -> K k) /\ Forall op_value_ok os /\ Forall (op_allowed lo) os /\ times_ok now os.

Context (guid_of : V -> str) (sty : server_type).
(** An interrupted INSERT takes place or not. *)
Definition db_step (s : N * table) (o : op V) : N * table * answer V :=
  let '(now, t) := s in
  match o with
  | OStore k v => let '(t', a) := db_store c guid_of sty t k v in (now, t', ans_unit a)
  | OCrash k v (Some _) => (now, t, APanic)
  | OCrash k v None => (now, fst (db_store c guid_of sty t k v), APanic)
  | OLoad k => (now, t, ans_val (db_load c t k))
  | ODestroy k => let '(t', a) := db_destroy t k in (now, t', ans_unit a)
  | OExpire k s => let '(t', a) := db_set_meta sty now t k Ttl (MDur s) in (now, t', ans_unit a)
  | OTo0 k s => let '(t', a) := db_set_meta sty now t k To0Wait (MDur s) in (now, t', ans_unit a)
  | OTo2 k b => let '(t', a) := db_set_meta sty now t k To2Performed (MBool b) in (now, t', ans_unit a)
  | ODel k a => let '(t', a) := db_del_meta sty t k (mk a) in (now, t', ans_unit a)
  | OMaint => let '(t', a) := db_maint sty now t in (now, t', ans_unit a)
  | OTick d => (now + d, t, ADone)
  | ODue => (now, t, ans_list (db_query_ovs c sty now t))
  | OAll => (now, t, ans_list (db_load_all c t))
  end.
Fixpoint db_run (s : N * table) (os : list (op V)) : list (answer V) :=
  match os with
  | [] => []
  | o :: r => let '(now, t, a) := db_step s o in a :: db_run (now, t) r
  end.

(** In which situations an operation fits a database. *)
Definition db_guard (s : N * amap V) (o : op V) : Prop :=
  let '(now, m) := s in
  match o with
  | OStore k v => m k = None /\ (sty = Rendezvous \/ k = guid_of v)
  | OCrash _ _ _ => False
  | OLoad k => exists r, m k = Some r /\ expired now r = false
  | ODestroy k => m k <> None
  | OExpire _ _ => sty <> Owner
  | OTo0 _ _ | OTo2 _ _ => sty = Owner
  | ODel k a => m k = None \/ exists r, m k = Some r /\
                match a with
                | AExp => sty <> Owner /\ a_exp r <> None
                | ATo2 => sty = Owner /\ a_to2 r <> None /\ a_to0 r = None
                | ATo0 => sty = Owner /\ a_to0 r <> None /\ a_to2 r = None
                end
  | OMaint | OTick _ | OAll => True
  | ODue => sty = Owner
  end.
Inductive db_fits : N * amap V -> list (op V) -> Prop :=
| FitsNil s : db_fits s []
| FitsCons s o os : db_guard s o -> (forall a s', step s o a s' -> db_fits s' os) -> db_fits s (o :: os).
End run.

(** The file names of the keys in [K] differ from each other and from each other's temporary files. *)
Definition distinct_names (K : key -> Prop) : Prop :=
  (forall k k', K k -> K k' -> get_path k = get_path k' -> k = k') /\
  (forall k k', K k -> K k' -> get_path k <> tmp_of (get_path k')).
