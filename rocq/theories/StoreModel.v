(** The stores (store/src): directory backend and database backends. *)
From Verif Require Import Base ValueModel Text Assoc.
Local Open Scope N_scope.

(** Time is in nanoseconds since the epoch. *)
Definition SEC : N := 1000000000.
Definition unix_timestamp (now : N) : N := now / SEC.

(** Little-endian numbers (i64::to_le_bytes, u64::from_le_bytes). *)
Fixpoint le_enc (k : nat) (v : N) : bytes :=
  match k with O => [] | S k' => (v mod 256) :: le_enc k' (v / 256) end.
Fixpoint le_dec (b : bytes) : N := match b with [] => 0 | x :: r => x + 256 * le_dec r end.

(** store/src/lib.rs:9-19 *)
Inductive serr := SUnspecified | SNotAvailable | SDatabase.

(** store/src/lib.rs:47-70: the metadata values that occur; a duration is relative to now.
    [to_stored] (bool: its text; duration: 8 bytes little-endian seconds) and [to_text]. *)
Inductive mvalue := MBool (b : bool) | MDur (secs : N).
Definition bool_text (b : bool) : str := if b then txt "true" else txt "false".
Definition deadline (now secs : N) : N := unix_timestamp (now + secs * SEC).
Definition to_stored (now : N) (m : mvalue) : bytes :=
  match m with MBool b => bool_text b | MDur s => le_enc 8 (deadline now s) end.

(** store/src/lib.rs:77-89 and util/src/servers/mod.rs:24-34 *)
Inductive mkey := Ttl | To2Performed | To0Wait.
Definition mkey_name (k : mkey) : str :=
  match k with
  | Ttl => txt "store_ttl"
  | To2Performed => txt "fdo.to2_performed"
  | To0Wait => txt "fdo.to0_accept_owner_wait_seconds"
  end.
(** directory.rs:88-90 *)
Definition format_xattr (k : str) : str := txt "user." ++ k.
Definition xname (k : mkey) : str := format_xattr (mkey_name k).

(** What [Serializable] gives for the stored type. *)
Record codec (V : Type) := Codec { ser : V -> outcome serr bytes; de : bytes -> option V }.
Arguments ser {V}. Arguments de {V}. Arguments Codec {V}.

(** * The directory backend (store/src/directory.rs) *)
(** The regular files of the directory, with their extended attributes. *)
Record file := File { f_data : bytes; f_xattr : list (name * bytes) }.
Definition dir := list (name * file).

(** directory.rs:65-67 *)
Definition get_path (key : str) : name := flat_map (fun c => if c =? 47 then txt "_slash_" else [c]) key.
(** directory.rs:335-340 *)
Definition tmp_of (n : name) : name := txt "." ++ n ++ txt ".tmp".

(** directory.rs:71-80.  Adding more than i64::MAX seconds to the epoch panics. *)
Definition P_TIME : N := 20.
Definition ttl_from_disk (t : bytes) : outcome serr N :=
  if negb (nlen t =? 8) then Err SUnspecified
  else if 2 ^ 63 <=? le_dec t then Panic P_TIME else Ok (le_dec t * SEC).

Section dir.
Context {V : Type} (c : codec V).

(** directory.rs:231-258 *)
Definition dir_load (now : N) (d : dir) (key : str) : dir * outcome serr (option V) :=
  match aget (get_path key) d with
  | None => (d, Ok None)
  | Some f =>
    let read := match de c (f_data f) with Some v => Ok (Some v) | None => Err SUnspecified end in
    match aget (xname Ttl) (f_xattr f) with
    | None => (d, read)
    | Some t =>
      match ttl_from_disk t with
      | Err e => (d, Err e)
      | Panic w => (d, Panic w)
      | Ok ttl => if ttl <? now then (adel (get_path key) d, Ok None) else (d, read)
      end
    end
  end.

(** directory.rs:260-287 *)
Definition dir_set_meta (now : N) (d : dir) (key : str) (k : mkey) (v : mvalue) : dir * outcome serr unit :=
  match aget (get_path key) d with
  | None => (d, Ok tt)
  | Some f => (aset (get_path key) (File (f_data f) (aset (xname k) (to_stored now v) (f_xattr f))) d, Ok tt)
  end.

(** directory.rs:289-312; removing an absent attribute is an error (ENODATA) *)
Definition dir_del_meta (d : dir) (key : str) (k : mkey) : dir * outcome serr unit :=
  match aget (get_path key) d with
  | None => (d, Ok tt)
  | Some f =>
    match aget (xname k) (f_xattr f) with
    | None => (d, Err SUnspecified)
    | Some _ => (aset (get_path key) (File (f_data f) (adel (xname k) (f_xattr f))) d, Ok tt)
    end
  end.

(** directory.rs:334-362 in steps.  File::create truncates an existing file and keeps its attributes. *)
Definition fs_create (n : name) (d : dir) : dir :=
  aset n (File [] match aget n d with Some f => f_xattr f | None => [] end) d.
Definition fs_write (n : name) (content : bytes) (d : dir) : dir :=
  match aget n d with Some f => aset n (File content (f_xattr f)) d | None => d end.
Definition fs_rename (a b : name) (d : dir) : dir :=
  match aget a d with Some f => aset b f (adel a d) | None => d end.
(** Serialization errors leave what had been written; modelled as the empty file. *)
Definition dir_store (d : dir) (key : str) (v : V) : dir * outcome serr unit :=
  let final := get_path key in
  let tmp := tmp_of final in
  let d1 := fs_create tmp d in
  match ser c v with
  | Err e => (d1, Err e)
  | Panic w => (d1, Panic w)
  | Ok data => (fs_rename tmp final (fs_write tmp data d1), Ok tt)
  end.
(** The states in which the process can die during [dir_store]: before, with any prefix of the data
    in the temporary file, or after the rename. *)
Inductive store_crash (d : dir) (key : str) (data : bytes) : dir -> Prop :=
| CrashBefore : store_crash d key data d
| CrashWriting written rest : data = written ++ rest ->
    store_crash d key data (fs_write (tmp_of (get_path key)) written (fs_create (tmp_of (get_path key)) d))
| CrashAfter :
    store_crash d key data (fs_rename (tmp_of (get_path key)) (get_path key)
                              (fs_write (tmp_of (get_path key)) data (fs_create (tmp_of (get_path key)) d))).

(** directory.rs:364-371 *)
Definition dir_destroy (d : dir) (key : str) : dir * outcome serr unit :=
  match aget (get_path key) d with
  | None => (d, Err SUnspecified)
  | Some _ => (adel (get_path key) d, Ok tt)
  end.

(** directory.rs:373-425; the order of read_dir is the list's. *)
Fixpoint maint_loop (now : N) (l : dir) : dir * outcome serr unit :=
  match l with
  | [] => ([], Ok tt)
  | (n, f) :: r =>
    match aget (xname Ttl) (f_xattr f) with
    | None => let '(r', o) := maint_loop now r in ((n, f) :: r', o)
    | Some t =>
      match ttl_from_disk t with
      | Err e => (l, Err e)
      | Panic w => (l, Panic w)
      | Ok ttl =>
        let '(r', o) := maint_loop now r in
        (if now <? ttl then (n, f) :: r' else r', o)
      end
    end
  end.
Definition dir_maint (now : N) (d : dir) : dir * outcome serr unit := maint_loop now d.

(** directory.rs:210-229 *)
Fixpoint dir_load_all (l : dir) : outcome serr (list V) :=
  match l with
  | [] => Ok []
  | (_, f) :: r =>
    match de c (f_data f) with
    | None => Err SUnspecified
    | Some v => let! vs := dir_load_all r in Ok (v :: vs)
    end
  end.

(** directory.rs:98-104: the filter's conditions *)
Definition count_match (e v : bytes) : N := nlen (filter (fun p => fst p =? snd p) (combine e v)).
(** directory.rs:139-157: does the file differ in one of the attributes? *)
Definition neq_holds (f : file) (n : mkey * bytes) : bool :=
  match aget (xname (fst n)) (f_xattr f) with
  | Some v => negb (nlen (snd n) =? count_match (snd n) v)
  | None => true
  end.
(** directory.rs:158-177; [unwrap] panics unless the attribute has 8 bytes; i64 comparison *)
Definition P_I64 : N := 21.
Definition i64_dec (b : bytes) : Z := let v := Z.of_N (le_dec b) in if (v <? 2 ^ 63)%Z then v else (v - 2 ^ 64)%Z.
Fixpoint lt_holds (f : file) (l : list (mkey * Z)) : outcome serr bool :=
  match l with
  | [] => Ok false
  | (k, max) :: r =>
    match aget (xname k) (f_xattr f) with
    | None => let! _ := lt_holds f r in Ok true
    | Some v =>
      if negb (nlen v =? 8) then Panic P_I64
      else let! b := lt_holds f r in Ok ((i64_dec v <? max)%Z || b)
    end
  end.
Fixpoint dir_query (neqs : list (mkey * bytes)) (lts : list (mkey * Z)) (l : dir) : outcome serr (list V) :=
  match l with
  | [] => Ok []
  | (_, f) :: r =>
    if existsb (neq_holds f) neqs then
      let! sel := lt_holds f lts in
      let! vs := dir_query neqs lts r in
      Ok (if sel : bool then match de c (f_data f) with Some v => v :: vs | None => vs end else vs)
    else dir_query neqs lts r
  end.
End dir.

(** * The database backends (store/src/sqlite.rs and pg.rs, which agree up to the connection type;
    db/src/sqlite.rs, db/src/postgres.rs; migrations: guid is the primary key) *)
Record row := Row { r_contents : bytes; r_to2 : option bool; r_to0 : option Z; r_ttl : option Z }.
Definition table := list (name * row).
Inductive server_type := Manufacturer | Owner | Rendezvous.

(** .expect(...) on a failed query or conversion *)
Definition P_EXPECT : N := 22.

Section db.
Context {V : Type} (c : codec V) (guid_of : V -> str) (sty : server_type).

(** sqlite.rs:79-90, 228-238, 437-447: selecting a missing row is an error, which is [expect]ed away;
    the expiry is not looked at. *)
Definition db_load (t : table) (key : str) : outcome serr (option V) :=
  match aget key t with
  | None => Panic P_EXPECT
  | Some r => match de c (r_contents r) with Some v => Ok (Some v) | None => Err SUnspecified end
  end.

(** sqlite.rs:153-166, 366-379 (the voucher's own GUID is the key), 510-524 (the given key);
    re-reading the serialized value before inserting is not modelled (C12 for vouchers).  INSERT fails
    on an existing key. *)
Definition db_store (t : table) (key : str) (v : V) : table * outcome serr unit :=
  match ser c v with
  | Err _ | Panic _ => (t, Panic P_EXPECT)
  | Ok data =>
    let k := match sty with Rendezvous => key | _ => guid_of v end in
    match aget k t with
    | Some _ => (t, Err SDatabase)
    | None => (t ++ [(k, Row data None None None)], Ok tt)
    end
  end.

Definition update (t : table) (key : str) (f : row -> row) : table :=
  match aget key t with Some r => aset key (f r) t | None => t end.

(** [to_text] then [parse]: sqlite.rs:92-113, 240-286, 449-470 *)
Definition db_set_meta (now : N) (t : table) (key : str) (k : mkey) (v : mvalue) : table * outcome serr unit :=
  match sty with
  | Owner =>
    match k with
    | To2Performed =>
      match v with
      | MBool b => (update t key (fun r => Row (r_contents r) (Some b) (r_to0 r) (r_ttl r)), Ok tt)
      | MDur _ => (t, Panic P_EXPECT)
      end
    | To0Wait =>
      match v with
      | MDur s => (update t key (fun r => Row (r_contents r) (r_to2 r) (Some (Z.of_N (deadline now s))) (r_ttl r)), Ok tt)
      | MBool _ => (t, Panic P_EXPECT)
      end
    | Ttl => (t, Err SUnspecified)
    end
  | _ =>
    match v with
    | MDur s => (update t key (fun r => Row (r_contents r) (r_to2 r) (r_to0 r) (Some (Z.of_N (deadline now s)))), Ok tt)
    | MBool _ => (t, Panic P_EXPECT)
    end
  end.

(** sqlite.rs:115-132, 288-310, 472-489: the metadata key is ignored *)
Definition db_del_meta (t : table) (key : str) (k : mkey) : table * outcome serr unit :=
  (update t key (fun r => match sty with
                          | Owner => Row (r_contents r) None None (r_ttl r)
                          | _ => Row (r_contents r) (r_to2 r) (r_to0 r) None
                          end), Ok tt).

(** sqlite.rs:168-179, 381-392, 526-537: DELETE of a missing row succeeds *)
Definition db_destroy (t : table) (key : str) : table * outcome serr unit := (adel key t, Ok tt).

(** sqlite.rs:181-190, 394-399, 539-548; NULL <= now is not true *)
Definition db_maint (now : N) (t : table) : table * outcome serr unit :=
  match sty with
  | Owner => (t, Ok tt)
  | _ => (filter (fun e => match r_ttl (snd e) with
                           | Some x => negb (x <=? Z.of_N (unix_timestamp now))%Z
                           | None => true
                           end) t, Ok tt)
  end.

(** db/src/sqlite.rs:154-177 *)
Definition db_selects (to2 : bool) (to0_max : Z) (r : row) : bool :=
  match r_to0 r with None => true | Some x => (x <? to0_max)%Z end &&
  match r_to2 r with None => true | Some b => Bool.eqb b to2 end.
Fixpoint de_all (l : list bytes) : outcome serr (list V) :=
  match l with
  | [] => Ok []
  | b :: r => match de c b with
              | None => Err SUnspecified
              | Some v => let! vs := de_all r in Ok (v :: vs)
              end
  end.
(** sqlite.rs:316-338 *)
Definition db_query_ovs (now : N) (t : table) : outcome serr (list V) :=
  match sty with
  | Owner => de_all (map (fun e => r_contents (snd e)) (filter (fun e => db_selects false (Z.of_N (unix_timestamp now)) (snd e)) t))
  | _ => Err SNotAvailable
  end.
(** sqlite.rs:340-364: [to2] is not used *)
Definition db_query_window (to2 : bool) (to0_max : Z) (t : table) : outcome serr (list V) :=
  match sty with
  | Owner => de_all (map (fun e => r_contents (snd e)) (filter (fun e => db_selects false to0_max (snd e)) t))
  | _ => Err SNotAvailable
  end.
(** sqlite.rs:64-77 *)
Definition db_load_all (t : table) : outcome serr (list V) := de_all (map (fun e => r_contents (snd e)) t).
End db.
