(** The directory store, system call by system call, with calls of several tasks under way at once
    (store/src/directory.rs).  The servers run on tokio's threads (rendezvous-server/src/main.rs:39-60 and
    owner-onboarding-server/src/main.rs:317-345 clean up while requests are served), so that the system calls
    of one store call and those of another may come in any order. *)
From Verif Require Import Base ValueModel Text Assoc StoreModel.
Local Open Scope N_scope.

(** A directory: names for files, and the files.  A file stays readable to those who opened it when its name
    is given to another one or taken away. *)
Record fs := Fs { fs_names : list (name * N); fs_file : N -> file; fs_next : N }.
Definition put (i : N) (f : file) (g : N -> file) : N -> file := fun j => if j =? i then f else g j.
(** A directory with given files. *)
Fixpoint mkfs (d : dir) : fs :=
  match d with
  | [] => Fs [] (fun _ => File [] []) 0
  | (n, f) :: r => let s := mkfs r in Fs ((n, fs_next s) :: fs_names s) (put (fs_next s) f (fs_file s)) (fs_next s + 1)
  end.
Definition file_at (s : fs) (n : name) : option file := option_map (fs_file s) (aget n (fs_names s)).

(** The system calls used: open(2) with O_CREAT|O_TRUNC (File::create) truncates an existing file and keeps its
    attributes; write(2) at the writer's own offset; rename(2); unlink(2).  Of their errors only ENOENT is modelled. *)
Definition sys_create (n : name) (s : fs) : fs * N :=
  match aget n (fs_names s) with
  | Some i => (Fs (fs_names s) (put i (File [] (f_xattr (fs_file s i))) (fs_file s)) (fs_next s), i)
  | None => (Fs (aset n (fs_next s) (fs_names s)) (put (fs_next s) (File [] []) (fs_file s)) (fs_next s + 1), fs_next s)
  end.
Definition write_at (off : nat) (chunk data : bytes) : bytes :=
  firstn off (data ++ repeat 0 (off - length data)) ++ chunk ++ skipn (off + length chunk) data.
Definition sys_write (i : N) (off : nat) (chunk : bytes) (s : fs) : fs :=
  let f := fs_file s i in
  Fs (fs_names s) (put i (File (write_at off chunk (f_data f)) (f_xattr f)) (fs_file s)) (fs_next s).
Definition sys_rename (a b : name) (s : fs) : option fs :=
  match aget a (fs_names s) with
  | Some i => Some (Fs (aset b i (adel a (fs_names s))) (fs_file s) (fs_next s))
  | None => None
  end.
Definition sys_unlink (n : name) (s : fs) : option fs :=
  match aget n (fs_names s) with
  | Some _ => Some (Fs (adel n (fs_names s)) (fs_file s) (fs_next s))
  | None => None
  end.
Definition set_attrs (i : N) (f : list (name * bytes) -> list (name * bytes)) (s : fs) : fs :=
  Fs (fs_names s) (put i (File (f_data (fs_file s i)) (f (f_xattr (fs_file s i)))) (fs_file s)) (fs_next s).

(** The calls.  [QSweep n] is one iteration of the loop of [perform_maintenance] (directory.rs:385-422), for one of
    the names that reading the directory gave; listing and querying are not modelled here. *)
Inductive qop (V : Type) :=
| QStore (k : str) (v : V)
| QLoad (k : str)
| QMeta (k : str) (m : mkey) (x : mvalue)
| QDelMeta (k : str) (m : mkey)
| QDestroy (k : str)
| QSweep (n : name).
Arguments QStore {V}. Arguments QLoad {V}. Arguments QMeta {V}. Arguments QDelMeta {V}. Arguments QDestroy {V}. Arguments QSweep {V}.

(** Where a call is: before its first system call; writing (the open file, the offset, what is left); having
    opened a file; reading (the file, when its expiry was looked at, what has been read); about to remove an expired
    file (when that was found). *)
Inductive pc :=
| Fresh
| Writing (i : N) (off : nat) (rest : bytes)
| Opened (i : N)
| Reading (i : N) (checked : N) (got : bytes)
| Removing (checked : N).

(** What a call returns; those that return nothing return [Ok None] here. *)
Definition reply V := outcome serr (option V).

Section overlap.
Context {V : Type} (c : codec V).

(** One system call of a call under way, at time [now]; [k] is how much a read or write transfers, less one.
    - QStore: directory.rs:334-362; ciborium writes piece by piece.  A value that does not serialize leaves the
      empty file;
    - QLoad: 231-258; the file is read to its end, then decoded;
    - QMeta 260-287, QDelMeta 289-312, QDestroy 364-371, QSweep 385-422. *)
Definition advance (s : fs) (o : qop V) (p : pc) (k : nat) (now : N) : fs * (pc + reply V) :=
  match o, p with
  | QStore key v, Fresh =>
    let '(s1, i) := sys_create (tmp_of (get_path key)) s in
    match ser c v with
    | Ok data => (s1, inl (Writing i 0 data))
    | Err e => (s1, inr (Err e))
    | Panic w => (s1, inr (Panic w))
    end
  | QStore key v, Writing i off rest =>
    match rest with
    | [] => match sys_rename (tmp_of (get_path key)) (get_path key) s with
            | Some s' => (s', inr (Ok None))
            | None => (s, inr (Err SUnspecified))
            end
    | _ => let chunk := firstn (S k) rest in
           (sys_write i off chunk s, inl (Writing i (off + length chunk) (skipn (S k) rest)))
    end
  | QLoad key, Fresh =>
    match aget (get_path key) (fs_names s) with
    | None => (s, inr (Ok None))
    | Some i => (s, inl (Opened i))
    end
  | QLoad key, Opened i =>
    match aget (xname Ttl) (f_xattr (fs_file s i)) with
    | None => (s, inl (Reading i now []))
    | Some t =>
      match ttl_from_disk t with
      | Err e => (s, inr (Err e))
      | Panic w => (s, inr (Panic w))
      | Ok ttl => (s, inl (if ttl <? now then Removing now else Reading i now []))
      end
    end
  | QLoad key, Reading i t got =>
    match skipn (length got) (f_data (fs_file s i)) with
    | [] => (s, inr match de c got with Some v => Ok (Some v) | None => Err SUnspecified end)
    | rest => (s, inl (Reading i t (got ++ firstn (S k) rest)))
    end
  | QLoad key, Removing _ =>
    (match sys_unlink (get_path key) s with Some s' => s' | None => s end, inr (Ok None))
  | QMeta key _ _, Fresh | QDelMeta key _, Fresh =>
    match aget (get_path key) (fs_names s) with
    | None => (s, inr (Ok None))
    | Some i => (s, inl (Opened i))
    end
  | QMeta key m x, Opened i => (set_attrs i (aset (xname m) (to_stored now x)) s, inr (Ok None))
  | QDelMeta key m, Opened i =>
    match aget (xname m) (f_xattr (fs_file s i)) with
    | None => (s, inr (Err SUnspecified))
    | Some _ => (set_attrs i (adel (xname m)) s, inr (Ok None))
    end
  | QDestroy key, Fresh =>
    match sys_unlink (get_path key) s with
    | None => (s, inr (Err SUnspecified))
    | Some s' => (s', inr (Ok None))
    end
  | QSweep n, Fresh =>
    match aget n (fs_names s) with
    | None => (s, inr (Ok None))
    | Some i =>
      match aget (xname Ttl) (f_xattr (fs_file s i)) with
      | None => (s, inr (Ok None))
      | Some t =>
        match ttl_from_disk t with
        | Err e => (s, inr (Err e))
        | Panic w => (s, inr (Panic w))
        | Ok ttl => if now <? ttl then (s, inr (Ok None)) else (s, inl (Removing now))
        end
      end
    end
  | QSweep n, Removing _ =>
    (match sys_unlink n s with Some s' => s' | None => s end, inr (Ok None))
  | _, _ => (s, inr (Ok None)) (* not reached *)
  end.

(** What the scheduler does: a task begins a call, or makes the next system call of the one it is in.
    A begin by a task that is in a call, or a step of one that is in none, does nothing. *)
Inductive move := Begin (t : N) (o : qop V) | Go (t : N) (k : nat) (now : N).
(** What can be seen: calls begin, time passes in them, they return. *)
Inductive seen := HBegin (t : N) (o : qop V) | HGo (t : N) (now : N) | HEnd (t : N) (r : reply V).

Record state := St { st_fs : fs; st_calls : N -> option (qop V * pc) }.
Definition at_task {A} (t : N) (x : A) (g : N -> A) : N -> A := fun u => if u =? t then x else g u.
Definition move1 (s : state) (m : move) : state * list seen :=
  match m with
  | Begin t o =>
    match st_calls s t with
    | Some _ => (s, [])
    | None => (St (st_fs s) (at_task t (Some (o, Fresh)) (st_calls s)), [HBegin t o])
    end
  | Go t k now =>
    match st_calls s t with
    | None => (s, [])
    | Some (o, p) =>
      match advance (st_fs s) o p k now with
      | (f, inl p') => (St f (at_task t (Some (o, p')) (st_calls s)), [HGo t now])
      | (f, inr r) => (St f (at_task t None (st_calls s)), [HGo t now; HEnd t r])
      end
    end
  end.
Fixpoint moves (s : state) (l : list move) : state * list seen :=
  match l with
  | [] => (s, [])
  | m :: r => let '(s1, h1) := move1 s m in let '(s2, h2) := moves s1 r in (s2, h1 ++ h2)
  end.
Definition start (d : dir) : state := St (mkfs d) (fun _ => None).
End overlap.
Arguments Begin {V}. Arguments Go {V}. Arguments HBegin {V}. Arguments HGo {V}. Arguments HEnd {V}.
