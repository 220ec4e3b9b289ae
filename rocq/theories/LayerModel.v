(** Which configuration a server works with when there are several files: util/src/servers/mod.rs:37-61, 106-120.
    Simplifications: a document is a tree (the YAML parser is not modelled); the crate [config] (0.13) is not in the repository: its
    merging of sources is modelled as it documents it (tables are merged key by key, anything else is replaced); keys have no
    '.' and no '[', which it reads as paths; lists and scalars are leaves. *)
From Verif Require Import Base ValueModel Text Assoc.
Local Open Scope N_scope.

Inductive tree := Leaf (x : str) | Table (l : list (name * tree)).
Definition fields (t : tree) : list (name * tree) := match t with Table l => l | Leaf _ => [] end.

(** config: path::Expression::set for one key.  [merge t v]: what becomes of [t], the value a key has so far (an empty table if
    none), when [v] is set *)
Fixpoint merge (t v : tree) {struct v} : tree :=
  match v with
  | Leaf x => Leaf x
  | Table l =>
    (fix each (l : list (name * tree)) (t : tree) : tree :=
       match l with
       | [] => t
       | (k, v) :: r => each r (Table (aset k (merge (match aget k (fields t) with Some u => u | None => Table [] end) v) (fields t)))
       end) l t
  end.
(** ConfigBuilder::build: one source after the other *)
Definition collect (l : list tree) : tree := fold_left merge l (Table []).

(** What is at a path: nothing, something that cannot be opened or read, something that is not a YAML document (with a table at its
    top), a document *)
Inductive file := Missing | Unreadable | NoDoc | Doc (l : list (name * tree)).
Record host := Host {
  hs_file : str -> file;
  hs_env : str -> option str;                        (* env::var_os and into_string: None also if it is not UTF-8 *)
  hs_glob : str -> option (list (option str)) }.     (* glob: None for a bad pattern; in alphabetical order; None: cannot be read *)

(** mod.rs:114-116: '-' to '_', upper case (the components' names are ASCII) *)
Definition component_env_prefix (component : str) : str :=
  map (fun x => if x =? 45 then 95 else if (97 <=? x) && (x <=? 122) then x - 32 else x) component.
(** mod.rs:106-112 *)
Definition format_conf_env (component : str) : str := component_env_prefix component ++ txt "_CONF".
Definition format_conf_dir_env (component : str) : str := component_env_prefix component ++ txt "_CONF_DIR".
Definition or_else (o : option str) (d : str) : str := match o with Some x => x | None => d end.

(** config::File::collect: a file that cannot be had is an error if it is required, and nothing if not; one that cannot be parsed
    is an error *)
Definition load (h : host) (required : bool) (p : str) : outcome unit tree :=
  match hs_file h p with
  | Doc l => Ok (Table l)
  | NoDoc => Err tt
  | Missing | Unreadable => if required then Err tt else Ok (Table [])
  end.
Fixpoint load_all (h : host) (l : list str) : outcome unit (list tree) :=
  match l with [] => Ok [] | p :: r => let! t := load h true p in let! q := load_all h r in Ok (t :: q) end.
(** [path.unwrap()] *)
Fixpoint unwrap_all (l : list (option str)) : outcome unit (list str) :=
  match l with [] => Ok [] | Some p :: r => let! q := unwrap_all r in Ok (p :: q) | None :: _ => Panic 1 end.

(** mod.rs:37-61 *)
Definition settings_for (h : host) (component : str) : outcome unit tree :=
  match hs_glob h (or_else (hs_env h (format_conf_dir_env component)) (txt "/etc/fdo/" ++ component ++ txt ".conf.d/*.yml")) with
  | None => Err tt
  | Some found =>
    let! ps := unwrap_all found in
    let! drop := load_all h ps in
    let! main := load h false (or_else (hs_env h (format_conf_env component)) (txt "/etc/fdo/" ++ component ++ txt ".yml")) in
    let! vendor := load h false (txt "/usr/share/fdo/" ++ component ++ txt ".yml") in
    Ok (collect (drop ++ [main; vendor]))
  end.

(** store/src/lib.rs:254-262, read by config's deserializer for enums: a string, or a table with exactly one key; which kind of
    store that is (the fields below are not modelled) *)
Definition store_kind (t : tree) : option str := match t with Leaf s => Some s | Table [(k, _)] => Some k | Table _ => None end.
Fixpoint find (t : tree) (p : list name) : option tree :=
  match p with
  | [] => Some t
  | k :: r => match aget k (fields t) with Some u => find u r | None => None end
  end.
Definition driver (cfg : tree) (setting : name) : option str := match find cfg [setting] with Some t => store_kind t | None => None end.
