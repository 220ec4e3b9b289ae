(** Specification for configurations in several files. *)
From Verif Require Import Base ValueModel Text Assoc LayerModel.
Local Open Scope N_scope.

(** No key twice, at any depth *)
Fixpoint proper (t : tree) : Prop :=
  match t with Leaf _ => True | Table l => NoDup (map fst l) /\ (fix all (l : list (name * tree)) : Prop := match l with [] => True | (_, u) :: r => proper u /\ all r end) l end.

(** The document gives the setting with these nested keys the value [x]. *)
Inductive gives : tree -> list name -> str -> Prop :=
| gives_here x : gives (Leaf x) [] x
| gives_below l k u p x : In (k, u) l -> gives u p x -> gives (Table l) (k :: p) x.
(** It says nothing about it: following the keys one comes to one that is not there (or to a table without keys, at the end). *)
Inductive silent : tree -> list name -> Prop :=
| silent_no_key l k p : ~ In k (map fst l) -> silent (Table l) (k :: p)
| silent_below l k u p : In (k, u) l -> silent u p -> silent (Table l) (k :: p)
| silent_empty : silent (Table []) [].

(** The files that count, the less important ones first *)
Definition drop_ins (h : host) (component : str) (l : list tree) : Prop :=
  exists paths, hs_glob h (match hs_env h (format_conf_dir_env component) with Some p => p | None => txt "/etc/fdo/" ++ component ++ txt ".conf.d/*.yml" end) = Some (map Some paths) /\
    Forall2 (fun p t => exists d, hs_file h p = Doc d /\ t = Table d) paths l.
Definition document (h : host) (p : str) (t : tree) : Prop :=
  (exists d, hs_file h p = Doc d /\ t = Table d) \/ ((hs_file h p = Missing \/ hs_file h p = Unreadable) /\ t = Table []).
Definition own_file (h : host) (component : str) (t : tree) : Prop :=
  document h (match hs_env h (format_conf_env component) with Some p => p | None => txt "/etc/fdo/" ++ component ++ txt ".yml" end) t.
Definition vendor_file (h : host) (component : str) (t : tree) : Prop := document h (txt "/usr/share/fdo/" ++ component ++ txt ".yml") t.
(** All documents on the host are proper. *)
Definition proper_host (h : host) : Prop := forall p d, hs_file h p = Doc d -> proper (Table d).
