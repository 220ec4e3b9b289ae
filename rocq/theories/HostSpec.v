(** What can be found on a machine. *)
From Verif Require Import Base Text CborModel ValueModel SiModel DevSiModel SiSpec SiApiModel SiApiSpec HostModel.
Local Open Scope N_scope.

(** A file with these contents and this mode *)
Definition file_at (fs : fsys) (p : path) (data : bytes) (mode : N) : Prop := exists u g, fs p = Some (Node (Some data) mode u g).
(** [q] is a directory on the way to [p]. *)
Definition above (q p : path) : Prop := q <> [] /\ exists r, r <> [] /\ p = q ++ r.
(** Only [p] may differ, and directories on the way to it may be new. *)
Definition only (p : path) (fs fs' : fsys) : Prop :=
  forall q, q <> p -> fs' q = fs q \/ (above q p /\ fs q = None /\ is_dir fs' q = true).
(** Nothing but directories on the way to [p], and no directory there *)
Definition way_clear (fs : fsys) (p : path) : Prop :=
  p <> [] /\ is_dir fs p = false /\ forall q, above q p -> fs q = None \/ is_dir fs q = true.
(** A machine on which everything that can be done works *)
Definition working (b : box) : Prop := forall l, bx_io b l = Works.
(** No permission that [m] does not give *)
Definition within (mode m : N) : Prop := N.ldiff mode m = 0.

(** ** Lines of a text: between line feeds *)
Definition has_line (t l : str) : Prop :=
  ~ In LF l /\ exists a z, t = a ++ l ++ z /\ (a = [] \/ exists a', a = a' ++ [LF]) /\ (z = [] \/ exists z', z = LF :: z').
(** The key is authorised by the file. *)
Definition authorised (fs : fsys) (p : path) (key : str) : Prop := exists t, read_text fs p = Ok t /\ has_line t key.

(** ** Accounts: the first line of /etc/passwd with that name *)
Definition account (fs : fsys) (user : str) (uid gid : N) (home : str) : Prop :=
  exists t before l after, read_text fs PASSWD = Ok t /\ lines t = before ++ l :: after /\
    (forall l', In l' before -> forall rest, fields l' <> user :: rest) /\
    exists x u g c rest, fields l = user :: x :: u :: g :: c :: home :: rest /\ parse_u32 u = Some uid /\ parse_u32 g = Some gid.
Definition no_account (fs : fsys) (user : str) : Prop :=
  exists t, read_text fs PASSWD = Ok t /\ forall l, In l (lines t) -> forall rest, fields l <> user :: rest.
Definition ssh_dir (home : str) : path := resolve home ++ [txt ".ssh"].
Definition key_file (env : option str) (home : str) : path :=
  match env with Some p => resolve p | None => ssh_dir home ++ [txt "authorized_keys"] end.

(** useradd makes the account of [user], with this home, and its directory if it is told to by -m or, [homes], by the
    system's defaults; nothing else that is there changes. *)
Definition useradd_works (user home : str) (homes : bool) (b : box) : Prop :=
  forall log args fs, no_account fs user -> exists fs' out err uid gid,
    bx_cmd b (log ++ [HCmd (txt "useradd") (args ++ [user]) []]) fs = (fs', Some (Some 0%Z, out, err)) /\
    account fs' user uid gid home /\ (forall u i g h, account fs u i g h -> account fs' u i g h) /\
    (forall q, q <> PASSWD -> q <> resolve home -> fs' q = fs q) /\
    (In (txt "-m") args \/ homes = true -> fs (resolve home) = None -> is_dir fs' (resolve home) = true).
(** openssl passwd gives a text. *)
Definition openssl_works (b : box) : Prop :=
  forall log args pw fs, exists t err, bx_cmd b (log ++ [HCmd (txt "openssl") args pw]) fs = (fs, Some (Some 0%Z, utf8_enc t, err)) /\ forallb is_scalar t = true.
(** What openssl and useradd are started with: the password on standard input, its hash as an argument *)
Definition run_openssl (pw : str) : hop := HCmd (txt "openssl") [txt "passwd"; txt "-6"; txt "-stdin"] (utf8_enc pw).
Definition run_useradd (user h : str) : hop := HCmd (txt "useradd") [txt "-p"; h; user] [].
(** The password was given as a hash: bcrypt, SHA-512 or SHA-256. *)
Definition hashed (pw : str) : Prop := exists r, pw = txt "$2b$" ++ r \/ pw = txt "$6$" ++ r \/ pw = txt "$5$" ++ r.
Definition trimmed (h : str) : Prop := forall a x, h = a ++ [x] -> is_space x = false.
(** openssl hashed the password to [h], and printed it on a line. *)
Definition hash_printed (b : box) (pw h : str) : Prop :=
  exists log fs fs' space err, bx_cmd b (log ++ [run_openssl pw]) fs = (fs', Some (Some 0%Z, utf8_enc (h ++ space), err)) /\ trimmed h /\ Forall (fun x => is_space x = true) space.
