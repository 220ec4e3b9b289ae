(** * The device's operating system
    What the actions of the service info modules do to the machine: files with their modes and owners, user accounts and
    SSH keys.  client-linuxapp/src/serviceinfo.rs, util/src/passwd_shadow.rs. *)
From Verif Require Import Base Text CborModel ValueModel SiModel DevSiModel SiSpec.
Local Open Scope N_scope.

(** ** Files
    A path is the list of its segments; there are no links, and relative paths start at the root.  Every process of the
    model is root's.  [nd_data]: [None] for a directory. *)
Definition path := list str.
Record node := Node { nd_data : option bytes; nd_mode : N; nd_uid : N; nd_gid : N }.
Definition fsys := path -> option node.
Definition str_eqb : str -> str -> bool := bytes_eqb.
Fixpoint path_eqb (a b : path) : bool :=
  match a, b with
  | [], [] => true
  | x :: r, y :: q => str_eqb x y && path_eqb r q
  | _, _ => false
  end.
Definition fset (fs : fsys) (p : path) (n : node) : fsys := fun q => if path_eqb q p then Some n else fs q.
Definition is_dir (fs : fsys) (p : path) : bool :=
  match p with
  | [] => true
  | _ => match fs p with Some n => match nd_data n with None => true | Some _ => false end | None => false end
  end.
Definition exists_at (fs : fsys) (p : path) : bool := match p with [] => true | _ => match fs p with Some _ => true | None => false end end.

(** System calls, and the processes that are started *)
Inductive hop :=
| HMkDir (p : path)
| HCreate (p : path)
| HAppend (p : path) (b : bytes)
| HMode (p : path) (m : N)
| HOwner (p : path) (u g : N)
| HSync (p : path)
| HCmd (cmd : str) (args : list str) (stdin : bytes).

(** The machine: the process's umask; whether a call works, depending on all that was done ([CutShort n]: it fails, after
    [n] bytes if it is a write; a crash of the machine is the same, since nothing is done after a failure); and
    what a process does and returns ([None]: it could not be run; otherwise exit code, output, errors). *)
Inductive ioans := Works | CutShort (n : nat).
Record box := Box {
  bx_umask : N;
  bx_io : list hop -> ioans;
  bx_cmd : list hop -> fsys -> fsys * option (option Z * bytes * bytes) }.

(** What a call does; [None]: the system refuses it *)
Definition append (fs : fsys) (p : path) (b : bytes) : fsys :=
  match fs p with
  | Some n => match nd_data n with Some d => fset fs p (Node (Some (d ++ b)) (nd_mode n) (nd_uid n) (nd_gid n)) | None => fs end
  | None => fs
  end.
Definition call (um : N) (fs : fsys) (o : hop) : option fsys :=
  match o with
  | HMkDir p =>
    if exists_at fs p then None
    else if is_dir fs (removelast p) then Some (fset fs p (Node None (N.ldiff 511 um) 0 0)) else None
  | HCreate p =>
    if is_dir fs p then None
    else match fs p with
         | Some n => Some (fset fs p (Node (Some []) (nd_mode n) (nd_uid n) (nd_gid n)))
         | None => if is_dir fs (removelast p) then Some (fset fs p (Node (Some []) (N.ldiff 438 um) 0 0)) else None
         end
  | HAppend p b => if is_dir fs p then None else match fs p with Some _ => Some (append fs p b) | None => None end
  | HMode p m => match fs p with Some n => Some (fset fs p (Node (nd_data n) m (nd_uid n) (nd_gid n))) | None => None end
  | HOwner p u g => match fs p with Some n => Some (fset fs p (Node (nd_data n) (nd_mode n) u g)) | None => None end
  | HSync _ | HCmd _ _ _ => Some fs
  end.

(** Programs: the files, and what was done so far *)
Record hstate := HSt { hs_fs : fsys; hs_log : list hop }.
Definition hm (A : Type) : Type := hstate -> hstate * outcome unit A.
Definition hret {A} (a : A) : hm A := fun s => (s, Ok a).
Definition hfail {A} : hm A := fun s => (s, Err tt).
Definition hbind {A B} (m : hm A) (f : A -> hm B) : hm B := fun s =>
  match m s with (s1, Ok a) => f a s1 | (s1, Err e) => (s1, Err e) | (s1, Panic p) => (s1, Panic p) end.
Notation "'hdo!' x := m 'in' k" := (hbind m (fun x => k)) (at level 61, x pattern, m at next level, right associativity).
Definition hread {A} (f : fsys -> outcome unit A) : hm A := fun s => (s, f (hs_fs s)).

Section host.
Context (b : box).
Definition hcall (o : hop) : hm unit := fun s =>
  let log := hs_log s ++ [o] in
  match bx_io b log with
  | Works => match call (bx_umask b) (hs_fs s) o with Some fs => (HSt fs log, Ok tt) | None => (HSt (hs_fs s) log, Err tt) end
  | CutShort n => (HSt (match o with HAppend p d => append (hs_fs s) p (firstn n d) | _ => hs_fs s end) log, Err tt)
  end.
Definition hcmd (cmd : str) (args : list str) (stdin : bytes) : hm (option Z * bytes * bytes) := fun s =>
  let log := hs_log s ++ [HCmd cmd args stdin] in
  match bx_cmd b log (hs_fs s) with
  | (fs, Some r) => (HSt fs log, Ok r)
  | (fs, None) => (HSt fs log, Err tt)
  end.

(** std::fs::create_dir_all: what is there already is left; the directories are made from the top.  (The calls it tries
    before, and which fail because a parent is missing, are left out.) *)
Fixpoint mkdirs (done todo : path) : hm unit :=
  match todo with
  | [] => hret tt
  | s :: r =>
    hdo! _ := fun st => if is_dir (hs_fs st) (done ++ [s]) then (st, Ok tt) else hcall (HMkDir (done ++ [s])) st in
    mkdirs (done ++ [s]) r
  end.

(** serviceinfo.rs:264-287 deploy, from create_dir_all on (the rest is [DevSiModel.deploy]).  Path::parent of a path without
    segments is None; [DevSiModel.deploy] panics there.  (Bits of the mode above the lowest twelve are kept here; the system
    drops them.) *)
Definition put_file (p : path) (contents : bytes) (mode : N) : hm unit :=
  hdo! _ := mkdirs [] (removelast p) in
  hdo! _ := hcall (HCreate p) in
  hdo! _ := hcall (HAppend p contents) in
  hdo! _ := hcall (HMode p mode) in
  hcall (HSync p).

(** ** Text: str::lines, str::split, str::trim_end, u32::from_str *)
Definition LF : N := 10. Definition CR : N := 13. Definition COLON : N := 58.
(** str::split_inclusive, each line with whether it ended in a line feed *)
Fixpoint pieces (s : str) : list (str * bool) :=
  match s with
  | [] => []
  | x :: r =>
    if x =? LF then ([], true) :: pieces r
    else match pieces r with [] => [([x], false)] | (h, e) :: t => (x :: h, e) :: t end
  end.
Fixpoint strip_cr (s : str) : str :=
  match s with
  | [] => []
  | [x] => if x =? CR then [] else [x]
  | x :: r => x :: strip_cr r
  end.
Definition lines (s : str) : list str := map (fun x => if snd x : bool then strip_cr (fst x) else fst x) (pieces s).
(** char::is_whitespace *)
Definition is_space (x : N) : bool :=
  ((9 <=? x) && (x <=? 13)) || (x =? 32) || (x =? 133) || (x =? 160) || (x =? 5760) || ((8192 <=? x) && (x <=? 8202)) ||
  (x =? 8232) || (x =? 8233) || (x =? 8239) || (x =? 8287) || (x =? 12288).
Fixpoint trim_end (s : str) : str :=
  match s with
  | [] => []
  | x :: r => match trim_end r with [] => if is_space x then [] else [x] | t => x :: t end
  end.
Definition is_digit (x : N) : bool := (48 <=? x) && (x <=? 57).
Fixpoint digits (acc : N) (s : str) : option N :=
  match s with
  | [] => Some acc
  | x :: r => if is_digit x then let v := 10 * acc + (x - 48) in if v <? 4294967296 then digits v r else None else None
  end.
Definition parse_u32 (s : str) : option N :=
  match s with
  | [] => None
  | 43 :: [] => None
  | 43 :: r => digits 0 r
  | _ => digits 0 s
  end.

(** ** Accounts *)
Definition PASSWD : path := [txt "etc"; txt "passwd"].
(** std::fs::read_to_string *)
Definition read_text (fs : fsys) (p : path) : outcome unit str :=
  match fs p with Some n => match nd_data n with Some d => of_option tt (utf8_dec d) | None => Err tt end | None => Err tt end.
(** passwd_shadow.rs:6-14, 18-31: the first line with that name; a line always has a first field *)
Definition fields (l : str) : list str := split_on COLON l.
Definition of_user (user : str) (l : str) : bool := match fields l with f :: _ => str_eqb f user | [] => false end.
Definition is_user_in_passwd (user : str) (fs : fsys) : outcome unit bool :=
  let! t := read_text fs PASSWD in Ok (existsb (of_user user) (lines t)).
Definition P_FIELD : N := 50.
Definition field (l : list str) (i : nat) : outcome unit str := unwrap P_FIELD (nth_error l i).
Definition get_user_uid_gid_home (user : str) (fs : fsys) : outcome unit (N * N * str) :=
  let! t := read_text fs PASSWD in
  match find (of_user user) (lines t) with
  | None => Err tt
  | Some l =>
    let! u := field (fields l) 2 in let! uid := of_option tt (parse_u32 u) in
    let! g := field (fields l) 3 in let! gid := of_option tt (parse_u32 g) in
    let! home := field (fields l) 5 in
    Ok (uid, gid, home)
  end.

Definition succeeded (r : option Z * bytes * bytes) : bool := match r with (Some 0%Z, _, _) => true | _ => false end.
(** serviceinfo.rs:59-83 *)
Definition create_user (user : str) : hm unit :=
  hdo! present := hread (is_user_in_passwd user) in
  if present : bool then hret tt
  else hdo! r := hcmd (txt "useradd") [txt "-m"; user] [] in
       if succeeded r then hret tt else hfail.
(** serviceinfo.rs:88-98 *)
Fixpoint starts_with (p s : str) : bool :=
  match p, s with
  | [], _ => true
  | x :: q, y :: r => (x =? y) && starts_with q r
  | _, [] => false
  end.
Definition is_password_encrypted (s : str) : bool := starts_with (txt "$2b$") s || starts_with (txt "$6$") s || starts_with (txt "$5$") s.
Definition P_UTF8 : N := 51.
(** serviceinfo.rs:100-148; the exit status of openssl is not looked at *)
Definition hash_password (pw : str) : hm str :=
  if is_password_encrypted pw then hret pw
  else hdo! r := hcmd (txt "openssl") [txt "passwd"; txt "-6"; txt "-stdin"] (utf8_enc pw) in
       let '(_, out, _) := r in
       hread (fun _ => let! t := unwrap P_UTF8 (utf8_dec out) in Ok (trim_end t)).
Definition create_user_with_password (user pw : str) : hm unit :=
  hdo! present := hread (is_user_in_passwd user) in
  if present : bool then hret tt
  else hdo! h := hash_password pw in
       hdo! r := hcmd (txt "useradd") [txt "-p"; h; user] [] in
       if succeeded r then hret tt else hfail.

(** serviceinfo.rs:150-199; [env]: the variable SSH_KEY_PATH *)
Definition KEYS_HEAD : str := LF :: txt "# These keys are installed by FIDO Device Onboarding" ++ [LF].
Definition KEYS_TAIL : str := LF :: txt "# End of FIDO Device Onboarding keys" ++ [LF].
Definition key_path (env : option str) (uid gid : N) (home : str) : hm path :=
  match env with
  | Some p => hret (resolve p)
  | None =>
    let dir := resolve home ++ [txt ".ssh"] in
    hdo! there := hread (fun fs => Ok (exists_at fs dir)) in
    hdo! _ := (if there : bool then hret tt
               else hdo! _ := hcall (HMkDir dir) in
                    hdo! _ := hcall (HMode dir 448) in
                    hcall (HOwner dir uid gid)) in
    hret (dir ++ [txt "authorized_keys"])
  end.
Definition install_ssh_key (env : option str) (user key : str) : hm unit :=
  hdo! r := hread (get_user_uid_gid_home user) in
  let '(uid, gid, home) := r in
  hdo! p := key_path env uid gid home in
  hdo! contents := hread (fun fs => if exists_at fs p then read_text fs p else Ok []) in
  hdo! _ := hcall (HCreate p) in
  hdo! _ := hcall (HAppend p (utf8_enc (contents ++ KEYS_HEAD ++ key ++ KEYS_TAIL))) in
  hdo! _ := hcall (HMode p 384) in
  hcall (HOwner p uid gid).
(** serviceinfo.rs:201-223; the exit codes are not looked at *)
Definition register (org key : str) : hm unit :=
  hdo! _ := hcmd (txt "subscription-manager") [txt "register"; txt "--org=" ++ org; txt "--activationkey=" ++ key] [] in hret tt.
Definition insights : hm unit := hdo! _ := hcmd (txt "insights-client") [txt "--register"] [] in hret tt.

(** ** The effects of [DevSiModel], carried out.  What concerns disks is [disk]'s (see DiskModel). *)
Definition answer_of (r : outcome unit unit) : answer := match r with Ok _ => Fine | Err _ => Fails | Panic _ => Crashes end.
Definition host_effect (env : option str) (disk : list hop -> effect -> answer) (e : effect) (s : hstate) : hstate * answer :=
  let plain (m : hm unit) := let '(s1, r) := m s in (s1, answer_of r) in
  match e with
  | EWrite p d m => plain (put_file (resolve p) d m)
  | ERun c args => match hcmd c args [] s with
                   | (s1, Ok (code, out, err)) => (s1, Output out err code)
                   | (s1, _) => (s1, Fails)
                   end
  | ENewUserPw u p => plain (create_user_with_password u p)
  | ENewUser u => plain (create_user u)
  | EKey u k => plain (install_ssh_key env u k)
  | ERegister o k => plain (register o k)
  | EInsights => plain insights
  | EOpen _ | ERebind _ _ _ | EReencrypt _ => (s, disk (hs_log s) e)
  end.
Fixpoint host_effects (env : option str) (disk : list hop -> effect -> answer) (l : list effect) (s : hstate) : hstate * list answer :=
  match l with
  | [] => (s, [])
  | e :: r => let '(s1, a) := host_effect env disk e s in let '(s2, l) := host_effects env disk r s1 in (s2, a :: l)
  end.
End host.
