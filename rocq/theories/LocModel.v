(** The files of a device and the environment its two programs are started in: where they look for the credential, which
    file each of them writes, and what a run leaves: util/src/device_credential_locations.rs, client-linuxapp/src/main.rs,
    manufacturing-client/src/main.rs.  The runs themselves are those of ClientModel.v and MfgClientModel.v. *)
From Verif Require Import Base CborModel ValueModel Text TypesModel VoucherModel Assoc KexModel RvModel MsgModel SessionModel
  HttpClientModel RvServerModel SiModel DevSiModel OwnerModel MfgModel ClientModel MfgClientModel.
Local Open Scope N_scope.

(** The regular files, by path.  Two paths are the same file only if they are the same text: there are no links, and
    relative paths are not resolved. *)
Definition files := list (name * bytes).

(** The value of an environment variable: text, or something that is not UTF-8 *)
Inductive evalue := EText (s : str) | ENotText.
(** The variables the programs look at for paths: DEVICE_CREDENTIAL, whether DEVICE_CREDENTIAL_DELETE and
    DEVICE_CREDENTIAL_DEACTIVATE are set (device_credential_locations.rs:114-130), DEVICE_CREDENTIAL_FILENAME
    (manufacturing-client/src/main.rs:872-877, 906-911), DEVICE_ONBOARDING_EXECUTED_MARKER_FILE_PATH
    (client-linuxapp/src/main.rs:32-38) *)
Record env := Env { ev_cred : option evalue; ev_delete : bool; ev_deactivate : bool; ev_file : option evalue; ev_marker : option evalue }.

(** device_credential_locations.rs:11-15 *)
Definition FIRMWARE : str := txt "/sys/firmware/qemu_fw_cfg/by_name/opt/device_onboarding/devicecredential/raw".
(** device_credential_locations.rs:19-22, manufacturing-client/src/main.rs:43 *)
Definition ETC : str := txt "/etc/device-credentials".
(** client-linuxapp/src/main.rs:30 *)
Definition MARKER : str := txt "/etc/device_onboarding_performed".

(** * Finding the credential *)
Inductive place := Nowhere | BadName | At (p : str) (m : deactivation).
(** device_credential_locations.rs:58-67: a location counts if there is something at its path *)
Definition resolve (fs : files) (p : str) (m : deactivation) : option place :=
  match aget p fs with Some _ => Some (At p m) | None => None end.
(** device_credential_locations.rs:114-144 *)
Definition resolve_env (e : env) (fs : files) : option place :=
  match ev_cred e with
  | None => None
  | Some ENotText => Some BadName
  | Some (EText p) => resolve fs p (if ev_delete e then DeleteIt else if ev_deactivate e then DeactivateIt else KeepIt)
  end.
(** device_credential_locations.rs:9-34: the first that resolves *)
Definition find (e : env) (fs : files) : place :=
  match resolve fs FIRMWARE KeepIt with
  | Some x => x
  | None => match resolve_env e fs with
            | Some x => x
            | None => match resolve fs ETC DeactivateIt with Some x => x | None => Nowhere end
            end
  end.
(** device_credential_locations.rs:70-76: read and deserialised; the device info is kept for writing it back *)
Definition content (fs : files) (p : str) : option (str * devcred) :=
  match aget p fs with
  | Some b => match from_slice as_cred b with Ok x => Some x | _ => None end
  | None => None
  end.
Definition credential (e : env) (fs : files) : credfile :=
  match find e fs with
  | Nowhere => NoCred
  | BadName => Unreadable
  | At p _ => match content fs p with Some (_, dc) => Cred dc | None => Unreadable end
  end.
Definition method (e : env) (fs : files) : deactivation := match find e fs with At _ m => m | _ => KeepIt end.
(** client-linuxapp/src/main.rs:32-38: a value that is not UTF-8 counts as none *)
Definition marker_path (e : env) : str := match ev_marker e with Some (EText p) => p | _ => MARKER end.
Definition present (p : str) (fs : files) : bool := match aget p fs with Some _ => true | None => false end.
(** client-linuxapp/src/main.rs:1086-1135: what the onboarding program knows when it starts *)
Definition disk_of (e : env) (fs : files) : devdisk := DevDisk (present (marker_path e) fs) (credential e fs) (method e fs).

(** * The onboarding program *)
Section onboarding.
Context (A : aead) (c : crypto) (chk : bool) (ko : kex_ops) (avail : bool) (show_ip : bytes -> str) (prefix : option str) (wo : world).
Definition onboard (e : env) (allow : bool) (fs : files) (n : nat) : list devent * exit :=
  main A c chk ko avail show_ip prefix wo allow (disk_of e fs) n.
End onboarding.

(** What an event does to the files, the credential being [dc] of the file [p], with the device info [info].
    client-linuxapp/src/main.rs:92-94 (marker), device_credential_locations.rs:78-107 (deactivation: the file is read
    once more there; that yields the same credential, or what an earlier deactivation wrote, and so the same file is
    written).  What the service information does to the files is [others], of all events up to it. *)
Definition device_step (others : list devent -> files -> files) (e : env) (p : str) (info : str) (dc : devcred) (h : list devent) (ev : devent) (fs : files) : files :=
  match ev with
  | TWire _ _ => fs
  | TFx _ => others (h ++ [ev]) fs
  | TMark true => aset (marker_path e) (txt "executed") fs
  | TErase true => aset p [] fs
  | TOff true => aset p (enc (cred_val info (deactivated dc))) fs
  | TDelete true => adel p fs
  | TMark false | TErase false | TOff false | TDelete false => fs
  end.
Fixpoint device_steps (others : list devent -> files -> files) (e : env) (p : str) (info : str) (dc : devcred) (h l : list devent) (fs : files) : files :=
  match l with
  | [] => fs
  | ev :: r => device_steps others e p info dc (h ++ [ev]) r (device_step others e p info dc h ev fs)
  end.
(** The files after the events [h] of a run that started with [fs] *)
Definition device_files (others : list devent -> files -> files) (e : env) (fs : files) (h : list devent) : files :=
  match find e fs with
  | At p _ => match content fs p with Some (info, dc) => device_steps others e p info dc [] h fs | None => fs end
  | _ => fs
  end.

(** * The manufacturing program *)
(** manufacturing-client/src/main.rs:872-877, 906-911: the file it writes; [None]: the program panics *)
Definition target (e : env) : option str := match ev_file e with None => Some ETC | Some (EText p) => Some p | Some ENotText => None end.
Definition is_save (ev : devent) : bool := match ev with TFx (EWrite _ _ _) => true | _ => false end.
Fixpoint before_save (h : list devent) : list devent :=
  match h with [] => [] | ev :: r => if is_save ev then [] else ev :: before_save r end.
Section manufacturing.
Context (A : aead) (c : crypto) (chk : bool) (ko : kex_ops) (avail : bool) (to_der : bytes -> bytes) (wo : world).
Context (newkey : list devent -> N -> N -> option (bytes * bytes)).
(** manufacturing-client/src/main.rs:289-480.  The path in the event that saves the credential stands for [target e]. *)
Definition initialise (e : env) (fs : files) (su : setup) (mi : minfo) (url : str) : list devent * mexit :=
  let (h, x) := mfg_main A c chk ko avail to_der wo newkey (credential e fs) su mi url in
  match target e with
  | Some _ => (h, x)
  | None => if existsb is_save h then (before_save h, MCrashed 90) else (h, x)
  end.
End manufacturing.
(** How much of the data a call to fs::write gets into the file: all; or it fails, before the file is emptied or after *)
Inductive written := Whole | Untouched | Part (k : nat).
Definition write_file (r : written) (p : str) (data : bytes) (fs : files) : files :=
  match r with Whole => aset p data fs | Untouched => fs | Part k => aset p (firstn k data) fs end.
(** The files after the events [l]: [how] says, of the events up to a write, how far that write gets. *)
Fixpoint mfg_steps (how : list devent -> written) (p : str) (h l : list devent) (fs : files) : files :=
  match l with
  | [] => fs
  | ev :: r => mfg_steps how p (h ++ [ev]) r (match ev with TFx (EWrite _ data _) => write_file (how (h ++ [ev])) p data fs | _ => fs end)
  end.
Definition mfg_files (how : list devent -> written) (e : env) (fs : files) (h : list devent) : files :=
  match target e with Some p => mfg_steps how p [] h fs | None => fs end.
