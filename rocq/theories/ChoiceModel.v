(** How the manufacturing client is told which server to trust: its variables (manufacturing-client/src/main.rs:263-286, 397-465)
    and the kernel arguments they come from in the installation image (dracut/52fdo/manufacturing-client-generator). *)
From Verif Require Import Base ValueModel Text TypesModel Assoc KexModel SessionModel ClientModel MfgClientModel LocModel.
Local Open Scope N_scope.

(** MANUFACTURING_SERVER_URL, USE_PLAIN_DI, DIUN_PUB_KEY_ROOTCERTS, DIUN_PUB_KEY_HASH, DIUN_PUB_KEY_INSECURE, DI_MFG_STRING_TYPE *)
Record vars := Vars { va_url : option evalue; va_plain : option evalue; va_roots : option evalue; va_hash : option evalue; va_insecure : option evalue; va_stype : option evalue }.
(** std::env::var: a value that is not UTF-8 is an error, as is none *)
Definition var (v : option evalue) : option str := match v with Some (EText s) => Some s | _ => None end.

Section choice.
(** [roots]: main.rs:281-286, of a path; [hash_of]: Hash::from_str (data-formats/src/types.rs:58-76); [stype_of]: MfgStringType::from_str;
    [keys]: KeyReference::env_key (main.rs:746-787).  [None]: an error *)
Context (roots : str -> option x5bag) (hash_of : str -> option hash) (stype_of : str -> option N) (keys : option (bytes * bytes)).
(** main.rs:263-278 *)
Definition get_from_env (va : vars) : option vmode :=
  match var (va_roots va) with
  | Some p => match roots p with Some bag => Some (VCerts bag) | None => None end
  | None => match var (va_hash va) with
            | Some s => match hash_of s with Some d => Some (VHash d) | None => None end
            | None => match var (va_insecure va) with Some _ => Some VInsecure | None => None end
            end
  end.
(** main.rs:400-465, without subcommand: the address and the set-up; [None]: an error before the network is used.  The network
    interfaces are in [minfo]. *)
Definition choose (va : vars) : option (str * setup) :=
  match var (va_url va) with
  | None => None
  | Some url =>
    match var (va_plain va) with
    | Some v => if bytes_eqb v (txt "true")
                then match stype_of (match var (va_stype va) with Some s => s | None => txt "serialnumber" end) with Some st => Some (url, PlainDI st keys) | None => None end
                else match get_from_env va with Some m => Some (url, WithDiun m) | None => None end
    | None => match get_from_env va with Some m => Some (url, WithDiun m) | None => None end
    end
  end.
(** main.rs:289-480: the credential is looked at first (289-314) *)
Definition start A c chk ko avail to_der wo newkey (e : env) (va : vars) (fs : files) (mi : minfo) : list devent * mexit :=
  match choose va with
  | Some (url, su) => initialise A c chk ko avail to_der wo newkey e fs su mi url
  | None => ([], match credential e fs with Cred dc => if dc_active dc then Already else Failed | _ => Failed end)
  end.
End choice.

(** The kernel arguments fdo.manufacturing_server_url, fdo.diun_pub_key_insecure, fdo.diun_pub_key_hash, fdo.diun_pub_key_root_certs: their
    values, empty if they are not given (getarg).  Simplified: they are text without quotes and newlines, so that systemd reads what was written. *)
Record kargs := KArgs { ka_url : str; ka_insecure : str; ka_hash : str; ka_roots : str }.
Definition given (s : str) : option evalue := match s with [] => None | _ => Some (EText s) end.
(** manufacturing-client-generator:13-47; [None]: no file, and so no client (manufacturing-client.service:8) *)
Definition generate (k : kargs) : option vars :=
  match ka_url k with
  | [] => None
  | _ => Some (Vars (Some (EText (ka_url k))) None (given (ka_roots k)) (given (ka_hash k)) (given (ka_insecure k)) None)
  end.
