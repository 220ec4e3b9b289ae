(** The devices of the all-in-one: admin-tool/src/aio/device.rs. *)
From Verif Require Import Base ValueModel Text TypesModel Assoc KexModel SessionModel ClientModel MfgClientModel LocModel.
Local Open Scope N_scope.

(** device.rs:86-107: what the manufacturing client is told, on top of the environment of the command.  The other variables
    (DIUN_PUB_KEY_ROOTCERTS, MANUFACTURING_SERVER_URL, ...) are the [setup], [minfo] and address of [MfgClientModel].  Simplified: the location is text. *)
Definition mfg_env (e : env) (loc : str) : env := Env (ev_cred e) (ev_delete e) (ev_deactivate e) (Some (EText loc)) (ev_marker e).
(** device.rs:43-58 *)
Definition dev_env (e : env) (loc : str) : env := Env (Some (EText loc)) (ev_delete e) (ev_deactivate e) (ev_file e) (Some (EText (loc ++ txt ".marker"))).

(** device.rs:78-119: the events of the client, the files afterwards, and whether the command succeeds: the client did, and the
    credential can then be read (device.rs:121-138, where the owner's tool prints it).
    Simplified: the tool also fails for a credential of another version or with TPM keys it cannot read (owner-tool/src/main.rs:533-590); where it says true here, it may say false. *)
Definition aio_manufacture A c chk ko avail to_der wo newkey how (e : env) (loc : str) (fs : files) (su : setup) (mi : minfo) (url : str) : list devent * files * bool :=
  let (h, x) := initialise A c chk ko avail to_der wo newkey (mfg_env e loc) fs su mi url in
  let fs' := mfg_files how (mfg_env e loc) fs h in
  (h, fs', match x with Initialised | Already => match content fs' loc with Some _ => true | None => false end | _ => false end).
(** device.rs:36-76: the same for the onboarding client.  [allow]: ALLOW_NONINTEROPERABLE_KDF *)
Definition aio_run A c chk ko avail show_ip prefix wo others (e : env) (loc : str) (allow : bool) (fs : files) (n : nat) : list devent * files * exit :=
  let (h, x) := onboard A c chk ko avail show_ip prefix wo (dev_env e loc) allow fs n in (h, device_files others (dev_env e loc) fs h, x).
