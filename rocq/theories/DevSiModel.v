(** The device's handling of service info: client-linuxapp/src/serviceinfo.rs. *)
From Verif Require Import Base ValueModel Text TypesModel SiModel.
Local Open Scope N_scope.

(** What the device does to the machine it runs on.  One effect stands for one step of the code:
    [EWrite] for create_dir_all, create, write, chmod and sync (deploy, 264-287); [ERun] for Command::output (414);
    [EOpen] for opening and loading the LUKS device (322-336); [ERebind] for rebind_clevis (345, reencrypt/rebind.rs:186-201);
    [EReencrypt] for initiate_reencrypt (354, reencrypt/mod.rs:9-58); [ENewUserPw] for create_user_with_password (100-148);
    [ENewUser] for create_user (59-83); [EKey] for install_ssh_key (150-199); [ERegister] and [EInsights] for the two
    commands of perform_rhsm (201-223). *)
Inductive effect :=
| EWrite (path : str) (data : bytes) (mode : N)
| ERun (cmd : str) (args : list str)
| EOpen (label : str)
| ERebind (label pin config : str)
| EReencrypt (label : str)
| ENewUserPw (user pw : str)
| ENewUser (user : str)
| EKey (user key : str)
| ERegister (org key : str)
| EInsights.

(** What comes back: success, an error (possibly with part of the effect done), a panic (install_ssh_key indexes into a
    line of /etc/passwd, passwd_shadow.rs:24-26), or the output of a command with its exit code ([None]: killed). *)
Inductive answer := Fine | Fails | Crashes | Output (stdout stderr : bytes) (code : option Z).

(** The machine answers an effect depending on everything done so far, the effect itself last. *)
Definition machine := list effect -> answer.

(** What the device did, in order: entries of the list it took up and effects. *)
Inductive note := Read (x : sientry) | Did (e : effect).

(** 225-248 BinaryFileInProgress; the digest is set, checked and dropped in one step, and the prefix is a parameter *)
Record binfile := Bin { bf_path : option str; bf_len : option N; bf_data : option bytes; bf_mode : option N }.
Definition no_bin := Bin None None None None.
(** 383-402 CommandInProgress *)
Record command := Cmd { cm_cmd : option str; cm_args : list str; cm_may_fail : bool; cm_out : bool; cm_err : bool }.
Definition no_cmd := Cmd None [] false false false.
(** 290-307 DiskEncryptionInProgress *)
Record disk := Disk { dk_label : option str; dk_pin : option str; dk_config : option str; dk_reencrypt : bool }.
Definition no_disk := Disk None None None false.

(** The local variables of process_serviceinfo_in (449-466), the list being answered and the log of what was done. *)
Record dst := Dst {
  d_active : list simod;
  d_user : option str; d_pw : option str; d_keys : option str;
  d_org : option str; d_akey : option str; d_insights : option bool;
  d_bin : binfile; d_cmd : command; d_disk : disk;
  d_reboot : bool;
  d_out : silist;
  d_log : list note
}.
Definition dst0 (out : silist) : dst := Dst [] None None None None None None no_bin no_cmd no_disk false out [].

Definition set_active (s : dst) a := Dst a (d_user s) (d_pw s) (d_keys s) (d_org s) (d_akey s) (d_insights s) (d_bin s) (d_cmd s) (d_disk s) (d_reboot s) (d_out s) (d_log s).
Definition set_ssh (s : dst) u p k := Dst (d_active s) u p k (d_org s) (d_akey s) (d_insights s) (d_bin s) (d_cmd s) (d_disk s) (d_reboot s) (d_out s) (d_log s).
Definition set_rhsm (s : dst) o k i := Dst (d_active s) (d_user s) (d_pw s) (d_keys s) o k i (d_bin s) (d_cmd s) (d_disk s) (d_reboot s) (d_out s) (d_log s).
Definition set_bin (s : dst) b := Dst (d_active s) (d_user s) (d_pw s) (d_keys s) (d_org s) (d_akey s) (d_insights s) b (d_cmd s) (d_disk s) (d_reboot s) (d_out s) (d_log s).
Definition set_cmd (s : dst) c := Dst (d_active s) (d_user s) (d_pw s) (d_keys s) (d_org s) (d_akey s) (d_insights s) (d_bin s) c (d_disk s) (d_reboot s) (d_out s) (d_log s).
Definition set_disk (s : dst) k := Dst (d_active s) (d_user s) (d_pw s) (d_keys s) (d_org s) (d_akey s) (d_insights s) (d_bin s) (d_cmd s) k (d_reboot s) (d_out s) (d_log s).
Definition set_reboot (s : dst) b := Dst (d_active s) (d_user s) (d_pw s) (d_keys s) (d_org s) (d_akey s) (d_insights s) (d_bin s) (d_cmd s) (d_disk s) b (d_out s) (d_log s).
Definition add_out (s : dst) m key v := Dst (d_active s) (d_user s) (d_pw s) (d_keys s) (d_org s) (d_akey s) (d_insights s) (d_bin s) (d_cmd s) (d_disk s) (d_reboot s) (si_add (d_out s) m key v) (d_log s).
Definition noted (s : dst) n := Dst (d_active s) (d_user s) (d_pw s) (d_keys s) (d_org s) (d_akey s) (d_insights s) (d_bin s) (d_cmd s) (d_disk s) (d_reboot s) (d_out s) (d_log s ++ [n]).

Fixpoint effects (l : list note) : list effect :=
  match l with [] => [] | Did e :: r => e :: effects r | Read _ :: r => effects r end.

(** A step ends with the new state and how it went on; errors carry no detail. *)
Definition res := (dst * outcome unit unit)%type.
Definition go (s : dst) : res := (s, Ok tt).
Definition bail (s : dst) : res := (s, Err tt).
Definition need {A} (s : dst) (x : option A) (f : A -> res) : res := match x with Some a => f a | None => bail s end.
Definition andthen (r : res) (f : dst -> res) : res :=
  match r with (s, Ok _) => f s | _ => r end.

(** One effect and the machine's answer. *)
Definition perform (w : machine) (s : dst) (e : effect) (f : dst -> answer -> res) : res :=
  let s1 := noted s (Did e) in f s1 (w (effects (d_log s1))).
(** [?] on an effect that only succeeds or fails *)
Definition simple (s : dst) (a : answer) (f : dst -> res) : res :=
  match a with Fine | Output _ _ _ => f s | Fails => bail s | Crashes => (s, Panic P_INDEX) end.

Definition SLASH : N := 47.
Definition DOT : N := 46.

(** std::path: segments between slashes *)
Fixpoint split_on (c : N) (s : str) : list str :=
  match s with
  | [] => [[]]
  | x :: r =>
    if x =? c then [] :: split_on c r
    else match split_on c r with [] => [[x]] | h :: t => (x :: h) :: t end
  end.
Definition is_absolute (p : str) : bool := match p with x :: _ => x =? SLASH | [] => false end.
(** PathBuf::push on Unix: an absolute argument replaces the path; a separator is put in if the path is not empty and does
    not end with one. *)
Definition path_join (a b : str) : str :=
  if is_absolute b then b
  else match rev a with
       | [] => b
       | x :: _ => if x =? SLASH then a ++ b else a ++ SLASH :: b
       end.
(** Path::components: empty segments and "." are skipped, except a leading "." of a relative path; Path::parent is None
    exactly when there is no component besides the root. *)
Definition has_parent (p : str) : bool :=
  let segs := split_on SLASH p in
  existsb (fun s => negb (text_eqb s []) && negb (text_eqb s [DOT])) segs
  || (negb (is_absolute p) && match segs with s :: _ => text_eqb s [DOT] | [] => false end).

Definition P_CAPACITY : N := 20.        (* Vec::with_capacity beyond isize::MAX *)
Definition CAPACITY : N := 9223372036854775807.
Definition P_PARENT : N := 21.          (* path.parent().unwrap() *)
Definition P_NO_COMMAND : N := 22.      (* self.command.as_ref().unwrap() *)

(** 247-262 destination_path; [None] is the error.  Dropping the first byte drops the slash. *)
Definition destination_path (p : str) (prefix : option str) : option str :=
  if negb (is_absolute p) then None
  else match prefix with
       | Some v => Some (path_join v (tl p))
       | None => Some p
       end.

(** 264-287 deploy *)
Definition deploy (w : machine) (prefix : option str) (s : dst) (path : str) (data : bytes) (mode : option N) : res :=
  need s (destination_path path prefix) (fun p =>
    let m := match mode with Some m => m | None => 384 end in
    if has_parent p then perform w s (EWrite p data m) (fun s1 a => simple s1 a go)
    else (s, Panic P_PARENT)).

(** [str::starts_with] *)
Fixpoint prefixb (p s : str) : bool :=
  match p, s with
  | [], _ => true
  | x :: p', y :: s' => (x =? y) && prefixb p' s'
  | _, _ => false
  end.

(** 522-618, the branch of the binary file module *)
Definition step_bin (c : crypto) (w : machine) (prefix : option str) (s : dst) (key : str) (v : cval) : res :=
  let b := d_bin s in
  if text_eqb key (txt "name") then
    match bf_path b with
    | Some _ => bail s
    | None => need s (v_str v) (fun x => go (set_bin s (Bin (Some x) (bf_len b) (bf_data b) (bf_mode b))))
    end
  else if text_eqb key (txt "length") then
    match bf_len b with
    | Some _ => bail s
    | None => need s (v_u64 v) (fun n =>
        if CAPACITY <? n then (s, Panic P_CAPACITY)
        else go (set_bin s (Bin (bf_path b) (Some n) (Some []) (bf_mode b))))
    end
  else if prefixb (txt "data") key then
    match bf_data b with
    | None => bail s
    | Some d => need s (v_bytes v) (fun x => go (set_bin s (Bin (bf_path b) (bf_len b) (Some (d ++ x)) (bf_mode b))))
    end
  else if text_eqb key (txt "mode") then
    match bf_mode b with
    | Some _ => bail s
    | None => need s (v_u32 v) (fun m => go (set_bin s (Bin (bf_path b) (bf_len b) (bf_data b) (Some m))))
    end
  else if prefixb (txt "sha-") key then
    let ty := match split_on 45 key with _ :: t :: _ => t | _ => [] end in
    need s (v_bytes v) (fun x =>
    need s (if text_eqb ty (txt "256") then Some Sha256 else if text_eqb ty (txt "384") then Some Sha384 else None) (fun t =>
    match hash_from_digest t x with
    | Ok h =>
      need s (bf_path b) (fun p =>
      need s (bf_len b) (fun n =>
      match bf_data b with
      | None => (s, Panic P_UNWRAP)
      | Some d =>
        if negb (nlen d =? n) then bail s
        else match hash_compare_data c h d with
             | Ok _ => andthen (deploy w prefix s p d (bf_mode b)) (fun s1 => go (set_bin s1 no_bin))
             | Err _ => bail s
             | Panic x => (s, Panic x)
             end
      end))
    | Err _ => bail s
    | Panic x => (s, Panic x)
    end))
  else go s.

Definition opt_int (z : option Z) : cval := match z with Some z => VInt z | None => VNull end.

(** 403-446 CommandInProgress::execute *)
Definition run_command (w : machine) (s : dst) (c : command) : res :=
  match cm_cmd c with
  | None => (s, Panic P_NO_COMMAND)
  | Some cmd =>
    let s1 := add_out s Command (txt "command") (VText (utf8_enc cmd)) in
    let s2 := add_out s1 Command (txt "args") (VArr (map (fun a => VText (utf8_enc a)) (cm_args c))) in
    perform w s2 (ERun cmd (cm_args c)) (fun s3 a =>
      match a with
      | Output out err code =>
        let s4 := if cm_out c then add_out s3 Command (txt "stdout") (VBytes out) else s3 in
        let s5 := if cm_err c then add_out s4 Command (txt "stderr") (VBytes err) else s4 in
        let s6 := add_out s5 Command (txt "exit_code") (opt_int code) in
        if cm_may_fail c || match code with Some 0%Z => true | _ => false end then go s6 else bail s6
      | _ => bail s3
      end)
  end.

(** 619-649 *)
Definition step_cmd (w : machine) (s : dst) (key : str) (v : cval) : res :=
  let c := d_cmd s in
  if text_eqb key (txt "command") then
    match cm_cmd c with
    | Some _ => bail s
    | None => need s (v_str v) (fun x => go (set_cmd s (Cmd (Some x) (cm_args c) (cm_may_fail c) (cm_out c) (cm_err c))))
    end
  else if text_eqb key (txt "args") then
    need s (v_strs v) (fun x => go (set_cmd s (Cmd (cm_cmd c) x (cm_may_fail c) (cm_out c) (cm_err c))))
  else if text_eqb key (txt "may_fail") then
    need s (v_bool v) (fun x => go (set_cmd s (Cmd (cm_cmd c) (cm_args c) x (cm_out c) (cm_err c))))
  else if text_eqb key (txt "return_stdout") then
    need s (v_bool v) (fun x => go (set_cmd s (Cmd (cm_cmd c) (cm_args c) (cm_may_fail c) x (cm_err c))))
  else if text_eqb key (txt "return_stderr") then
    need s (v_bool v) (fun x => go (set_cmd s (Cmd (cm_cmd c) (cm_args c) (cm_may_fail c) (cm_out c) x)))
  else if text_eqb key (txt "execute") then
    andthen (run_command w s c) (fun s1 => go (set_cmd s1 no_cmd))
  else go s.

(** 308-380 DiskEncryptionInProgress::execute_with_values and execute *)
Definition run_disk (w : machine) (s : dst) (k : disk) : res :=
  need s (dk_label k) (fun label => need s (dk_pin k) (fun pin => need s (dk_config k) (fun config =>
  perform w s (EOpen label) (fun s1 a => simple s1 a (fun s1 =>
  let s2 := add_out s1 DiskEncryption (txt "disk-label") (VText (utf8_enc label)) in
  perform w s2 (ERebind label pin config) (fun s3 a => simple s3 a (fun s3 =>
  let s4 := add_out s3 DiskEncryption (txt "bound") (VBool true) in
  let fin s := go (add_out s DiskEncryption (txt "reencrypt-initiated") (VBool (dk_reencrypt k))) in
  if dk_reencrypt k then perform w s4 (EReencrypt label) (fun s5 a => simple s5 a fin)
  else fin s4))))))).

(** 650-702 *)
Definition step_disk (w : machine) (s : dst) (key : str) (v : cval) : res :=
  let k := d_disk s in
  if text_eqb key (txt "disk-label") then
    match dk_label k with
    | Some _ => bail s
    | None => need s (v_str v) (fun x => go (set_disk s (Disk (Some x) (dk_pin k) (dk_config k) (dk_reencrypt k))))
    end
  else if text_eqb key (txt "pin") then
    match dk_pin k with
    | Some _ => bail s
    | None => need s (v_str v) (fun x => go (set_disk s (Disk (dk_label k) (Some x) (dk_config k) (dk_reencrypt k))))
    end
  else if text_eqb key (txt "config") then
    match dk_config k with
    | Some _ => bail s
    | None => need s (v_str v) (fun x => go (set_disk s (Disk (dk_label k) (dk_pin k) (Some x) (dk_reencrypt k))))
    end
  else if text_eqb key (txt "reencrypt") then
    need s (v_bool v) (fun x => go (set_disk s (Disk (dk_label k) (dk_pin k) (dk_config k) x)))
  else if text_eqb key (txt "execute") then
    andthen (run_disk w s k) (fun s1 => go (set_disk s1 no_disk))
  else go s.

(** 485-498 *)
Definition step_ssh (s : dst) (key : str) (v : cval) : res :=
  if text_eqb key (txt "username") then need s (v_str v) (fun x => go (set_ssh s (Some x) (d_pw s) (d_keys s)))
  else if text_eqb key (txt "password") then need s (v_str v) (fun x => go (set_ssh s (d_user s) (Some x) (d_keys s)))
  else if text_eqb key (txt "sshkeys") then need s (v_str v) (fun x => go (set_ssh s (d_user s) (d_pw s) (Some x)))
  else go s.

(** 505-521 *)
Definition step_rhsm (s : dst) (key : str) (v : cval) : res :=
  if text_eqb key (txt "organization_id") then need s (v_str v) (fun x => go (set_rhsm s (Some x) (d_akey s) (d_insights s)))
  else if text_eqb key (txt "activation_key") then need s (v_str v) (fun x => go (set_rhsm s (d_org s) (Some x) (d_insights s)))
  else if text_eqb key (txt "perform_insights") then need s (v_bool v) (fun x => go (set_rhsm s (d_org s) (d_akey s) (Some x)))
  else go s.

(** HashSet insert and remove *)
Definition mods_insert (l : list simod) (m : simod) : list simod := if existsb (simod_eqb m) l then l else m :: l.
Definition mods_remove (l : list simod) (m : simod) : list simod := filter (fun x => negb (simod_eqb m x)) l.

(** 468-703, one turn of the loop *)
Definition step (c : crypto) (w : machine) (prefix : option str) (s0 : dst) (x : sientry) : res :=
  let '(m, key, v) := x in
  let s := noted s0 (Read x) in
  if text_eqb key (txt "active") then
    need s (v_bool v) (fun on => go (set_active s (if on then mods_insert (d_active s) m else mods_remove (d_active s) m)))
  else if negb (existsb (simod_eqb m) (d_active s)) then bail s
  else match m with
  | SSHKey => step_ssh s key v
  | Reboot => if text_eqb key (txt "reboot") then need s (v_bool v) (fun b => go (set_reboot s b)) else go s
  | SubscriptionManager => step_rhsm s key v
  | BinaryFile => step_bin c w prefix s key v
  | Command => step_cmd w s key v
  | DiskEncryption => step_disk w s key v
  | DevMod | Unsupported _ => go s
  end.

Fixpoint steps (c : crypto) (w : machine) (prefix : option str) (s : dst) (l : list sientry) : res :=
  match l with
  | [] => go s
  | x :: r => andthen (step c w prefix s x) (fun s1 => steps c w prefix s1 r)
  end.

(** 728-734: each key in turn *)
Fixpoint install_keys (w : machine) (user : str) (s : dst) (keys : list str) : res :=
  match keys with
  | [] => go s
  | k :: r => perform w s (EKey user k) (fun s1 a => simple s1 a (fun s1 => install_keys w user s1 r))
  end.

Definition SEMI : N := 59.

(** 705-736 *)
Definition finish_ssh (w : machine) (s : dst) : res :=
  if negb (existsb (simod_eqb SSHKey) (d_active s)) then go s
  else match d_user s with
  | None => bail s
  | Some user =>
    match d_keys s, d_pw s with
    | None, None => bail s
    | keys, pw =>
      andthen (match pw with
               | Some p => perform w s (ENewUserPw user p) (fun s1 a => simple s1 a go)
               | None => go s
               end) (fun s1 =>
      match keys with
      | Some ks => perform w s1 (ENewUser user) (fun s2 a => simple s2 a (fun s2 => install_keys w user s2 (split_on SEMI ks)))
      | None => go s1
      end)
    end
  end.

(** 738-753 and perform_rhsm 201-223: the exit codes are not looked at *)
Definition finish_rhsm (w : machine) (s : dst) : res :=
  if negb (existsb (simod_eqb SubscriptionManager) (d_active s)) then go s
  else match d_org s, d_akey s, d_insights s with
  | Some org, Some key, Some ins =>
    perform w s (ERegister org key) (fun s1 a => simple s1 a (fun s1 =>
      if ins : bool then perform w s1 EInsights (fun s2 a => simple s2 a go) else go s1))
  | _, _, _ => bail s
  end.

(** 449-756 process_serviceinfo_in: the entries, then the user and the subscription; the reboot flag is in the state. *)
Definition process (c : crypto) (w : machine) (prefix : option str) (l : silist) (out : silist) : res :=
  andthen (steps c w prefix (dst0 out) (si_iter l)) (fun s =>
  andthen (finish_ssh w s) (finish_rhsm w)).
