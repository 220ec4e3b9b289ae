(** The service info API server (serviceinfo-api-server/src/main.rs) and the owner server's use of it
    (owner-onboarding-server/src/handlers.rs:476-584). *)
From Verif Require Import Base ValueModel Text Hex TypesModel SiModel DevSiModel.
Local Open Scope N_scope.

(** serde_json::Value.  Simplification: no floating point numbers. *)
Inductive json := JNull | JBool (b : bool) | JInt (z : Z) | JStr (s : str) | JArr (l : list json) | JObj (l : list (str * json)).
(** Serialized by ciborium (types.rs:750-751). *)
Fixpoint json_val (j : json) : cval :=
  match j with
  | JNull => VNull
  | JBool b => VBool b
  | JInt z => VInt z
  | JStr s => VText (utf8_enc s)
  | JArr l => VArr (map json_val l)
  | JObj l => VMap (map (fun kv => (VText (utf8_enc (fst kv)), json_val (snd kv))) l)
  end.

(** ** Configuration: util/src/servers/configuration/serviceinfo_api_server.rs *)

(** lines 76-81 ServiceInfoInitialUser *)
Record inituser := InitUser { iu_name : str; iu_pw : option str; iu_keys : option (list str) }.
(** lines 49-63 ServiceInfoFile as configured; [rf_source]: what reading source_path gives *)
Record rawfile := RawFile { rf_path : str; rf_perms : option str; rf_source : option bytes }.
(** the same with the fields from_settings fills in *)
Record sifile := SiFile { sf_path : str; sf_mode : option N; sf_len : N; sf_hex : str; sf_hash : str }.
(** lines 65-74 ServiceInfoCommand *)
Record sicommand := SiCommand { sc_cmd : str; sc_args : list str; sc_may_fail : bool; sc_stdout : bool; sc_stderr : bool }.
(** lines 36-47 *)
Record sidisk := SiDisk { sd_label : str; sd_pin : str; sd_config : str; sd_reencrypt : bool }.
(** lines 19-34 ServiceInfoSettings.  additional_serviceinfo is a map: here a list in the (arbitrary) order of its
    iteration. *)
Record settings (F : Type) := Settings {
  st_user : option inituser;
  st_files : option (list F);
  st_commands : option (list sicommand);
  st_disks : option (list sidisk);
  st_extra : option (list (simod * list (str * str)));
  st_reboot : option bool
}.
Arguments Settings {F}. Arguments st_user {F}. Arguments st_files {F}. Arguments st_commands {F}. Arguments st_disks {F}.
Arguments st_extra {F}. Arguments st_reboot {F}.

(** u32::from_str_radix(_, 8): digits, an optional plus sign, no overflow *)
Fixpoint octal_digits (acc : N) (s : str) : option N :=
  match s with
  | [] => Some acc
  | x :: r => if (48 <=? x) && (x <=? 55) then
                let a := acc * 8 + (x - 48) in if a <? 4294967296 then octal_digits a r else None
              else None
  end.
Definition parse_octal (s : str) : option N :=
  match s with
  | [] => None
  | x :: r => if x =? 43 then match r with [] => None | _ => octal_digits 0 r end else octal_digits 0 s
  end.

(** main.rs:33-60, one file *)
Definition prepare_file (c : crypto) (f : rawfile) : option sifile :=
  match (match rf_perms f with Some p => option_map Some (parse_octal p) | None => Some None end), rf_source f with
  | Some mode, Some data => Some (SiFile (rf_path f) mode (nlen data) (hex_enc data) (hex_enc (c_hash c Sha384 data)))
  | _, _ => None
  end.
(** main.rs:27-67 from_settings; [None]: the server does not start *)
Definition from_settings (c : crypto) (s : settings rawfile) : option (settings sifile) :=
  match st_files s with
  | None => Some (Settings (st_user s) None (st_commands s) (st_disks s) (st_extra s) (st_reboot s))
  | Some fs => option_map (fun l => Settings (st_user s) (Some l) (st_commands s) (st_disks s) (st_extra s) (st_reboot s))
                          (all_some (map (prepare_file c) fs))
  end.

(** ** The reply *)
Definition extra := (simod * str * json)%type.
(** util/src/servers/mod.rs:165-173 *)
Record reply := Reply { ar_user : option inituser; ar_extra : option (list extra); ar_reboot : option bool }.

(** main.rs:96-102 ServiceInfoApiReplyBuilder (its extra commands) *)
Record builder := Builder { bl_enabled : list simod; bl_extra : option (list extra) }.
Definition builder0 := Builder [] None.
Definition extras (b : builder) : list extra := match bl_extra b with Some l => l | None => [] end.

(** main.rs:104-129 add_extra *)
Definition add_extra (b : builder) (m : simod) (key : str) (v : json) : builder :=
  let l := extras b in
  if existsb (simod_eqb m) (bl_enabled b) then Builder (bl_enabled b) (Some (l ++ [(m, key, v)]))
  else Builder (m :: bl_enabled b) (Some ((l ++ [(m, txt "active", JBool true)]) ++ [(m, key, v)])).

Fixpoint add_all (b : builder) (m : simod) (l : list (str * json)) : builder :=
  match l with [] => b | (k, v) :: r => add_all (add_extra b m k v) m r end.

(** main.rs:262-288 *)
Definition file_commands (f : sifile) : list (str * json) :=
  [(txt "name", JStr (sf_path f)); (txt "length", JInt (Z.of_N (sf_len f)))]
  ++ (match sf_mode f with Some m => [(txt "mode", JInt (Z.of_N m))] | None => [] end)
  ++ [(txt "data001|hex", JStr (sf_hex f)); (txt "sha-384|hex", JStr (sf_hash f))].
(** main.rs:299-321 *)
Definition command_commands (c : sicommand) : list (str * json) :=
  [(txt "command", JStr (sc_cmd c)); (txt "args", JArr (map JStr (sc_args c))); (txt "may_fail", JBool (sc_may_fail c));
   (txt "return_stdout", JBool (sc_stdout c)); (txt "return_stderr", JBool (sc_stderr c)); (txt "execute", JBool true)].
(** main.rs:335-360 *)
Definition disk_commands (d : sidisk) : list (str * json) :=
  [(txt "disk-label", JStr (sd_label d)); (txt "pin", JStr (sd_pin d)); (txt "config", JStr (sd_config d));
   (txt "reencrypt", JBool (sd_reencrypt d)); (txt "execute", JNull)].

Fixpoint add_each {A} (b : builder) (m : simod) (f : A -> list (str * json)) (l : list A) : builder :=
  match l with [] => b | x :: r => add_each (add_all b m (f x)) m f r end.

(** main.rs:380-391 *)
Fixpoint add_additional (asked : list simod) (b : builder) (l : list (simod * list (str * str))) : builder :=
  match l with
  | [] => b
  | (m, lines) :: r =>
    add_additional asked (if existsb (simod_eqb m) asked then add_all b m (map (fun kv => (fst kv, JStr (snd kv))) lines) else b) r
  end.

Definition when {A} (asked : list simod) (m : simod) (x : option A) : option A := if existsb (simod_eqb m) asked then x else None.
Definition listed {A} (x : option (list A)) : list A := match x with Some l => l | None => [] end.

(** main.rs:207-393 serviceinfo_handler after the version check.  [per_device]: settings_per_device
    (util/src/servers/mod.rs:63-105) read for this device, [None] an error. *)
Definition make_reply (conf : settings sifile) (per_device : option (option inituser)) (asked : list simod) : reply :=
  let user := when asked SSHKey (match per_device with Some u => u | None => st_user conf end) in
  let b1 := add_each builder0 BinaryFile file_commands (listed (when asked BinaryFile (st_files conf))) in
  let b2 := add_each b1 Command command_commands (listed (when asked Command (st_commands conf))) in
  let b3 := add_each b2 DiskEncryption disk_commands (listed (when asked DiskEncryption (st_disks conf))) in
  let b4 := add_additional asked b3 (listed (st_extra conf)) in
  Reply user (bl_extra b4) (when asked Reboot (st_reboot conf)).

(** main.rs:404-413: the comma-separated modules *)
Definition COMMA : N := 44.
Definition asked_of (s : str) : list simod := map simod_of (split_on COMMA s).

(** ** Requests: main.rs:131-205, 436-492 *)
Inductive verb := GET | POST | OtherVerb.
(** main.rs:415-424 QueryInfo before reading the modules, and main.rs:152-157 AdminV0Request *)
Record query := Query { q_version : N; q_guid : bytes; q_modules : str }.
Record admin := Admin { am_guid : bytes; am_info : list extra }.
(** [hr_auth]: the Authorization header, if present and readable text; [hr_query], [hr_body]: parsed, if they can be *)
Record hrequest := HReq { hr_verb : verb; hr_path : list str; hr_auth : option str; hr_query : option query; hr_body : option admin }.
(** What a request leads to. *)
Inductive reaction := Refused | Replied (r : reply) | Stores (a : admin) | Pong.

(** main.rs:427-433, 444-447: the configured tokens become header values *)
Record tokens := Tokens { tk_info : option str; tk_admin : option str }.
Definition bearer (s : str) : str := txt "Bearer " ++ s.
Definition tokens_of (info adm : option str) : tokens := Tokens (option_map bearer info) (option_map bearer adm).

(** main.rs:131-150 *)
Definition admin_auth (t : tokens) (header : str) : bool :=
  match tk_admin t with None => false | Some tok => text_eqb tok header end.
(** main.rs:187-205 *)
Definition info_auth (t : tokens) (header : str) : bool :=
  match tk_info t with None => true | Some tok => text_eqb tok header end.

(** main.rs:458-482: the routes in their order; a rejected route lets the next one try.  ping_handler
    (http-wrapper/src/server.rs:365-370) answers POST on /ping. *)
Definition serve (t : tokens) (conf : settings sifile) (per_device : bytes -> option (option inituser)) (r : hrequest) : reaction :=
  let seg s := match hr_path r with p :: _ => text_eqb p s | [] => false end in
  match hr_verb r with
  | GET =>
    if seg (txt "device_info") then
      match hr_auth r with
      | None => Refused
      | Some h =>
        if info_auth t h then
          match hr_query r with
          | Some q => if q_version q =? 1 then Replied (make_reply conf (per_device (q_guid q)) (asked_of (q_modules q))) else Refused
          | None => Refused
          end
        else Refused
      end
    else Refused
  | POST =>
    if seg (txt "admin") && match hr_path r with _ :: p :: _ => text_eqb p (txt "v0") | _ => false end then
      match hr_auth r with
      | None => Refused
      | Some h => if admin_auth t h then match hr_body r with Some a => Stores a | None => Refused end else Refused
      end
    else if seg (txt "ping") then Pong else Refused
  | OtherVerb => Refused
  end.

(** ** The owner server: handlers.rs:476-584 *)

(** handlers.rs:499-518: the last "modules" value of devmod; [Err]: unreadable *)
Fixpoint dedupe (seen l : list str) : list str :=
  match l with
  | [] => []
  | x :: r => if existsb (text_eqb x) seen then dedupe seen r else x :: dedupe (x :: seen) r
  end.
Definition module_list (v : cval) : option (list str) :=
  match untag v with
  | VArr l => option_map (dedupe []) (all_some (map as_string (skipn 2 l)))
  | _ => None
  end.
Fixpoint last_modules (acc : option (list str)) (l : list sientry) : outcome unit (option (list str)) :=
  match l with
  | [] => Ok acc
  | (m, key, v) :: r =>
    if simod_eqb m DevMod && text_eqb key (txt "modules") then
      match module_list v with Some ms => last_modules (Some ms) r | None => Err tt end
    else last_modules acc r
  end.

(** [join(",")]; the set's order is arbitrary, here the order of arrival *)
Fixpoint join (sep : N) (l : list str) : str :=
  match l with
  | [] => []
  | [x] => x
  | x :: r => x ++ sep :: join sep r
  end.

(** [str::ends_with] and [str::replace(_, "")] *)
Definition suffixb (p s : str) : bool := prefixb (rev p) (rev s).
Fixpoint remove_all (k : nat) (p s : str) : str :=
  match k with
  | O => s
  | S k' =>
    match s with
    | [] => []
    | x :: r => if prefixb p s then remove_all k' p (skipn (length p) s) else x :: remove_all k' p r
    end
  end.

(** handlers.rs:558-572, one extra command; [None]: an error *)
Definition add_reply_extra (l : silist) (x : extra) : option silist :=
  let '(m, key, v) := x in
  if suffixb (txt "|hex") key then
    match v with
    | JStr s => match hex_dec s with
                | Some b => Some (si_add l m (remove_all (length key) (txt "|hex") key) (VBytes b))
                | None => None
                end
    | _ => None
    end
  else Some (si_add l m key (json_val v)).
Fixpoint add_reply_extras (l : silist) (xs : list extra) : option silist :=
  match xs with
  | [] => Some l
  | x :: r => match add_reply_extra l x with Some l1 => add_reply_extras l1 r | None => None end
  end.

Definition text_v (s : str) : cval := VText (utf8_enc s).

(** handlers.rs:533-582: the list for the device *)
Definition list_of_reply (r : reply) : option silist :=
  let l1 := match ar_user r with
            | None => []
            | Some u =>
              let a := si_add [] SSHKey (txt "active") (VBool true) in
              let b := si_add a SSHKey (txt "username") (text_v (iu_name u)) in
              let c := match iu_pw u with Some p => si_add b SSHKey (txt "password") (text_v p) | None => b end in
              match iu_keys u with Some ks => si_add c SSHKey (txt "sshkeys") (text_v (join SEMI ks)) | None => c end
            end in
  match add_reply_extras l1 (listed (ar_extra r)) with
  | None => None
  | Some l2 =>
    Some (match ar_reboot r with
          | Some b => si_add (si_add l2 Reboot (txt "active") (VBool true)) Reboot (txt "reboot") (VBool b)
          | None => l2
          end)
  end.

(** handlers.rs:476-584 perform_service_info.  [api]: what the API answers to a query for these modules, [None] an error.
    The reply: more to come, done, the list. *)
Definition perform_service_info (api : str -> option reply) (loop_num : N) (msg : silist) : option (bool * bool * silist) :=
  if negb (loop_num =? 0) then Some (false, true, [])
  else match last_modules None (si_iter msg) with
       | Ok (Some ms) =>
         match api (join COMMA ms) with
         | None => None
         | Some r => option_map (fun l => (false, false, l)) (list_of_reply r)
         end
       | _ => None
       end.
