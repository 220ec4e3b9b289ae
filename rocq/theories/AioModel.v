(** The all-in-one of fdo-admin-tool: making the keys and the configurations (admin-tool/src/aio/configure.rs,
    admin-tool/src/main.rs:45-96), running (admin-tool/src/aio/mod.rs:140-213, execute.rs), and what the four servers make of
    their configurations when they start.
    Simplifications: paths are relative to the all-in-one's directory; a file's contents are the key, the certificate or the
    document in it (DER, PEM and YAML themselves are not modelled: what was written to the end is read back as it was written;
    what a reader makes of a file that was not is left open); there are no other configuration files on the host, in
    /etc/fdo/*.conf.d or /usr/share/fdo (LayerModel.v says what becomes of them); the directories and files the servers make when they run
    (stores/, logs/, work/) are not followed.  An interruption is the end of the process; power losses are not modelled. *)
From Verif Require Import Base CborModel ValueModel Text TypesModel Assoc RvModel RvYamlModel RvServerModel SiApiModel OwnerModel To0Model MfgModel.
Local Open Scope N_scope.

(** * Options *)
(** configure.rs:16-72 Configuration, without the fields filled in later (:64-71) *)
Record aopts := AOpts {
  ao_org : str; ao_country : str; ao_listen : str;
  ao_mfg_port : N; ao_own_port : N; ao_rv_port : N; ao_api_port : N;
  ao_separate : bool; ao_plain_di : bool; ao_no_fs : bool; ao_no_tpm : bool; ao_p256 : bool;
  ao_period : option N; ao_window : option N; ao_hostname : option str }.
(** configure.rs:81-109 *)
Definition default_opts : aopts :=
  AOpts (txt "FDO AIO") (txt "US") (txt "0.0.0.0") 8080 8081 8082 8083 false false false true false
    (Some DEFAULT_REGISTRATION_PERIOD) (Some DEFAULT_RE_REGISTRATION_WINDOW) None.
(** configure.rs:74-79 ContactAddress *)
Inductive contact := CIp (ip : bytes) | CHost (h : str).
(** configure.rs:64-71: the fields filled in *)
Record aconf := AConf { ac_opts : aopts; ac_contacts : list contact; ac_token : str; ac_admin : str }.

(** * Settings: util/src/servers/configuration *)
(** mod.rs:13-55 Bind: the address and the port *)
Record listen := Listen { ls_ip : str; ls_port : N }.
(** rendezvous_server.rs:7-22 *)
Record rv_settings := RvSettings { rs_store : name; rs_sessions : name; rs_mfg : option name; rs_dev : option name; rs_max : option N; rs_bind : listen }.
(** serviceinfo_api_server.rs:9-20 *)
Record api_settings := ApiSettings { as_info : settings rawfile; as_bind : listen; as_token : option str; as_admin : option str; as_store : name }.
(** manufacturing_server.rs:52-62 *)
Record diun_settings := DiunSettings { ds_string : N; ds_key_type : N; ds_storage : list N; ds_key : name; ds_cert : name }.
(** manufacturing_server.rs:10-49 *)
Record mfg_settings := MfgSettings {
  ms_sessions : name; ms_vouchers : name; ms_keys : option name; ms_bind : listen; ms_plain_di : option bool; ms_diun : option diun_settings;
  ms_rv : list (list (str * yaml)); ms_cert : name; ms_ca_key : name; ms_ca_chain : name; ms_owner : option name; ms_key : option name }.
(** types.rs:1994-2020 RemoteAddress, RemoteConnection; the transport by its number *)
Inductive raddr := RIp (s : str) | RDns (s : str).
Record rconn := RConn { rc_transport : N; rc_addrs : list raddr; rc_port : N }.
(** owner_onboarding_server.rs:7-38; the authentication is a bearer token (configure.rs:376-379) *)
Record own_settings := OwnSettings {
  os_vouchers : name; os_sessions : name; os_dev : option name; os_key : name; os_pub : name; os_bind : listen;
  os_api : str; os_token : str; os_addrs : list rconn; os_report : bool; os_period : option N; os_window : option N }.

(** * The directory *)
Inductive content :=
| CKey (sk : bytes) | CCert (cert : bytes)
| CRv (s : rv_settings) | CApi (s : api_settings) | CMfg (s : mfg_settings) | COwn (s : own_settings)
| CRecord (a : aconf).
(** A directory; a file written to the end; one that was not, with what a reader makes of it *)
Inductive node := NDir | NWhole (x : content) | NPart (as_read : option content).
Definition adir := list (name * node).
Definition read (d : adir) (p : name) : option content :=
  match aget p d with Some (NWhole x) => Some x | Some (NPart x) => x | _ => None end.

Inductive op := Mkdir (p : name) | Write (p : name) (x : content).
(** std::fs::create_dir(_all); File::create and the writes *)
Definition do_op (d : adir) (o : op) : adir := match o with Mkdir p => aset p NDir d | Write p x => aset p (NWhole x) d end.
(** How a process ends: by itself; when it has done so many steps; in the middle of writing the next file *)
Inductive ending := Complete | After (n : nat) | Within (n : nat) (as_read : option content).
Definition do_ops (d : adir) (l : list op) (e : ending) : adir * bool :=
  match e with
  | Complete => (fold_left do_op l d, true)
  | After n => (fold_left do_op (firstn n l) d, false)
  | Within n r => let d1 := fold_left do_op (firstn n l) d in
                  (match skipn n l with Write p _ :: _ => aset p (NPart r) d1 | _ => d1 end, false)
  end.

(** * Keys: admin-tool/src/main.rs:45-96 *)
(** main.rs:157-190 *)
Inductive subject := SDiun | SManufacturer | SDeviceCA | SOwner.
Definition file_name (s : subject) : str :=
  match s with SDiun => txt "diun" | SManufacturer => txt "manufacturer" | SDeviceCA => txt "device_ca" | SOwner => txt "owner" end.
Definition key_path (s : subject) : name := txt "keys/" ++ file_name s ++ txt "_key.der".
Definition cert_path (s : subject) : name := txt "keys/" ++ file_name s ++ txt "_cert.pem".

(** What is drawn or asked of the system: the keys' randomness, the tokens, the interface addresses (octets) *)
Record draws := Draws { dr_rnd : subject -> bytes; dr_token : str; dr_admin : str; dr_ifs : list bytes }.

(** * The configurations *)
(** configure.rs:405-419 (std::net: is_unspecified, is_loopback, is_multicast) *)
Definition is_valid_address (ip : bytes) : bool :=
  match ip with
  | [a; b; x; d] => negb ((a =? 0) && (b =? 0) && (x =? 0) && (d =? 0)) && negb (a =? 127) && negb ((224 <=? a) && (a <=? 239))
  | a :: _ => negb (bytes_eqb ip (repeat 0 16)) && negb (bytes_eqb ip (repeat 0 15 ++ [1])) && negb (a =? 255)
  | [] => false
  end.
(** configure.rs:488-519 *)
Definition contact_addresses (o : aopts) (ifs : list bytes) : list contact :=
  match ao_hostname o with Some h => [CHost h] | None => map CIp (filter is_valid_address ifs) end.

Section Configs.
(** [std::net::IpAddr]'s Display; [mk_key]: a new P-256 key and its self-signed certificate for this subject, organization and
    country, from this randomness (main.rs:60-83); None: openssl refuses, for example a country that is not two letters *)
Context (show_ip : bytes -> str) (mk_key : subject -> str -> str -> bytes -> option (bytes * bytes)).

(** configure.rs:112-151; a BTreeMap, so in the order of the keys *)
Definition rendezvous_entry (port : N) (a : contact) : list (str * yaml) :=
  (txt "deviceport", YInt (Z.of_N port)) ::
  (match a with CIp ip => (txt "ip_address", YStr (show_ip ip)) | CHost h => (txt "dns", YStr h) end) ::
  [(txt "ownerport", YInt (Z.of_N port)); (txt "protocol", YStr (txt "http"))].
Definition generate_rendezvous_info (a : aconf) : list (list (str * yaml)) := map (rendezvous_entry (ao_rv_port (ac_opts a))) (ac_contacts a).
(** configure.rs:153-172 *)
Definition generate_owner_addresses (a : aconf) : list rconn :=
  [RConn TP_Http (map (fun x => match x with CIp ip => RIp (show_ip ip) | CHost h => RDns h end) (ac_contacts a)) (ao_own_port (ac_opts a))].
(** configure.rs:201-207: whatever [listen_ip_address] says *)
Definition get_bind (port : N) : listen := Listen (txt "0.0.0.0") port.

(** configure.rs:209-234 *)
Definition rv_config (a : aconf) : rv_settings :=
  RvSettings (txt "stores/rendezvous_registered") (txt "stores/rendezvous_sessions") (Some (cert_path SManufacturer)) (Some (cert_path SDeviceCA))
    None (get_bind (ao_rv_port (ac_opts a))).
(** configure.rs:238-254, 174-183 *)
Definition api_config (a : aconf) : api_settings :=
  ApiSettings (Settings None None None None None (Some false)) (get_bind (ao_api_port (ac_opts a))) (Some (ac_token a)) (Some (ac_admin a))
    (txt "stores/serviceinfo_api_devices").
(** configure.rs:263-334; constants/mod.rs: SECP256R1 = 10, SECP384R1 = 11; FileSystem = 0, Tpm = 1; SerialNumber = 0 *)
Definition mfg_config (a : aconf) : mfg_settings :=
  let o := ac_opts a in
  MfgSettings (txt "stores/manufacturing_sessions") (if ao_separate o then txt "stores/manufacturing_vouchers" else txt "stores/owner_vouchers")
    (Some (txt "stores/manufacturer_keys")) (get_bind (ao_mfg_port o)) (Some (ao_plain_di o))
    (Some (DiunSettings 0 (if ao_p256 o then 10 else 11) ((if ao_no_tpm o then [] else [1]) ++ (if ao_no_fs o then [] else [0])) (key_path SDiun) (cert_path SDiun)))
    (generate_rendezvous_info a) (cert_path SManufacturer) (key_path SDeviceCA) (cert_path SDeviceCA) (Some (cert_path SOwner)) (Some (key_path SManufacturer)).
(** configure.rs:343-389 *)
Definition own_config (a : aconf) : own_settings :=
  let o := ac_opts a in
  OwnSettings (txt "stores/owner_vouchers") (txt "stores/owner_onboarding_sessions") (Some (cert_path SDeviceCA)) (key_path SOwner) (cert_path SOwner)
    (get_bind (ao_own_port o)) (txt "http://localhost:" ++ dec_str (ao_api_port o) ++ txt "/device_info") (ac_token a)
    (generate_owner_addresses a) true (ao_period o) (ao_window o).

(** configure.rs:441-463 *)
Definition directories (o : aopts) : list op :=
  map Mkdir ([txt "work"; txt "keys"; txt "configs"; txt "stores"; txt "logs"; txt "stores/mfg_sessions"; txt "stores/rendezvous_sessions";
              txt "stores/owner_sessions"; txt "stores/manufacturing_sessions"; txt "stores/rendezvous_registered"; txt "stores/owner_vouchers";
              txt "stores/serviceinfo_api_per_device"; txt "stores/manufacturer_keys"]
             ++ if ao_separate o then [txt "stores/manufacturing_vouchers"] else []).
(** configure.rs:465-480: stops where a key cannot be made *)
Fixpoint key_steps (o : aopts) (dr : draws) (l : list subject) : list op * bool :=
  match l with
  | [] => ([], true)
  | s :: r =>
    match mk_key s (ao_org o) (ao_country o) (dr_rnd dr s) with
    | None => ([], false)
    | Some (sk, cert) => let (ops, ok) := key_steps o dr r in (Write (key_path s) (CKey sk) :: Write (cert_path s) (CCert cert) :: ops, ok)
    end
  end.
(** configure.rs:185-397, in the order of the writes, and 525-528 *)
Definition RECORD : name := txt "aio_configuration".
Definition configs (a : aconf) : list op :=
  [Write (txt "configs/rendezvous_server.yml") (CRv (rv_config a)); Write (txt "configs/serviceinfo_api_server.yml") (CApi (api_config a));
   Write (txt "configs/manufacturing_server.yml") (CMfg (mfg_config a)); Write (txt "configs/owner_onboarding_server.yml") (COwn (own_config a));
   Write RECORD (CRecord a)].
(** configure.rs:482-522 *)
Definition filled_in (o : aopts) (dr : draws) : aconf := AConf o (contact_addresses o (dr_ifs dr)) (dr_token dr) (dr_admin dr).
(** configure.rs:441-529: all steps, and whether they lead to the end *)
Definition steps (o : aopts) (dr : draws) : list op * bool :=
  let (ks, ok) := key_steps o dr [SDiun; SManufacturer; SDeviceCA; SOwner] in
  (directories o ++ ks ++ if ok then configs (filled_in o dr) else [], ok).

(** configure.rs:421-529.  The directory may not be there ([None]); true: Ok(()) *)
Definition generate_configs_and_keys (d : option adir) (o : option aopts) (dr : draws) (e : ending) : option adir * bool :=
  let o := match o with Some o => o | None => default_opts end in
  match d with
  | Some ((_ :: _) as d) => (Some d, false)               (* :433-439: configured already, or not empty *)
  | _ => let (ops, ok) := steps o dr in let (d1, done) := do_ops [] ops e in (Some d1, ok && done)
  end.

(** * Running *)
(** mod.rs:163-171: generate-configs-and-keys; 173-213: run, or no command at all.  The result of a run is the record the
    all-in-one has read when it starts the servers. *)
Inductive cmd := Generate (o : aopts) (dr : draws) (e : ending) | Run (dr : draws) (e : ending).
Definition run (d : option adir) (dr : draws) (e : ending) : option adir * option aconf :=
  let there := match d with Some d => match aget RECORD d with Some _ => true | None => false end | None => false end in
  let (d1, ok) := if there then (d, true) else generate_configs_and_keys d None dr e in
  (d1, if ok then match d1 with Some x => match read x RECORD with Some (CRecord a) => Some a | _ => None end | None => None end else None).
Definition command (d : option adir) (k : cmd) : option adir :=
  match k with
  | Generate o dr e => fst (generate_configs_and_keys d (Some o) dr e)
  | Run dr e => fst (run d dr e)
  end.
Definition commands (l : list cmd) (d : option adir) : option adir := fold_left command l d.
End Configs.

(** * The servers start *)
(** What a server that is up works with *)
Record rv_up := RvUp { ru_bind : listen; ru_conf : rvconf; ru_store : name; ru_sessions : name }.
Record api_up := ApiUp { au_bind : listen; au_tokens : tokens; au_info : settings sifile; au_store : name }.
Record mfg_up := MfgUp { mu_bind : listen; mu_conf : mfconf; mu_vouchers : name; mu_sessions : name; mu_keys : option name }.
Record own_up := OwnUp { ou_bind : listen; ou_conf : owconf; ou_to0 : to0conf; ou_api : str; ou_auth : str; ou_vouchers : name; ou_sessions : name }.
Record servers := Servers { sv_mfg : mfg_up; sv_own : own_up; sv_rv : rv_up; sv_api : api_up }.

Section Start.
Context (c : crypto) (kf : keyfns) (parse_ip : str -> option bytes).

Definition opt {A B} (o : option A) (k : A -> option B) : option B := match o with Some x => k x | None => None end.
Local Notation "'odo!' x := m 'in' k" := (opt m (fun x => k)) (at level 200, x name, k at level 200).
Definition each {A B} (f : A -> option B) (o : option A) : option (option B) :=
  match o with None => Some None | Some x => option_map Some (f x) end.
Definition oks {E A} (m : outcome E A) : option A := match m with Ok x => Some x | _ => None end.

Definition read_key (d : adir) (p : name) : option bytes := match read d p with Some (CKey sk) => Some sk | _ => None end.
(** X509::from_pem; the files have one certificate each, so stack_from_pem gives a list of one *)
Definition read_cert (d : adir) (p : name) : option bytes := match read d p with Some (CCert x) => Some x | _ => None end.
Definition read_certs (d : adir) (p : name) : option (list bytes) := option_map (fun x => [x]) (read_cert d p).

(** rendezvous-server/src/main.rs:61, 68-126 *)
Definition DEFAULT_MAX_WAIT_SECONDS : N := 2592000.
Definition start_rv (d : adir) : option rv_up :=
  odo! s := match read d (txt "configs/rendezvous_server.yml") with Some (CRv s) => Some s | _ => None end in
  odo! mfg := each (read_certs d) (rs_mfg s) in
  odo! dev := each (read_certs d) (rs_dev s) in
  Some (RvUp (rs_bind s) (RvConf (match rs_max s with Some m => m | None => DEFAULT_MAX_WAIT_SECONDS end) mfg dev) (rs_store s) (rs_sessions s)).

(** serviceinfo-api-server/src/main.rs:430-456 *)
Definition start_api (d : adir) : option api_up :=
  odo! s := match read d (txt "configs/serviceinfo_api_server.yml") with Some (CApi s) => Some s | _ => None end in
  odo! i := from_settings c (as_info s) in
  Some (ApiUp (as_bind s) (tokens_of (as_token s) (as_admin s)) i (as_store s)).

(** manufacturing-server/src/main.rs:94-122 *)
Definition load_diun (d : adir) (s : diun_settings) : option diunconf :=
  odo! sk := read_key d (ds_key s) in
  odo! ch := read_certs d (ds_cert s) in
  odo! pub := oks (pubkey_of_chain c (kf_type kf) ch) in
  Some (DiunConf (ds_string s) (ds_key_type s) (ds_storage s) sk pub).
(** manufacturing-server/src/main.rs:175-277; [kdf]: the feature in the build *)
Definition start_mfg (kdf : bool) (d : adir) : option mfg_up :=
  odo! s := match read d (txt "configs/manufacturing_server.yml") with Some (CMfg s) => Some s | _ => None end in
  odo! ca_sk := read_key d (ms_ca_key s) in
  odo! ca := read_certs d (ms_ca_chain s) in
  odo! cert := read_cert d (ms_cert s) in
  odo! sk := each (read_key d) (ms_key s) in
  odo! owner := each (fun p => odo! x := read_cert d p in oks (pubkey_of_cert c (kf_type kf) (kf_der kf) x)) (ms_owner s) in
  odo! pair := match sk, owner with Some a, Some b => Some (Some (a, b)) | None, None => Some None | _, _ => None end in
  odo! diun := each (load_diun d) (ms_diun s) in
  odo! rv := oks (load_settings parse_ip (ms_rv s)) in
  Some (MfgUp (ms_bind s) (MfConf cert pair ca_sk ca rv (match ms_plain_di s with Some b => b | None => false end) diun kdf)
          (ms_vouchers s) (ms_sessions s) (ms_keys s)).

(** types.rs:2032-2070; the transport's number is that of the protocol *)
Fixpoint entries_of (port transport : N) (l : list raddr) : option (list to2_addr) :=
  match l with
  | [] => Some []
  | RIp s :: r => odo! ip := parse_ip s in odo! x := entries_of port transport r in Some (Addr (Some ip) None port transport :: x)
  | RDns s :: r => odo! x := entries_of port transport r in Some (Addr None (Some s) port transport :: x)
  end.
(** owner-onboarding-server/src/main.rs:497-503 *)
Fixpoint addresses_of (l : list rconn) : option (list to2_addr) :=
  match l with
  | [] => Some []
  | x :: r => odo! a := entries_of (rc_port x) (rc_transport x) (rc_addrs x) in odo! b := addresses_of r in Some (a ++ b)
  end.
(** owner-onboarding-server/src/main.rs:395-541; [sk2], [pub2]: the new Owner2 key (:494-495) *)
Definition start_own (kdf : bool) (sk2 : bytes) (pub2 : pubkey) (d : adir) : option own_up :=
  odo! s := match read d (txt "configs/owner_onboarding_server.yml") with Some (COwn s) => Some s | _ => None end in
  odo! dev := each (read_certs d) (os_dev s) in
  odo! sk := read_key d (os_key s) in
  odo! cert := read_cert d (os_pub s) in
  odo! pub := oks (pubkey_of_cert c (kf_type kf) (kf_der kf) cert) in
  odo! t := registration_times (os_period s) (os_window s) in
  odo! addrs := addresses_of (os_addrs s) in
  Some (OwnUp (os_bind s) (OwConf sk pub sk2 pub2 kdf) (To0Conf dev addrs sk (fst t) (snd t)) (os_api s)
          (txt "Bearer " ++ os_token s) (os_vouchers s) (os_sessions s)).

(** The ports are free for each other: a second server on a port panics when it binds *)
Fixpoint distinct (l : list N) : bool := match l with [] => true | x :: r => negb (existsb (N.eqb x) r) && distinct r end.
(** execute.rs:226-244: the four servers, each with its configuration *)
Definition start_all (kdf : bool) (sk2 : bytes) (pub2 : pubkey) (d : adir) : option servers :=
  odo! m := start_mfg kdf d in
  odo! o := start_own kdf sk2 pub2 d in
  odo! r := start_rv d in
  odo! a := start_api d in
  if distinct (map ls_port [mu_bind m; ou_bind o; ru_bind r; au_bind a]) then Some (Servers m o r a) else None.
End Start.
