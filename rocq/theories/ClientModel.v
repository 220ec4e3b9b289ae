(** The device's client: client-linuxapp/src/main.rs, the loop of client-linuxapp/src/serviceinfo.rs:758-828 and the
    credential file (util/src/device_credential_locations.rs, data-formats/src/devicecredential). *)
From Verif Require Import Base CborModel ValueModel Text TypesModel VoucherModel KexModel RvModel MsgModel SessionModel HttpClientModel
  RvServerModel SiModel DevSiModel OwnerModel.
Local Open Scope N_scope.

(** devicecredential/file.rs:20-32.  The keys inside a TPM are data here like the others; a TPM computes the HMAC with
    the hash its key was made for (file.rs:80-117). Errors of the TPM are not modelled. *)
Inductive keystore := Plain (secret sk : bytes) | Tpm (t : hashtype) (secret sk : bytes).
Definition ks_sk (k : keystore) : bytes := match k with Plain _ sk | Tpm _ _ sk => sk end.
(** devicecredential/file.rs:155-165; the device info is not used *)
Record devcred := DevCred { dc_active : bool; dc_version : N; dc_guid : bytes; dc_rv : rv_info; dc_mfg : hash; dc_keys : keystore }.

(** file.rs:57-121 [perform_hmac] *)
Definition perform_hmac (c : crypto) (k : keystore) (data : bytes) (t : hashtype) : outcome ferr hash :=
  match k with
  | Plain s _ => hash_from_digest t (c_hmac c (inner_hash t) s data)
  | Tpm t' s _ => if digestible t' then hash_from_digest t' (c_hmac c t' s data) else Err FUnsupportedAlgorithm
  end.
(** file.rs:176-182 [verify_hmac] *)
Definition verify_hmac (c : crypto) (dc : devcred) (data : bytes) (hmac : hash) : outcome ferr unit :=
  let! mine := perform_hmac c (dc_keys dc) data (h_type hmac) in
  let! same := hash_eq hmac mine in
  if same : bool then Ok tt else Err FIncorrectHash.

(** What the device does that others, or the next start, can see.  fs::write empties the file before it writes;
    [ok]: whether it worked. *)
Inductive devent :=
| TWire (url : str) (w : wire)
| TFx (e : effect)
| TMark (ok : bool)       (* the marker file *)
| TErase (ok : bool)      (* the credential file is emptied ... *)
| TOff (ok : bool)        (* ... and written again, deactivated *)
| TDelete (ok : bool).    (* the credential file is deleted *)

(** What the device depends on: everything may depend on all that was done before. *)
Record world := World {
  wo_resp : list devent -> option hresponse;      (* the response to the request that is the last event *)
  wo_fx : list devent -> answer;                  (* the machine's answer to the effect that is the last event *)
  wo_io : list devent -> bool;                    (* whether the next file operation works *)
  wo_rand : list devent -> N -> bytes;            (* random bytes; the number tells draws apart *)
  wo_kex : list devent -> kexsuite -> option kex; (* a new key exchange *)
  wo_release : option (option str);               (* linux_os_release and its pretty name *)
  wo_arch : str;
  wo_mods : list simod                            (* the modules found on the device besides those always there *)
}.

(** The client of the session being run and its history *)
Record st := St { s_hist : list devent; s_url : str; s_hc : hclient }.
Definition dm (A : Type) := st -> st * outcome unit A.
Definition ret {A} (a : A) : dm A := fun s => (s, Ok a).
Definition fail {A} : dm A := fun s => (s, Err tt).
Definition lift {E A} (o : outcome E A) : dm A := fun s => (s, map_err (fun _ => tt) o).
Definition dbind {A B} (m : dm A) (f : A -> dm B) : dm B :=
  fun s => match m s with (s1, Ok a) => f a s1 | (s1, Err e) => (s1, Err e) | (s1, Panic p) => (s1, Panic p) end.
Notation "'do!' x ':=' c1 'in' c2" := (dbind c1 (fun x => c2)) (at level 61, x pattern, c1 at next level, right associativity).

(** * Messages *)
(** to2.rs:27-45, 17-25 *)
Definition hello_val (guid nonce5 : bytes) : cval :=
  VArr [VInt (Z.of_N MAX_MESSAGE_SIZE); bstr_val guid; bstr_val nonce5; text_val (kexsuite_name Ecdh384); VInt (cipher_num A256Gcm);
        siginfo_val (ES384, [])].
(** types.rs:837-882 *)
Record provehdr := ProveHdr { ph_header : bytes; ph_num : N; ph_hmac : hash; ph_nonce5 : bytes; ph_sig : Z * bytes; ph_kex : bytes }.
Definition read_provehdr (chk : bool) (s : bytes) : outcome ferr provehdr :=
  let! a := map_err FArray (parse_array_data chk (Some 8) s) in
  let! hdr := get (from_slice as_bytebuf) a 0 in
  let! num := get (from_slice as_u16) a 1 in
  let! hmac := get (from_slice as_hash) a 2 in
  let! n5 := get (from_slice as_bstr16) a 3 in
  let! sg := get (from_slice as_siginfo) a 4 in
  let! kx := get (from_slice as_bytebuf) a 5 in
  let! _ := get (from_slice as_hash) a 6 in
  let! _ := get (from_slice as_u16) a 7 in
  Ok (ProveHdr hdr num hmac n5 sg kx).
(** to2.rs:166-180 *)
Definition read_ovnext (chk : bool) (s : bytes) : outcome ferr (N * cose) :=
  let! a := map_err FArray (parse_array_data chk (Some 2) s) in
  let! n := get (from_slice as_u16) a 0 in
  let! e := get (cose_deserialize chk) a 1 in
  Ok (n, e).
(** to1.rs:46-50 *)
Definition as_rvack (v : cval) : option (bytes * (Z * bytes)) :=
  match as_fields v with [n; s] => match as_bstr16 n, as_siginfo s with Some n, Some s => Some (n, s) | _, _ => None end | _ => None end.
(** to2.rs:337-340 *)
Definition as_osiready (v : cval) : option unit :=
  match as_fields v with [m] => option_map (fun _ => tt) (as_option as_u64 m) | _ => None end.
(** to2.rs:425-430 *)
Definition as_osi (v : cval) : option (bool * bool * silist) :=
  match as_fields v with
  | [m; d; l] => match as_bool m, as_bool d, as_silist l with Some m, Some d, Some l => Some (m, d, l) | _, _, _ => None end
  | _ => None
  end.
(** types.rs:1568-1588 (to_map), 1668-1688 (new_eat); the order in which a HashMap is written is fixed here *)
Definition claims_val (payload : option cval) (nonce guid : bytes) : cval :=
  VMap (match payload with Some p => [(VInt EAT_FDO, p)] | None => [] end ++ [(VInt EAT_NONCE, bstr_val nonce); (VInt EAT_UEID, VBytes (as_ueid guid))]).

(** device_credential_locations.rs:37-42 *)
Inductive deactivation := KeepIt | DeleteIt | DeactivateIt.

Section device.
Context (A : aead) (c : crypto) (chk : bool) (ko : kex_ops) (avail : bool) (show_ip : bytes -> str) (prefix : option str) (wo : world).

(** http-wrapper/src/client.rs:164-304 (HttpClientModel.v), the reply's bytes being read afterwards *)
Definition raw_parse (m : mtype) (b : bytes) : outcome unit bytes := Ok b.
Definition ask (om sm : mtype) (body : outcome ferr bytes) (new : option ekeys) : dm bytes :=
  fun s =>
    let h := s_hist s in
    let b := match body with Ok b => Some b | _ => None end in
    match prepare A avail (s_hc s) om sm b new (wo_rand wo h 1) with
    | (hc, Ok w) =>
      let h := h ++ [TWire (s_url s) w] in
      let '(hc, r) := receive A raw_parse hc sm (wo_resp wo h) in
      (St h (s_url s) hc, map_err (fun _ => tt) r)
    | (hc, Err _) => (St h (s_url s) hc, Err tt)
    | (hc, Panic p) => (St h (s_url s) hc, Panic p)
    end.
Definition draw (n : N) : dm bytes := fun s => (s, Ok (wo_rand wo (s_hist s) n)).
(** A file operation *)
Definition io (ev : bool -> devent) : dm unit :=
  fun s => let ok := wo_io wo (s_hist s) in (St (s_hist s ++ [ev ok]) (s_url s) (s_hc s), if ok then Ok tt else Err tt).
(** main.rs:77-87: the error message sent (its text is not modelled) and what comes back is ignored *)
Definition complain : dm unit :=
  fun s => match (do! b := draw 3 in ask MError MError (Ok b) None) s with
           | (s1, Panic p) => (s1, Panic p)
           | (s1, _) => (s1, Ok tt)
           end.
Definition reporting {B} (m : dm B) : dm B :=
  fun s => match m s with
           | (s1, Err e) => match complain s1 with (s2, Panic p) => (s2, Panic p) | (s2, _) => (s2, Err e) end
           | r => r
           end.

(** main.rs:158-237 *)
Definition perform_hellorv (dc : devcred) : dm bytes :=
  do! b := ask TO1HelloRV TO1HelloRVAck (Ok (enc (VArr [bstr_val (dc_guid dc); siginfo_val (ES384, [])]))) None in
  do! (nonce4, sg) := lift (from_slice as_rvack b) in
  if negb (fst sg =? ES384)%Z then fail
  else if negb (nlen (snd sg) =? 0) then fail
  else
    do! rnd := draw 2 in
    do! t := lift (cose_new c chk (enc (claims_val None nonce4 (dc_guid dc))) [] (ks_sk (dc_keys dc)) rnd) in
    lift (cose_serialize t).
(** main.rs:239-260 *)
Definition perform_provetorv (token : bytes) : dm cose :=
  do! b := ask TO1ProveToRV TO1RVRedirect (Ok token) None in
  lift (cose_deserialize chk b).
(** main.rs:262-301 *)
Definition perform_to1 (dc : devcred) : dm cose :=
  do! t := reporting (perform_hellorv dc) in
  reporting (perform_provetorv t).

(** A new ServiceClient (client.rs:152-162) *)
Definition with_client {B} (url : str) (m : dm B) : dm B := fun s => m (St (s_hist s) url client_new).

(** main.rs:316-335 *)
Fixpoint get_to1d (dc : devcred) (urls : list str) : dm cose :=
  match urls with
  | [] => fail
  | u :: r => fun s => match with_client u (perform_to1 dc) s with
                       | (s1, Err _) => get_to1d dc r s1
                       | x => x
                       end
  end.

(** main.rs:337-370; [n] entries are still to come.  The number is sent as a u8. *)
Fixpoint get_entries (i : N) (n : nat) (es : list bytes) : dm (list bytes) :=
  match n with
  | O => ret es
  | S n' =>
    do! b := ask TO2GetOVNextEntry TO2OVNextEntry (Ok (enc (VArr [VInt (Z.of_N (i mod 256))]))) None in
    do! (num, e) := lift (read_ovnext chk b) in
    if negb (num =? i) then fail
    else do! raw := lift (cose_serialize e) in get_entries (i + 1) n' (es ++ [raw])
  end.

(** main.rs:384-500 *)
Definition check_hello (dc : devcred) (nonce5 : bytes) (tok : cose) : outcome ferr provehdr :=
  let! p := cose_get_payload_unverified (read_provehdr chk) tok in
  let! same := nonce_eq nonce5 (ph_nonce5 p) in
  if negb same then Err FIncorrectHash
  else if negb (fst (ph_sig p) =? ES384)%Z then Err FUnsupportedAlgorithm
  else if negb (nlen (snd (ph_sig p)) =? 0) then Err FUnsupportedAlgorithm
  else
    let! _ := verify_hmac c dc (ph_header p) (ph_hmac p) in
    let! h := header_deserialize c chk (ph_header p) in
    let! kh := mfg_key_hash c h (h_type (dc_mfg dc)) in
    let! _ := hash_compare (dc_mfg dc) kh in
    Ok p.
Definition perform_hellodevice (dc : devcred) (nonce5 : bytes) : dm (cose * provehdr) :=
  do! b := ask TO2HelloDevice TO2ProveOVHdr (Ok (enc (hello_val (dc_guid dc) nonce5))) None in
  do! tok := lift (cose_deserialize chk b) in
  do! p := lift (check_hello dc nonce5 tok) in
  ret (tok, p).

(** main.rs:502-527 *)
Definition get_nonce6 (tok : cose) : dm bytes :=
  do! o := lift (cose_get_unprotected as_bstr16 tok CUPH_NONCE) in
  match o with Some n => ret n | None => fail end.

(** main.rs:574-626: the voucher's last owner, then the two signatures *)
Definition check_owner (tok : cose) (p : provehdr) (to1d : cose) (es : list bytes) : outcome ferr provehdr :=
  let! v := voucher_from_parts c chk V1_1 (ph_header p) (ph_hmac p) (PA None es) in
  match iter_last c chk v (iter_entries v) (length es) None with
  | None => Err FNonOwnerKey
  | Some r =>
    let! last := r in
    let! p' := cose_get_payload c (read_provehdr chk) tok (pk_key (p_key last)) in
    let! _ := cose_verify c to1d (pk_key (p_key last)) in
    Ok p'
  end.
(** main.rs:529-628 *)
Definition get_and_verify (tok : cose) (p : provehdr) (to1d : cose) : dm provehdr :=
  do! es := get_entries 0 (N.to_nat (ph_num p)) [] in
  lift (check_owner tok p to1d es).

(** main.rs:630-678 *)
Definition key_derivation (p : provehdr) : dm (kex * ekeys) :=
  fun s =>
    match hc_kdf (s_hc s) with
    | None => (s, Err tt)
    | Some nonint =>
      lift (let! k := of_option FCrypto (wo_kex wo (s_hist s) Ecdh384) in
            let! raw := derive_key ko avail KDevice A256Gcm k (ph_kex p) nonint in
            Ok (k, from_derived (Z.to_N (cipher_num A256Gcm)) (Combined raw))) s
    end.

(** main.rs:681-793; the reply is read but not checked *)
Definition perform_provedevice (dc : devcred) (k : kex) (nonce6 nonce7 : bytes) (keys : ekeys) : dm unit :=
  do! rnd := draw 2 in
  do! t := lift (let! pub := get_public ko k in
                 cose_new c chk (enc (claims_val (Some (VArr [VBytes pub])) nonce6 (dc_guid dc)))
                   [(VInt EUPH_NONCE, bstr_val nonce7)] (ks_sk (dc_keys dc)) rnd) in
  do! b := ask TO2ProveDevice TO2SetupDevice (cose_serialize t) (Some keys) in
  do! _ := lift (cose_deserialize chk b) in
  ret tt.

(** main.rs:796-819 *)
Definition perform_siready : dm unit :=
  do! b := ask TO2DeviceServiceInfoReady TO2OwnerServiceInfoReady (Ok (enc (VArr [VNull; VNull]))) None in
  do! _ := lift (from_slice as_osiready b) in
  ret tt.

(** serviceinfo.rs:27-47, 764-795 *)
Definition P_RELEASE : N := 40.
Definition first_info : outcome unit silist :=
  let! rel := of_option tt (wo_release wo) in
  let! name := unwrap P_RELEASE rel in
  let l := si_add [] DevMod (txt "active") (VBool true) in
  let l := si_add l DevMod (txt "os") (text_val (txt "linux")) in
  let l := si_add l DevMod (txt "arch") (text_val (wo_arch wo)) in
  let l := si_add l DevMod (txt "version") (text_val name) in
  let l := si_add l DevMod (txt "device") (text_val (txt "unused")) in
  let l := si_add l DevMod (txt "sep") (text_val (txt ":")) in
  let l := si_add l DevMod (txt "bin") (text_val (wo_arch wo)) in
  Ok (si_add_modules l ([DevMod; SSHKey; BinaryFile; Command; Reboot] ++ wo_mods wo)).
(** process_serviceinfo_in (DevSiModel.v) in this history: whether to reboot, and the answer *)
Definition handle_info (l : silist) : dm (bool * silist) :=
  fun s =>
    let '(d, r) := process c (fun es => wo_fx wo (s_hist s ++ map TFx es)) prefix l [] in
    (St (s_hist s ++ map TFx (effects (d_log d))) (s_url s) (s_hc s), let! _ := r in Ok (d_reboot d, d_out d)).
(** serviceinfo.rs:797-828; [n] rounds are left *)
Fixpoint info_loop (n : nat) (out : silist) (reboot : bool) : dm bool :=
  match n with
  | O => fail
  | S n' =>
    do! b := ask TO2DeviceServiceInfo TO2OwnerServiceInfo (Ok (enc (VArr [VBool false; silist_val out]))) None in
    do! (more, done, l) := lift (from_slice as_osi b) in
    if done : bool then ret reboot
    else if more : bool then fail
    else
      do! (r, out') := handle_info l in
      info_loop n' out' (if reboot then true else r)
  end.
(** serviceinfo.rs:758-828 *)
Definition MAX_INFO_LOOPS : nat := 1000.
Definition perform_info : dm bool :=
  do! out := lift first_info in info_loop MAX_INFO_LOOPS out false.

(** main.rs:89-91 *)
Definition mark : dm unit := io TMark.
(** device_credential_locations.rs:76-107 *)
Definition deactivate (m : deactivation) : dm unit :=
  match m with
  | KeepIt => ret tt
  | DeleteIt => io TDelete
  | DeactivateIt => do! _ := io TErase in io TOff
  end.
(** main.rs:822-847 *)
Definition perform_done (nonce6 nonce7 : bytes) : dm unit :=
  do! b := ask TO2Done TO2Done2 (Ok (enc (VArr [bstr_val nonce6]))) None in
  do! n := lift (from_slice as_done b) in
  do! same := lift (nonce_eq (E:=unit) nonce7 n) in
  if same : bool then ret tt else fail.

(** main.rs:849-1061; drawing a nonce cannot fail here *)
Definition to2 (m : deactivation) (dc : devcred) (to1d : cose) : dm bool :=
  do! nonce5 := draw 0 in
  do! (tok, p) := reporting (perform_hellodevice dc nonce5) in
  do! nonce6 := reporting (get_nonce6 tok) in
  do! p := reporting (get_and_verify tok p to1d) in
  do! (k, keys) := reporting (key_derivation p) in
  do! nonce7 := draw 0 in
  do! _ := reporting (perform_provedevice dc k nonce6 nonce7 keys) in
  do! _ := reporting perform_siready in
  do! reboot := reporting perform_info in
  do! _ := reporting mark in
  do! _ := reporting (deactivate m) in
  do! _ := reporting (perform_done nonce6 nonce7) in
  ret reboot.
Definition perform_to2 (m : deactivation) (dc : devcred) (url : str) (to1d : cose) : dm bool := with_client url (to2 m dc to1d).

(** main.rs:1192-1212: the owner's addresses in turn; [None]: none of them worked *)
Fixpoint try_owners (m : deactivation) (dc : devcred) (to1d : cose) (urls : list str) : dm (option bool) :=
  match urls with
  | [] => ret None
  | u :: r => fun s => match perform_to2 m dc u to1d s with
                       | (s1, Ok b) => (s1, Ok (Some b))
                       | (s1, Err _) => try_owners m dc to1d r s1
                       | (s1, Panic p) => (s1, Panic p)
                       end
  end.
(** main.rs:1136-1216: the rendezvous directives in turn *)
Fixpoint try_directives (m : deactivation) (dc : devcred) (l : list rv_interp) : dm (option bool) :=
  match l with
  | [] => ret None
  | x :: r =>
    match get_client_list show_ip x with
    | None => try_directives m dc r
    | Some urls => fun s =>
      match get_to1d dc urls s with
      | (s1, Panic p) => (s1, Panic p)
      | (s1, Err _) => try_directives m dc r s1
      | (s1, Ok to1d) =>
        match cose_get_payload_unverified (from_slice as_to1payload) to1d with
        | Panic p => (s1, Panic p)
        | Err _ => try_directives m dc r s1
        | Ok pl =>
          match try_owners m dc to1d (get_to2_urls show_ip (t1_addrs pl)) s1 with
          | (s2, Ok None) => try_directives m dc r s2
          | x => x
          end
        end
      end
    end
  end.
(** main.rs:1133-1222: [n] times through the loop; [None]: still trying.  The pause between two rounds has no effect
    here. *)
Fixpoint try_rounds (m : deactivation) (dc : devcred) (l : list rv_interp) (n : nat) : dm (option bool) :=
  match n with
  | O => ret None
  | S n' => fun s => match try_directives m dc l s with
                     | (s1, Ok None) => try_rounds m dc l n' s1
                     | x => x
                     end
  end.

(** * Starting, main.rs:1085-1238 *)
(** What the device keeps: the marker file, the credential file (the first location found) and how it is deactivated *)
Inductive credfile := NoCred | Unreadable | Cred (dc : devcred).
Record devdisk := DevDisk { dd_marker : bool; dd_cred : credfile; dd_method : deactivation }.
(** [Skipped]: nothing to do; [Refused]: an error before anything was tried; [Trying]: the loop goes on *)
Inductive exit := Skipped | Refused | Trying | Onboarded (reboot : bool) | Crashed (p : N).
Definition st0 : st := St [] [] client_new.
(** [allow]: the environment variable ALLOW_NONINTEROPERABLE_KDF is set.  Re-encryption (main.rs:1104-1106) is not
    modelled; nor is the reboot command. *)
Definition main (allow : bool) (d : devdisk) (n : nat) : list devent * exit :=
  if negb avail && negb allow then ([], Refused)
  else if dd_marker d then ([], Skipped)
  else match dd_cred d with
       | NoCred => ([], Skipped)
       | Unreadable => ([], Refused)
       | Cred dc =>
         if negb (dc_active dc) then ([], Skipped)
         else if negb (dc_version dc =? V1_1) then ([], Refused)
         else match to_interpreted (dc_rv dc) Device with
              | Ok [] | Err _ => ([], Refused)
              | Panic p => ([], Crashed p)
              | Ok l =>
                match try_rounds (dd_method d) dc l n st0 with
                | (s, Ok (Some b)) => (s_hist s, Onboarded b)
                | (s, Ok None) => (s_hist s, Trying)
                | (s, Err _) => (s_hist s, Trying)
                | (s, Panic p) => (s_hist s, Crashed p)
                end
              end
       end.

(** What an event does to what is kept *)
Definition deactivated (dc : devcred) : devcred := DevCred false (dc_version dc) (dc_guid dc) (dc_rv dc) (dc_mfg dc) (dc_keys dc).
Definition disk_after1 (dc : devcred) (d : devdisk) (ev : devent) : devdisk :=
  match ev with
  | TMark true => DevDisk true (dd_cred d) (dd_method d)
  | TErase true => DevDisk (dd_marker d) Unreadable (dd_method d)
  | TOff true => DevDisk (dd_marker d) (Cred (deactivated dc)) (dd_method d)
  | TDelete true => DevDisk (dd_marker d) NoCred (dd_method d)
  | _ => d
  end.
Definition disk_after (d : devdisk) (h : list devent) : devdisk :=
  match dd_cred d with Cred dc => fold_left (disk_after1 dc) h d | _ => d end.
End device.
