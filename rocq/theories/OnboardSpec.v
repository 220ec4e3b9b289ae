(** A device and an owner's server that belong together: how the device's world is the server's doing, and what both have
    to start with. *)
From Verif Require Import Base CborModel ValueModel Text Assoc Hex TypesModel VoucherModel CryptoSpec VoucherSpec KexModel KexSpec RvModel StoreModel StoreSpec Backend
  MsgModel SessionModel SessionSpec HttpClientModel HttpClientSpec RvServerModel RvServerSpec SiModel DevSiModel SiSpec SiApiModel SiApiSpec OwnerModel OwnerSpec ClientModel ClientSpec.
Local Open Scope N_scope.

(** * The owner's server, as the device meets it *)
Section owner.
Context {W : Type}.
(** What surrounds a request at the server: what happened there since the device's last one, and what the server draws
    for this one ([an_iv]: for the encryption of the reply) *)
Record around := Around {
  an_before : list (sevent W owenv);
  an_now : N; an_nonce : bytes; an_kex : kexsuite -> option kex; an_guid : bytes; an_rnd : bytes; an_api : str -> str -> option reply;
  an_token : str; an_id : str; an_iv : bytes }.
(** The request that a wire of the device is at the server *)
Definition owner_env (x : around) (w : HttpClientModel.wire) : owenv :=
  OwEnv (an_now x) (an_nonce x) (an_kex x) (an_guid x) (an_rnd x) (if wr_kdf w then Some (txt "true") else None) (an_api x) IoOk.
Definition owner_request (x : around) (w : HttpClientModel.wire) : request owenv :=
  Req (wr_type w) true (wr_auth w) (wr_body w) (owner_env x w) (an_token x) (an_id x) (an_iv x) true.
Definition responses (os : list (obs (W:=W) (D:=owdata) (M:=owmsg) (E:=owenv))) : list response :=
  flat_map (fun o => match o with Sent r => [r] | _ => [] end) os.

(** The server [sv] behind [url]: [at_ h] is its state when the device has done [h].  What the device sends there is
    taken up and answered, and nothing else the device does concerns the server.  [av]: the server has the interoperable
    key derivation. *)
Record served (A : aead) (idt : str -> option str) (sv : server W owdata owmsg owenv) (av : bool) (wo : world) (url : str)
    (surr : list devent -> around) (at_ : list devent -> sys (W:=W) (D:=owdata)) : Prop := {
  sd_wire : forall h w,
    let y := fst (sys_run A idt sv (at_ h) (sequential (an_before (surr h)))) in
    let r := sys_run A idt sv y (one_request (owner_request (surr h) w) NoFault) in
    at_ (h ++ [TWire url w]) = fst r /\ wo_resp wo (h ++ [TWire url w]) = to_hresponse av (last (responses (snd r)) Dropped) [];
  sd_rest : forall h e, (forall w, e <> TWire url w) -> at_ (h ++ [e]) = at_ h }.

(** What happens at the server between two requests of the device: time passes, but less than the ten minutes after
    which a session is forgotten; sessions are cleaned up; the store changes, but keeps what it holds for the device; and
    others make requests, in sessions of their own. *)
Definition ticks (l : list (sevent W owenv)) : N := fold_right (fun e n => match e with STick d => d + n | _ => n end) 0 l.
Definition unrelated (idt : str -> option str) (id : str) (holds : W -> Prop) (e : sevent W owenv) : Prop :=
  match e with
  | STick _ | SMaint => True
  | SWorld f => forall w, holds w -> holds (f w)
  | SReq rq _ => rq_new_id rq <> id /\ forall a, rq_auth rq = Some a -> idt (token_of a) <> Some id
  end.
Definition quiet (idt : str -> option str) (id : str) (holds : W -> Prop) (l : list (sevent W owenv)) : Prop :=
  ticks l <= 599 * SES_SEC /\ Forall (unrelated idt id holds) l.

(** A store that holds the voucher [v] under [k] while [holds] is so: it is found, it can be marked, and whatever the
    server does to it, it is still there. *)
Record keeper (be : backend voucher W) (k : str) (v : voucher) (holds : W -> Prop) : Prop := {
  kp_load : forall now w, holds w -> b_load be now w k = (w, Ok (Some v));
  kp_loads : forall now w k' w' r, holds w -> b_load be now w k' = (w', r) -> holds w';
  kp_meta : forall now w, holds w -> exists w', b_meta be now w k To2Performed (MBool true) = (w', Ok tt);
  kp_metas : forall now w k' w' r, holds w -> b_meta be now w k' To2Performed (MBool true) = (w', r) -> holds w' }.
End owner.
Arguments around W : clear implicits.
(** In a directory: a file without an expiry; in a table: a row *)
Definition dir_holds {V} (cd : codec V) (k : str) (v : V) (d : dir) : Prop :=
  exists f, aget (get_path k) d = Some f /\ de cd (f_data f) = Some v /\ aget (xname Ttl) (f_xattr f) = None.
Definition db_holds {V} (cd : codec V) (k : str) (v : V) (t : table) : Prop := exists r, aget k t = Some r /\ de cd (r_contents r) = Some v.

(** * Who belongs to whom *)
(** The device with the credential [dc] is that of the voucher [v]: the GUID is the voucher's, the HMAC was made by the
    device, its manufacturer's key is the one the device knows, and the certificate is for the device's key. *)
Record its_voucher (c : crypto) (chk : bool) (dc : devcred) (v : voucher) : Prop := {
  iv_guid : dc_guid dc = hd_guid (ov_header v);
  iv_guid_ok : bytes_ok (dc_guid dc) /\ nlen (dc_guid dc) = 16;
  iv_hmac : exists hb, header_raw v hb /\ nlen hb < 4294967296 /\ header_deserialize c chk hb = Ok (ov_header v) /\ perform_hmac c (dc_keys dc) hb (h_type (ov_hmac v)) = Ok (ov_hmac v);
  iv_mfg : exists kraw, nth_error (pa_items (hd_contents (ov_header v))) 4 = Some kraw /\ digest_of c (dc_mfg dc) kraw;
  iv_cert : exists leaf rest, ov_chain v = Some (leaf :: rest) /\ c_cert_key c leaf = Some (c_pub c (ks_sk (dc_keys dc)));
  iv_alg : c_alg c (c_pub c (ks_sk (dc_keys dc))) <> None }.
(** A key the server can write down *)
Definition writable (c : crypto) (p : pubkey) : Prop := pubkey_valid c p /\ nlen (pk_data p) < 4294967296.
(** The owner with the configuration [cf] owns the device of [v]: the voucher was made by this implementation and is no
    longer than the device can take (C29), its entries verify and lead to the owner's key, and the owner signed the
    redirect [to1d]. *)
Record its_owner (c : crypto) (chk : bool) (cf : owconf) (v : voucher) (to1d : cose) : Prop := {
  io_issued : issued c chk v;
  io_number : 1 <= nlen (entries_raw v) <= 256;
  io_key : exists ps, verify_entries c chk v = Ok ps /\ pk_key (owner_after v ps) = c_pub c (oc_sk cf);
  io_to1d : signed_by c (c_pub c (oc_sk cf)) to1d;
  io_alg : c_alg c (c_pub c (oc_sk cf)) <> None /\ c_alg c (c_pub c (oc_sk2 cf)) <> None;
  io_pub : writable c (oc_pub cf) /\ writable c (oc_pub2 cf) }.

(** * What both sides have to work with *)
(** The key exchange never fails between keys that have a public part, and its keys can be used. *)
Definition kex_works (ko : kex_ops) : Prop :=
  (forall s k P k', ec_pub ko s k = Some P -> ec_pub ko s k' <> None -> ec_mul ko s P k' <> None) /\
  (forall b i s n, kdf ko b i s n <> None).

(** Encrypting does not shorten. *)
Definition seal_longer (A : aead) : Prop := forall k n p ct, seal A k n p = Some ct -> nlen p <= nlen ct.
Definition nonce_ok (n : bytes) : Prop := bytes_ok n /\ nlen n = 16.
Definition kex_ok (ko : kex_ops) (k : option kex) : Prop :=
  exists key r, k = Some (Ecdh Ecdh384 key r) /\ bytes_ok r /\ nlen r = 48 /\ ec_pub ko Ecdh384 key <> None.

(** What the server draws, and the service info API it asks ([conf]: that server's configuration) *)
Record owner_ready {W} (ko : kex_ops) (idt : str -> option str) (x : around W) : Prop := {
  or_nonce : nonce_ok (an_nonce x);
  or_kex : kex_ok ko (an_kex x Ecdh384);
  or_guid : nonce_ok (an_guid x);
  or_token : no_space (an_token x) /\ idt (an_token x) = Some (an_id x) }.
(** The device: files can be written, the system is known, its modules are, what it draws is what is needed, and the
    machine does what it is told. *)
Definition offered (wo : world) : list simod := [DevMod; SSHKey; BinaryFile; Command; Reboot] ++ wo_mods wo.
Definition obliging (wo : world) : Prop := forall h e,
  match e with
  | ERun _ _ => exists out err, wo_fx wo (h ++ [TFx e]) = Output out err (Some 0%Z) /\ bytes_ok out /\ bytes_ok err
  | _ => wo_fx wo (h ++ [TFx e]) = Fine
  end.
Record device_ready (ko : kex_ops) (wo : world) : Prop := {
  dr_io : forall h, wo_io wo h = true;
  dr_rand : forall h, nonce_ok (wo_rand wo h 0);
  dr_kex : forall h, kex_ok ko (wo_kex wo h Ecdh384);
  dr_release : exists name, wo_release wo = Some (Some name) /\ sendable name;
  dr_arch : sendable (wo_arch wo);
  dr_mods : NoDup (wo_mods wo) /\ Forall (fun m => In m (map fst known_modules)) (wo_mods wo);
  dr_fx : obliging wo }.

(** What the configuration says is to be done on the device, for the modules it has *)
Definition configured (prefix : option str) (conf : settings rawfile) (user : option inituser) (mods : list simod) (es : list effect) : Prop :=
  exists written, Forall2 (file_written prefix) (part mods BinaryFile (st_files conf)) written /\
    es = written ++ map command_run (part mods Command (st_commands conf)) ++ flat_map disk_bound (part mods DiskEncryption (st_disks conf)) ++
         match user with Some u => user_made u | None => [] end.
(** The requests of a session, in order: HelloDevice, each entry, ProveDevice, ready; two rounds of service info with the
    effects in between; then the marker, the credential and Done. *)
Definition wire_of (url : str) (n : N) (e : devent) : Prop := exists w, e = TWire url w /\ wr_type w = n.
Definition session_of (url : str) (entries : N) (es : list effect) (m : deactivation) (l : list devent) : Prop :=
  exists e60 l62 e64 e66 e68 e68' e70,
    l = e60 :: l62 ++ e64 :: e66 :: e68 :: map TFx es ++ e68' :: TMark true :: put_away m ++ [e70] /\
    wire_of url 60 e60 /\ Forall (wire_of url 62) l62 /\ nlen l62 = entries /\ wire_of url 64 e64 /\ wire_of url 66 e66 /\
    wire_of url 68 e68 /\ wire_of url 68 e68' /\ wire_of url 70 e70.
(** No request is larger than the server takes (server.rs:426). *)
Definition fits (h : list devent) : Prop := forall url w, In (TWire url w) h -> nlen (wr_body w) <= 16384.
