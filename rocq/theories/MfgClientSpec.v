(** What a device relies on while it is initialised: who its manufacturing server is, and what its credential says. *)
From Verif Require Import Base CborModel ValueModel Text TypesModel VoucherModel CryptoSpec ChainSpec VoucherSpec KexModel RvModel MsgModel SessionModel
  HttpClientModel RvServerModel SiModel DevSiModel OwnerModel MfgModel MfgSpec ClientModel ClientSpec MfgClientModel.
Local Open Scope N_scope.

(** * The server *)
(** A chain of certificates (leaf first) that is good enough for how the device is set up: it leads to a certificate with
    the given digest, to one of the given certificates, or it is checked for its first link only. *)
Definition trusted (c : crypto) (m : vmode) (ch : list bytes) (leaf : bytes) : Prop :=
  match m with
  | VHash d => (h_type d = Sha256 \/ h_type d = Sha384) /\ reaches c (fun cert => c_hash c (h_type d) cert = h_value d) ch leaf
  | VCerts bag => reaches c (fun cert => exists t, In t bag /\ c_hash c Sha256 t = c_hash c Sha256 cert) ch leaf
  | VInsecure => ch = [leaf] \/ exists issuer rest, ch = leaf :: issuer :: rest /\ linked c leaf issuer
  end.
(** A signed token says, under [k] of its protected header, [v]. *)
Definition protects (tok : cose) (k : Z) (v : bytes) : Prop :=
  exists hv hm x, dec_top (cs_prot tok) = Some hv /\ untag hv = VMap hm /\ hdr_get k hm = Some x /\ as_bstr16 x = Some v.

(** Up to [h], the server has proved to be one the device trusts: asked with a nonce of the device's, it sent a token with
    a chain the device accepts, signed with the key of the chain's leaf, with that nonce under the signature; and [keys]
    are agreed on with what the token says. *)
Definition server_authenticated (c : crypto) (chk : bool) (ko : kex_ops) (avail : bool) (wo : world) (m : vmode) (h : list devent) (keys : ekeys) : Prop :=
  exists url w rest kx pub b tok x p ch leaf key other nonint raw,
    h = TWire url w :: rest /\ wr_type w = 210 /\
    wr_body w = enc (VArr [VBytes (wo_rand wo [] 0); text_val (txt "ECDH384"); VInt 3; VArr (map (fun n => VInt (Z.of_N n)) pub)]) /\
    wo_kex wo [] Ecdh384 = Some kx /\ get_public ko kx = Ok pub /\
    came_back wo [] url w b /\ cose_deserialize chk b = Ok tok /\
    hdr_get 257 (cs_unprot tok) = Some x /\ as_pubkey c x = Some p /\ pk_certs p = Some ch /\
    trusted c m ch leaf /\ c_cert_key c leaf = Some key /\ signed_by c key tok /\ protects tok 256 (wo_rand wo [] 0) /\
    (exists v y l, dec_top (cs_payload tok) = Some v /\ as_fields v = [y] /\ untag y = VArr l /\ all_some (map as_u8 l) = Some other) /\
    derive_key ko avail KDevice A256Gcm kx other nonint = Ok raw /\ keys = EKeys (Some 3) (Some (Combined raw)).

(** The first event of a run is a request that says nothing about the device. *)
Definition first_contact (e : devent) : Prop := exists url w, e = TWire url w /\ wr_type w = 210.
(** A request that says nothing about the device, or is encrypted with these keys *)
Definition confidential (A : aead) (keys : ekeys) (e : devent) : Prop :=
  match e with
  | TWire _ w => (wr_type w = 212 /\ wr_body w = enc (VArr [VNull])) \/ exists nonce pt, ek_encrypt A keys nonce pt = Ok (wr_body w)
  | _ => True
  end.

(** * The credential *)
(** The request [w], the last in [h ++ [w]], was answered with [b] under [keys]. *)
Definition answered (A : aead) (wo : world) (h : list devent) (url : str) (w : wire) (keys : ekeys) (b : bytes) : Prop :=
  exists ct, came_back wo h url w ct /\ ek_decrypt A keys ct = Ok b.
(** A new key is where the server allows keys to be, or in a file if it says nothing about that, and is of the curve asked
    for: the server's answer to the request for the parameters, under [keys], says so. *)
Definition storage_allowed (A : aead) (wo : world) (keys : ekeys) (h : list devent) (k : keystore) : Prop :=
  exists h1 url w rest b kt allowed, h = h1 ++ TWire url w :: rest /\ wr_type w = 212 /\ answered A wo h1 url w keys b /\
    from_slice as_keyparams b = Ok (kt, allowed) /\ (kt = 10 \/ kt = 11) /\
    match k with
    | Plain _ _ => match allowed with Some l => In 0 l | None => True end
    | Tpm t _ _ => (exists l n, allowed = Some l /\ In n l /\ n <> 0) /\ t = (if kt =? 10 then Sha256 else Sha384)
    end.
(** The device's keys: those it was set up with, or new ones, where the server allows them, whose public half, in the DER
    encoding, it sent to the server. *)
Definition keys_known (A : aead) (c : crypto) (to_der : bytes -> bytes) (wo : world) (su : setup) (keys : ekeys) (h : list devent) (k : keystore) : Prop :=
  match su with
  | PlainDI _ given => exists s sk, given = Some (s, sk) /\ k = Plain s sk
  | WithDiun _ => exists url w nonce pt, In (TWire url w) h /\ wr_type w = 214 /\ ek_encrypt A keys nonce pt = Ok (wr_body w) /\
      names_key pt (to_der (c_pub c (ks_sk k))) /\ storage_allowed A wo keys h k
  end.
(** [dc], with the device info [info], is what a device should know after it received the header [hd]: it is active, and
    has the header's GUID and rendezvous information and the hash of the manufacturer's key. *)
Definition credential_for (c : crypto) (hd : header) (info : str) (dc : devcred) : Prop :=
  dc_active dc = true /\ dc_version dc = V1_1 /\ dc_guid dc = hd_guid hd /\ dc_rv dc = hd_rv hd /\ info = hd_devinfo hd /\
  exists kraw, nth_error (pa_items (hd_contents hd)) 4 = Some kraw /\ dc_mfg dc = Hash Sha384 (c_hash c Sha384 kraw).
(** The credential is written over whatever there was: [data] to its file. *)
Definition writes_credential (e : devent) (data : bytes) : Prop := e = TFx (EWrite CRED_PATH data 438).
(** Keys a session may use: none in plain DI, agreed ones with DIUN *)
Definition session_keys (c : crypto) (chk : bool) (ko : kex_ops) (avail : bool) (wo : world) (su : setup) (h : list devent) (keys : ekeys) : Prop :=
  match su with
  | PlainDI _ _ => keys = EKeys None None
  | WithDiun m => server_authenticated c chk ko avail wo m h keys
  end.
(** After [h] the device has its header and wrote [data], a credential for it. *)
Definition initialised (A : aead) (c : crypto) (chk : bool) (ko : kex_ops) (avail : bool) (to_der : bytes -> bytes) (wo : world) (su : setup)
  (h : list devent) (data : bytes) (keys : ekeys) (hd : header) (info : str) (dc : devcred) : Prop :=
  exists h1 url w b, h = h1 ++ [TWire url w] /\ wr_type w = 10 /\
    session_keys c chk ko avail wo su h keys /\ answered A wo h1 url w keys b /\ header_deserialize c chk b = Ok hd /\
    from_slice as_cred data = Ok (info, dc) /\ credential_for c hd info dc /\ keys_known A c to_der wo su keys h (dc_keys dc).

(** ** What is left behind *)
(** What may be on the disk after [l], when [h] went before and it was [old] then: a write that succeeds leaves what was
    written, one that fails leaves the old file or a damaged one. *)
Fixpoint may_leave (wo : world) (h : list devent) (old : credfile) (l : list devent) (new : credfile) : Prop :=
  match l with
  | [] => new = old
  | e :: r =>
    exists mid, may_leave wo (h ++ [e]) mid r new /\
      match e with
      | TFx (EWrite path data _) =>
        if text_eqb path CRED_PATH then
          match wo_fx wo (h ++ [e]) with
          | Fine => mid = match from_slice as_cred data with Ok (_, dc) => Cred dc | _ => Unreadable end
          | _ => mid = old \/ mid = Unreadable
          end
        else mid = old
      | _ => mid = old
      end
  end.
(** A device that will be initialised when it is started next *)
Definition will_initialise (f : credfile) : Prop := f = NoCred \/ exists dc, f = Cred dc /\ dc_active dc = false.
(** The server has answered the device's HMAC with a Done message under [keys]. *)
Definition acknowledged (A : aead) (wo : world) (keys : ekeys) (h : list devent) : Prop :=
  exists h1 url w b, h = h1 ++ [TWire url w] /\ wr_type w = 12 /\ answered A wo h1 url w keys b /\ from_slice as_unit_struct b = Ok tt.

(** * Assumptions *)
(** What comes back from the network are bytes, fewer than four gigabytes; what is decrypted are bytes too. *)
Definition sane_small (wo : world) : Prop := forall h r b, wo_resp wo h = Some r -> hr_body r = Some b -> bytes_ok b /\ nlen b < 4294967296.
(** The device's keys are bytes. *)
Definition key_bytes (s : bytes) : Prop := bytes_ok s /\ nlen s < 4294967296.
Definition good_keys (c : crypto) (to_der : bytes -> bytes) (newkey : list devent -> N -> N -> option (bytes * bytes)) (su : setup) : Prop :=
  (forall k, key_bytes (to_der k)) /\
  (forall h kt st s sk, newkey h kt st = Some (s, sk) -> key_bytes s /\ key_bytes sk) /\
  (forall stype s sk, su = PlainDI stype (Some (s, sk)) -> key_bytes s /\ key_bytes sk).
