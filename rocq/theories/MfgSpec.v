(** What the manufacturing server must have seen before it stores a voucher, and what the voucher holds. *)
From Verif Require Import Base CborModel ValueModel Text Assoc RvSpec Hex TypesModel VoucherModel CryptoSpec VoucherSpec KexModel StoreModel StoreSpec
  Backend BackendSpec MsgModel SessionModel SessionSpec RvServerModel RvServerSpec SiModel OwnerModel MfgModel.
Local Open Scope N_scope.

(** * Messages *)
(** A ProvideKey message is an array of the key's bytes, as numbers, and a storage type. *)
Definition names_key (pt key : bytes) : Prop :=
  exists v x y l, dec_top pt = Some v /\ as_fields v = [x; y] /\ untag x = VArr l /\ all_some (map as_u8 l) = Some key.
(** A Connect message is an array of a nonce, a suite, a cipher and the key exchange's bytes as numbers. *)
Definition names_exchange (body : bytes) (suite : kexsuite) (ci : cipher) (x : bytes) : Prop :=
  exists v n k c y l, dec_top body = Some v /\ as_fields v = [n; k; c; y] /\ OwnerModel.as_kexsuite k = Some suite /\ OwnerModel.as_cipher c = Some ci /\
    untag y = VArr l /\ all_some (map as_u8 l) = Some x.
(** A SetHMAC message is an array of the HMAC. *)
Definition names_hmac (pt : bytes) (h : hash) : Prop := exists v x, dec_top pt = Some v /\ as_fields v = [x] /\ as_hash x = Some h.
(** An AppStart message is an array of a byte string, which encodes a text. *)
Definition names_info (pt : bytes) (info : str) : Prop :=
  exists v x raw u t, dec_top pt = Some v /\ as_fields v = [x] /\ as_bytebuf x = Some raw /\ dec_top raw = Some u /\ untag u = VText t /\ utf8_dec t = Some info.

Section runs.
Context (c : crypto) (chk : bool) (ko : kex_ops) (kf : keyfns) (mkcert : bytes -> bytes -> str -> bytes -> bytes -> option bytes) (cf : mfconf) (A : aead).
Context {W : Type} (be : backend voucher W).
Definition mfobs := obs (W:=W) (D:=mfdata) (M:=mfmsg) (E:=mfenv).

(** Session [id] agreed on the keys [k]: from a secret drawn for it and the value in the other side's Connect message. *)
Definition exchanged (os : list mfobs) (id : str) (k : ekeys) : Prop :=
  exists s body m w e suite ci x kx raw, In (Ran id DIUNConnect s body m w e) os /\ names_exchange body suite ci x /\ me_kex e suite = Some kx /\
    derive_key ko (mf_kdf_avail cf) OwnerService ci kx x (match me_kdf e with Some h => text_eqb h (txt "true") | None => false end) = Ok raw /\
    k = EKeys (Some (Z.to_N (cipher_num ci))) (Some (Combined raw)).
(** Session [id] completed the provisioning of a device key: it sent [der], under keys agreed on in the session, to a
    server that is set up for it. *)
Definition provisioned (os : list mfobs) (id : str) (der : bytes) : Prop :=
  exists pre s body pt m w e post k, os = pre ++ Ran id DIUNProvideKey s body m w e :: post /\ mf_diun cf <> None /\
    ses_keys s = Some k /\ exchanged pre id k /\ ek_decrypt A k body = Ok pt /\ names_key pt der.

(** Session [id] was handed the header [hb] for a device with [key], for which [leaf] was made.  The key is the one
    provisioned in the session or, where plain DI is allowed, the one on file under the device's information. *)
Definition handed (os : list mfobs) (id : str) (hb : bytes) (info : str) (guid leaf key : bytes) : Prop :=
  exists pre s body pt m w e post der signer rest,
    os = pre ++ Ran id DIAppStart s body m w e :: post /\ ek_decrypt A (keys_of s) body = Ok pt /\ names_info pt info /\ me_guid e = guid /\
    (exists d ks, snd (sv_handle (mf_server c chk ko kf mkcert cf be) DIAppStart w s m e) = HReply d ks hb) /\
    (provisioned pre id der \/ (mf_di cf = true /\ me_pubkeys e info = Ok (Some der))) /\ c_key_of_der c der = Some key /\
    mf_ca cf = signer :: rest /\ mkcert signer (mf_ca_sk cf) info key (me_cert e) = Some leaf.

(** What a header made for a device says. *)
Definition header_for (h : header) (info : str) (guid leaf : bytes) : Prop :=
  hd_version h = V1_1 /\ hd_guid h = guid /\ hd_rv h = mf_rv cf /\ hd_devinfo h = trim info /\
  (exists key, c_cert_key c (mf_cert cf) = Some key /\ pk_key (hd_mfg h) = key) /\
  hd_chain_hash h = Some (Hash Sha384 (c_hash c Sha384 (concat (leaf :: mf_ca cf)))).

(** [v], under [k], is a voucher that came out of a session: the header handed out in it, the HMAC the device sent for
    it, a chain that begins with a certificate of the device's key; and it is the configured owner's. *)
Definition issued_in_session (os : list mfobs) (k : key) (v : voucher) : Prop :=
  exists pre id s body pt m w e post hmac hb h info guid leaf devkey,
    os = pre ++ Ran id DISetHMAC s body m w e :: post /\ ek_decrypt A (keys_of s) body = Ok pt /\ names_hmac pt hmac /\
    handed pre id hb info guid leaf devkey /\
    header_raw v hb /\ header_deserialize c chk hb = Ok h /\ ov_header v = h /\ header_for h info guid leaf /\
    ov_hmac v = hmac /\ ov_chain v = Some (leaf :: mf_ca cf) /\ c_cert_key c leaf = Some devkey /\
    guid_text guid = Some k /\
    match mf_owner cf with
    | None => entries_raw v = []
    | Some (_, owner) => exists p, verify_entries c chk v = Ok [p] /\ p_key p = owner
    end.
End runs.

(** * Assumptions *)
(** A certificate that is made is one for the key, and can be read. *)
Definition certifies (c : crypto) (mkcert : bytes -> bytes -> str -> bytes -> bytes -> option bytes) : Prop :=
  forall signer sk info key rnd cert, mkcert signer sk info key rnd = Some cert ->
    c_cert_key c cert = Some key /\ c_cert_of_der c cert = Some cert /\ bytes_ok cert /\ nlen cert < 1048576.
(** A configuration that can be used: its values are well-formed and of moderate size. *)
Definition mfconf_ok (c : crypto) (cf : mfconf) : Prop :=
  rv_ok (mf_rv cf) /\ nlen (enc (rv_info_val (mf_rv cf))) < 4294967296 /\
  chain_ok c (mf_ca cf) /\ nlen (mf_ca cf) < 65536 /\ nlen (enc (x5chain_val (mf_ca cf))) < 4294967296 /\
  match mf_owner cf with None => True | Some (_, owner) => pubkey_valid c owner /\ nlen (pk_data owner) < 4294967296 end.
(** Requests carry bytes, also when decrypted; GUIDs drawn have 16 bytes. *)
Definition mf_request_ok (body : bytes) (e : mfenv) : Prop := bytes_ok body /\ bytes_ok (me_guid e) /\ nlen (me_guid e) = 16.
Definition opens_bytes (A : aead) : Prop := forall k body pt, bytes_ok body -> unseal A k body = Some pt -> bytes_ok pt /\ nlen pt <= nlen body.
(** Between requests anything may happen to the store except that vouchers appear. *)
Definition mf_event_ok {W} (keeps : W -> key -> voucher -> Prop) (ev : event (W:=W) (E:=mfenv)) : Prop :=
  match ev with
  | EArrive rq => mf_request_ok (rq_body rq) (rq_env rq)
  | EWorld f => forall w, forgets keeps w (f w)
  | _ => True
  end.
