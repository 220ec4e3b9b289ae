(** A device that is initialised and the manufacturing server it is set up for: what both have to start with. *)
From Verif Require Import Base CborModel ValueModel Text Assoc Hex TypesModel VoucherModel CryptoSpec VoucherSpec KexModel KexSpec RvModel StoreModel StoreSpec Backend
  MsgModel SessionModel SessionSpec HttpClientModel HttpClientSpec RvServerModel RvServerSpec SiModel DevSiModel OwnerModel MfgModel MfgSpec ClientModel ClientSpec MfgClientModel MfgClientSpec
  OnboardSpec ServeSpec.
Local Open Scope N_scope.

(** * The server *)
(** A store that takes a voucher under [k] while that is [free], and then has it ([stored]). *)
Record shelf {W} (be : backend voucher W) (cd : codec voucher) (free : W -> str -> Prop) (stored : W -> str -> voucher -> Prop) : Prop := {
  sf_store : forall w k v data, guid_text (hd_guid (ov_header v)) = Some k -> ser cd v = Ok data -> de cd data = Some v -> free w k ->
    exists w', b_store be w k v = (w', Ok tt) /\ stored w' k v }.
(** In a directory: no temporary file is left over from an interrupted store; in a table: there is no row. *)
Definition dir_free (d : dir) (k : str) : Prop := aget (tmp_of (get_path k)) d = None.
Definition db_free (t : table) (k : str) : Prop := aget k t = None.
(** What the server draws for the requests of this device, and the public keys it has on file; its store works.  [g]: the GUID
    drawn for the device. *)
Record mf_ready {W} (ko : kex_ops) (idt : str -> option str) (g : bytes) (pubs : str -> outcome unit (option bytes)) (x : surround W mfenv) : Prop := {
  my_env : exists now kx rnd cert, kex_ok ko (kx Ecdh384) /\
    forall w, su_env x w = MfEnv now g kx rnd cert (if wr_kdf w then Some (txt "true") else None) pubs IoOk;
  my_token : no_space (su_token x) /\ idt (su_token x) = Some (su_id x) }.
(** The device has not sent its HMAC yet: until then there is no voucher for it. *)
Definition unsent (h : list devent) : Prop := forall u w, In (TWire u w) h -> wr_type w <> 12.
(** The server can make vouchers: it has a certificate authority and a manufacturer's certificate; and if it is to give the
    vouchers to an owner, it has the manufacturer's private key. *)
Record can_issue (c : crypto) (kf : keyfns) (cf : mfconf) : Prop := {
  ci_conf : mfconf_ok c cf;
  ci_rv : nlen (enc (rv_info_val (mf_rv cf))) < 1073741824;
  ci_ca : mf_ca cf <> [];
  ci_cert : exists k t, c_cert_key c (mf_cert cf) = Some k /\ kf_type kf k = Some t /\
    match mf_owner cf with None => True | Some (sk, _) => c_pub c sk = k /\ c_alg c k <> None end }.

(** * The device *)
(** A text that a header can hold (ownershipvoucher.rs:552-563) *)
Definition good_info (info : str) : Prop :=
  forallb is_scalar info = true /\ nlen (utf8_enc info) <= 16384 /\ Forall (fun ch => 32 <= ch mod 256 < 127) (trim info).
(** A key that can be certified for the device of that name, and used *)
Record good_key (c : crypto) (mkcert : bytes -> bytes -> str -> bytes -> bytes -> option bytes) (cf : mfconf) (info : str) (secret sk : bytes) : Prop := {
  gk_bytes : key_bytes secret /\ key_bytes sk;
  gk_alg : c_alg c (c_pub c sk) <> None;
  gk_cert : forall signer rest rnd, mf_ca cf = signer :: rest -> mkcert signer (mf_ca_sk cf) info (c_pub c sk) rnd <> None }.
(** A DIUN server whose chain of certificates the device trusts, set up for one of the two curves *)
Record good_diun (c : crypto) (m : vmode) (dn : diunconf) : Prop := {
  gd_chain : exists ch leaf, pk_certs (dn_pub dn) = Some ch /\ trusted c m ch leaf /\ c_cert_key c leaf = Some (c_pub c (dn_sk dn)) /\
    match m with VHash d => forall x, In x ch -> nlen (c_hash c (h_type d) x) = nlen (h_value d) | _ => True end;
  gd_alg : c_alg c (c_pub c (dn_sk dn)) <> None;
  gd_pub : writable c (dn_pub dn);
  gd_type : dn_key_type dn = 10 \/ dn_key_type dn = 11;
  gd_storage : Forall (fun t => t <= 1) (dn_storage dn) /\ nlen (dn_storage dn) < 4294967296;
  gd_string : dn_string dn <= 1 }.
(** Where the device may make its keys: in a file if the server does not say *)
Definition where_to (l : list N) : list N := match l with [] => [0] | _ => l end.
(** How the device is set up fits the server: it has keys and the server knows the public one; or it trusts the server's
    certificates and can make keys where the server wants them. *)
Inductive set_up_for (c : crypto) (to_der : bytes -> bytes) (mkcert : bytes -> bytes -> str -> bytes -> bytes -> option bytes) (cf : mfconf)
  (newkey : list devent -> N -> N -> option (bytes * bytes)) (pubs : str -> outcome unit (option bytes)) (mi : minfo) (info : str) : setup -> Prop :=
| for_plain stype secret sk der : mf_di cf = true -> get_info mi stype = Ok info -> pubs info = Ok (Some der) -> c_key_of_der c der = Some (c_pub c sk) ->
    good_key c mkcert cf info secret sk -> set_up_for c to_der mkcert cf newkey pubs mi info (PlainDI stype (Some (secret, sk)))
| for_diun m dn : mf_diun cf = Some dn -> good_diun c m dn -> get_info mi (dn_string dn) = Ok info ->
    (exists stg, In stg (where_to (dn_storage dn)) /\ forall h, newkey h (dn_key_type dn) stg <> None) ->
    (forall h stg secret sk, newkey h (dn_key_type dn) stg = Some (secret, sk) ->
       good_key c mkcert cf info secret sk /\ key_bytes (to_der (c_pub c sk)) /\ c_key_of_der c (to_der (c_pub c sk)) = Some (c_pub c sk)) ->
    set_up_for c to_der mkcert cf newkey pubs mi info (WithDiun m).
(** The device's machine: what it draws is what is needed, and the credential can be written. *)
Record new_device (ko : kex_ops) (wo : world) : Prop := {
  nd_rand : forall h, nonce_ok (wo_rand wo h 0);
  nd_kex : forall h, kex_ok ko (wo_kex wo h Ecdh384);
  nd_write : forall h data, wo_fx wo (h ++ [TFx (EWrite CRED_PATH data 438)]) = Fine }.
(** HMACs are as long as their kind says. *)
Definition hmac_sizes (c : crypto) : Prop := forall t s d, t = Sha256 \/ t = Sha384 -> bytes_ok (c_hmac c t s d) /\ nlen (c_hmac c t s d) = digest_size t.

(** * What is done *)
(** The requests of an initialisation, in order: with DIUN Connect, RequestKeyParameters and ProvideKey; then AppStart, the
    credential [data] is written, and SetHMAC. *)
Definition factory_session (url : str) (su : setup) (data : bytes) (l : list devent) : Prop :=
  exists pre e10 e12, l = pre ++ [e10; TFx (EWrite CRED_PATH data 438); e12] /\ wire_of url 10 e10 /\ wire_of url 12 e12 /\
    match su with
    | PlainDI _ _ => pre = []
    | WithDiun _ => exists e210 e212 e214, pre = [e210; e212; e214] /\ wire_of url 210 e210 /\ wire_of url 212 e212 /\ wire_of url 214 e214
    end.
(** The device's keys are those it was given, or ones made new. *)
Definition keys_from (newkey : list devent -> N -> N -> option (bytes * bytes)) (cf : mfconf) (su : setup) (k : keystore) : Prop :=
  match su, mf_diun cf with
  | PlainDI _ given, _ => exists secret sk, given = Some (secret, sk) /\ k = Plain secret sk
  | WithDiun _, Some dn =>
    exists h stg secret sk, In stg (where_to (dn_storage dn)) /\ newkey h (dn_key_type dn) stg = Some (secret, sk) /\
      k = (if stg =? 0 then Plain secret sk else Tpm (if dn_key_type dn =? 10 then Sha256 else Sha384) secret sk)
  | _, None => False
  end.
(** The voucher belongs to the owner named in the server's configuration, or still to the manufacturer. *)
Definition owned_as_configured (c : crypto) (chk : bool) (cf : mfconf) (v : voucher) : Prop :=
  match mf_owner cf with
  | None => entries_raw v = []
  | Some (_, owner) => nlen (entries_raw v) = 1 /\ exists p, verify_entries c chk v = Ok [p] /\ p_key p = owner
  end.
(** A certificate for [key] made by the server's own authority *)
Definition from_authority (mkcert : bytes -> bytes -> str -> bytes -> bytes -> option bytes) (cf : mfconf) (leaf key : bytes) : Prop :=
  exists signer rest info rnd, mf_ca cf = signer :: rest /\ mkcert signer (mf_ca_sk cf) info key rnd = Some leaf.
(** The voucher says what the server is set up for, and its chain certifies the device's key. *)
Record as_ordered (c : crypto) (mkcert : bytes -> bytes -> str -> bytes -> bytes -> option bytes) (cf : mfconf) (info : str) (dc : devcred) (v : voucher) : Prop := {
  ao_version : hd_version (ov_header v) = V1_1;
  ao_rv : hd_rv (ov_header v) = mf_rv cf;
  ao_info : hd_devinfo (ov_header v) = trim info;
  ao_mfg : exists key, c_cert_key c (mf_cert cf) = Some key /\ pk_key (hd_mfg (ov_header v)) = key;
  ao_chain : exists leaf, ov_chain v = Some (leaf :: mf_ca cf) /\ c_cert_key c leaf = Some (c_pub c (ks_sk (dc_keys dc))) /\
    from_authority mkcert cf leaf (c_pub c (ks_sk (dc_keys dc))) }.
