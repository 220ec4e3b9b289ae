(** The manufacturing server's handlers (manufacturing-server/src/handlers/{di,diun}.rs) and the DI and DIUN messages
    (data-formats/src/messages/v11/{di,diun}.rs). *)
From Verif Require Import Base CborModel ValueModel Text Hex TypesModel VoucherModel KexModel StoreModel Backend MsgModel SessionModel RvServerModel.
From Verif Require Import OwnerModel.
Local Open Scope N_scope.

(** * Messages *)
(** Vec<u8>: an array of numbers *)
Definition as_vecu8 : cval -> option bytes := as_list as_u8.
Definition vecu8_val (b : bytes) : cval := VArr (map (fun x => VInt (Z.of_N x)) b).
(** di.rs:13-16 *)
Definition as_appstart (v : cval) : option bytes := match as_fields v with [b] => as_bytebuf b | _ => None end.
(** di.rs:86-89 *)
Definition as_sethmac (v : cval) : option hash := match as_fields v with [h] => as_hash h | _ => None end.
(** diun.rs:11-17 *)
Record diunconnect := DiunConnect { dc_nonce : bytes; dc_kex : kexsuite; dc_cipher : cipher; dc_exchange : bytes }.
Definition as_diunconnect (v : cval) : option diunconnect :=
  match as_fields v with
  | [n; k; ci; x] =>
    match as_bstr16 n, as_kexsuite k, as_cipher ci, as_vecu8 x with
    | Some n, Some k, Some ci, Some x => Some (DiunConnect n k ci x)
    | _, _, _, _ => None
    end
  | _ => None
  end.
(** diun.rs:128-132 *)
Definition as_requestparams (v : cval) : option (option str) := match as_fields v with [t] => as_option as_string t | _ => None end.
(** diun.rs:227-232; constants/mod.rs KeyStorageType (repr i8: 0, 1) *)
Definition as_storage (v : cval) : option N := option_map Z.to_N (as_int 0 1 v).
Definition as_providekey (v : cval) : option (bytes * N) :=
  match as_fields v with
  | [k; t] => match as_vecu8 k, as_storage t with Some k, Some t => Some (k, t) | _, _ => None end
  | _ => None
  end.

Inductive mfmsg :=
| MAppStart (info : bytes)
| MSetHmac (h : hash)
| MConnect (m : diunconnect)
| MRequestParams (tpm : option str)
| MProvideKey (key : bytes) (storage : N).
Definition mf_parse (im : mtype) (b : bytes) : outcome unit mfmsg :=
  map_err (fun _ => tt)
  match im with
  | DIAppStart => let! i := from_slice as_appstart b in Ok (MAppStart i)
  | DISetHMAC => let! h := from_slice as_sethmac b in Ok (MSetHmac h)
  | DIUNConnect => let! m := from_slice as_diunconnect b in Ok (MConnect m)
  | DIUNRequestKeyParameters => let! t := from_slice as_requestparams b in Ok (MRequestParams t)
  | DIUNProvideKey => let! m := from_slice as_providekey b in Ok (MProvideKey (fst m) (snd m))
  | _ => Err FNotImplemented
  end.
(** di.rs:27-29, handlers/di.rs:59-73: the value in the byte string, which must be text ([Value::as_str]; serde_cbor
    without its feature for tags passes over them) *)
Definition as_mfginfo (v : cval) : option str := match untag v with VText b => utf8_dec b | _ => None end.

(** * The server *)
(** main.rs:40-48, 96-122: the DIUN part of the configuration *)
Record diunconf := DiunConf { dn_string : N; dn_key_type : N; dn_storage : list N; dn_sk : bytes; dn_pub : pubkey }.
(** main.rs:61-92; [mf_owner]: the manufacturer's private key and the owner, which are both there or both absent
    (main.rs:244-246); [mf_di]: plain DI is enabled (main.rs:275) *)
Record mfconf := MfConf {
  mf_cert : bytes; mf_owner : option (bytes * pubkey); mf_ca_sk : bytes; mf_ca : x5chain; mf_rv : rv_info;
  mf_di : bool; mf_diun : option diunconf; mf_kdf_avail : bool }.
(** main.rs:36-37, handlers/di.rs:48-49, handlers/diun.rs:17: the entries of a session *)
Record mfdata := MfData {
  md_keys : option ekeys;      (* mfg_diun_keys *)
  md_devkey : option bytes;    (* mfg_global_device_key_from_diun *)
  md_diun : bool;              (* mfg_global_diun_performed is there *)
  md_header : option str;      (* mfg_di_ov_header *)
  md_chain : option x5chain    (* mfg_di_device_certificate *)
}.
(** Around a request: the clock, what is drawn (the GUID, the key exchange, the signature's randomness, the
    certificate's serial number and date), the header X-Non-Interoperable-KDF where it is text, the store of public keys
    (one that is not configured has none), and the voucher store failing at one of its operations *)
Record mfenv := MfEnv {
  me_now : N; me_guid : bytes; me_kex : kexsuite -> option kex; me_rnd : bytes; me_cert : bytes;
  me_kdf : option str; me_pubkeys : str -> outcome unit (option bytes); me_fault : iofault }.

Section server.
(** [mkcert]: handlers/di.rs:166-198, openssl's certificate for a key, under a subject's name, signed by a signer *)
Context (c : crypto) (chk : bool) (ko : kex_ops) (kf : keyfns)
  (mkcert : bytes -> bytes -> str -> bytes -> bytes -> option bytes) (cf : mfconf) {W : Type} (be : backend voucher W).

(** handlers/di.rs:26-46 *)
Definition di_refused (d : mfdata) : bool := negb (mf_di cf) && negb (md_diun d).

(** handlers/di.rs:75-100: the device's key *)
Definition device_key (d : mfdata) (info : str) (e : mfenv) : outcome N bytes :=
  let! k := (match md_devkey d with Some k => Ok (Some k) | None => code InternalServerError (me_pubkeys e info) end) in
  match k with
  | None => Err InternalServerError
  | Some der => of_option InternalServerError (c_key_of_der c der)
  end.
(** handlers/di.rs:102-139, 160-164: the certificate, its chain and the header.  The same header is stored and sent. *)
Definition new_credentials (info : str) (key : bytes) (e : mfenv) : outcome N (bytes * x5chain) :=
  match mf_ca cf with
  | [] => Panic P_UNWRAP
  | signer :: _ =>
    let! cert := of_option InternalServerError (mkcert signer (mf_ca_sk cf) info key (me_cert e)) in
    let ch := cert :: mf_ca cf in
    code InternalServerError (
      let! h := hash_from_data c Sha384 (concat ch) in
      let! mk := pubkey_of_cert c (kf_type kf) (kf_der kf) (mf_cert cf) in
      let! b := header_serialize (header_new V1_1 (me_guid e) (mf_rv cf) info mk (Some h)) in
      Ok (b, ch))
  end.
(** handlers/di.rs:51-158 *)
Definition h_appstart (w : W) (s : session mfdata) (raw : bytes) (e : mfenv) : W * hres mfdata :=
  let d := ses_data s in
  if di_refused d then (w, HReject InternalServerError)
  else
    match
      let! info := code InternalServerError (from_slice as_mfginfo raw) in
      let! key := device_key d info e in
      new_credentials info key e
    with
    | Err n => (w, HReject n)
    | Panic _ => (w, HPanic)
    | Ok (hb, ch) => (w, HReply (MfData (md_keys d) (md_devkey d) (md_diun d) (Some (hex_enc hb)) (Some ch)) None hb)
    end.

(** handlers/di.rs:208-252: the voucher, from what the session has *)
Definition new_voucher (d : mfdata) (hmac : hash) (e : mfenv) : outcome N (bytes * voucher) :=
  match md_header d with
  | None => Err InvalidMessageError
  | Some t =>
    let! hb := of_option InternalServerError (hex_dec t) in
    let! h := code InternalServerError (header_deserialize c chk hb) in
    (* read back from the session's JSON; what does not read is as if it were not there *)
    match match md_chain d with Some ch => all_some (map (c_cert_of_der c) ch) | None => None end with
    | None => Err InvalidMessageError
    | Some ch =>
      let! v := code InternalServerError (voucher_new h hmac (Some ch)) in
      match mf_owner cf with
      | None => Ok (hd_guid h, v)
      | Some (sk, owner) =>
        match extend c chk v sk None owner (me_rnd e) with
        | (v', Ok _) => Ok (hd_guid h, v')
        | (_, Err _) => Err InternalServerError
        | (_, Panic p) => Panic p
        end
      end
    end
  end.
(** handlers/di.rs:200-265 *)
Definition h_sethmac (w : W) (s : session mfdata) (hmac : hash) (e : mfenv) : W * hres mfdata :=
  let d := ses_data s in
  if di_refused d then (w, HReject InternalServerError)
  else
    match new_voucher d hmac e with
    | Err n => (w, HReject n)
    | Panic _ => (w, HPanic)
    | Ok (g, v) =>
      match guid_text g with
      | None => (w, HPanic)
      | Some k =>
        match me_fault e with
        | DataFails => (w, HReject InternalServerError)
        | _ =>
          match b_store be w k v with
          | (w1, Err _) => (w1, HReject InternalServerError)
          | (w1, Panic _) => (w1, HPanic)
          | (w1, Ok _) => (w1, HReply d None (enc (VArr [])))
          end
        end
      end
    end.

(** handlers/diun.rs:34-100: the key exchange and its signed answer.  (The Accept's payload is a list holding the
    exchange as an array of numbers, diun.rs:105-113.) *)
Definition connect_reply (dn : diunconf) (m : diunconnect) (e : mfenv) : outcome N (ekeys * bytes) :=
  code InternalServerError (
    let! k := of_option FCrypto (me_kex e (dc_kex m)) in
    let! secret := derive_key ko (mf_kdf_avail cf) OwnerService (dc_cipher m) k (dc_exchange m) (read_kdf_header (me_kdf e)) in
    let! pub := get_public ko k in
    let! t := cose_new_with_protected c chk (enc (VArr [vecu8_val pub])) [(VInt CUPH_NONCE, bstr_val (dc_nonce m))]
                [(VInt CUPH_OWNERPUBKEY, pubkey_val (dn_pub dn))] (dn_sk dn) (me_rnd e) in
    let! b := cose_serialize t in
    Ok (from_derived (Z.to_N (cipher_num (dc_cipher m))) (Combined secret), b)).
Definition h_connect (w : W) (s : session mfdata) (m : diunconnect) (e : mfenv) : W * hres mfdata :=
  let d := ses_data s in
  match mf_diun cf with
  | None => (w, HReject InternalServerError)
  | Some dn =>
    match connect_reply dn m e with
    | Err n => (w, HReject n)
    | Panic _ => (w, HPanic)
    | Ok (ks, b) => (w, HReply (MfData (Some ks) (md_devkey d) (md_diun d) (md_header d) (md_chain d)) None b)
    end
  end.
(** handlers/diun.rs:102-157 *)
Definition h_requestparams (w : W) (s : session mfdata) : W * hres mfdata :=
  let d := ses_data s in
  match mf_diun cf with
  | None => (w, HReject InternalServerError)
  | Some dn =>
    match md_keys d with
    | None => (w, HReject InvalidMessageError)
    | Some ks =>
      (w, HReply (MfData None (md_devkey d) (md_diun d) (md_header d) (md_chain d)) (Some ks)
            (enc (VArr [VInt (Z.of_N (dn_key_type dn));
                        match dn_storage dn with [] => VNull | l => VArr (map (fun t => VInt (Z.of_N t)) l) end])))
    end
  end.
(** handlers/diun.rs:159-189 *)
Definition h_providekey (w : W) (s : session mfdata) (key : bytes) : W * hres mfdata :=
  let d := ses_data s in
  match mf_diun cf with
  | None => (w, HReject InternalServerError)
  | Some dn =>
    (w, HReply (MfData (md_keys d) (Some key) true (md_header d) (md_chain d)) None (enc (VArr [VInt (Z.of_N (dn_string dn))])))
  end.

Definition mf_handle (im : mtype) (w : W) (s : session mfdata) (m : mfmsg) (e : mfenv) : W * hres mfdata :=
  match m with
  | MAppStart i => h_appstart w s i e
  | MSetHmac h => h_sethmac w s h e
  | MConnect m => h_connect w s m e
  | MRequestParams _ => h_requestparams w s
  | MProvideKey k _ => h_providekey w s k
  end.
(** main.rs:371-419 *)
Definition mf_routes : list (mtype * mtype) :=
  [(DIAppStart, DISetCredentials); (DISetHMAC, DIDone); (DIUNConnect, DIUNAccept);
   (DIUNRequestKeyParameters, DIUNProvideKeyParameters); (DIUNProvideKey, DIUNDone)].
Definition mf_new : mfdata := MfData None None false None None.
Definition mf_server : server W mfdata mfmsg mfenv := Server mf_routes mf_parse mf_new mf_handle.
End server.
