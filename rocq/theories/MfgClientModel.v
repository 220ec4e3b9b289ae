(** The manufacturing client (manufacturing-client/src/main.rs): a device gets its keys, its credential and, at the
    server, its voucher.  The machinery is that of ClientModel.v. *)
From Verif Require Import Base CborModel ValueModel Text TypesModel VoucherModel KexModel RvModel MsgModel SessionModel HttpClientModel
  RvServerModel SiModel DevSiModel OwnerModel MfgModel ClientModel.
Local Open Scope N_scope.

(** * The credential file *)
(** devicecredential/file.rs:24-36: an externally tagged enum of structs.  The marshalled halves of TPM keys are stood in
    for by the keys; the public half of the HMAC key holds its hash. *)
Definition keystore_val (k : keystore) : cval :=
  match k with
  | Plain s sk => VMap [(text_val (txt "Plain"), VMap [(text_val (txt "hmac_secret"), vecu8_val s); (text_val (txt "private_key"), vecu8_val sk)])]
  | Tpm t s sk => VMap [(text_val (txt "Tpm"),
      VMap [(text_val (txt "signing_public"), vecu8_val []); (text_val (txt "signing_private"), vecu8_val sk);
            (text_val (txt "hmac_public"), vecu8_val [match t with Sha256 => 1 | Sha384 => 2 | _ => 0 end]); (text_val (txt "hmac_private"), vecu8_val s)])]
  end.
(** A field of a struct by its name; a name that occurs twice is an error (derive(Deserialize)) *)
Definition field (name : str) (m : list (cval * cval)) : option cval :=
  match filter (fun kv => match as_string (fst kv) with Some n => text_eqb n name | None => false end) m with [(_, v)] => Some v | _ => None end.
Definition bytes_field (name : str) (m : list (cval * cval)) : option bytes := match field name m with Some v => as_vecu8 v | None => None end.
Definition as_keystore (v : cval) : option keystore :=
  match untag v with
  | VMap [(n, x)] =>
    match as_string n, untag x with
    | Some n, VMap m =>
      if text_eqb n (txt "Plain") then
        match bytes_field (txt "hmac_secret") m, bytes_field (txt "private_key") m with Some s, Some sk => Some (Plain s sk) | _, _ => None end
      else if text_eqb n (txt "Tpm") then
        match bytes_field (txt "signing_public") m, bytes_field (txt "signing_private") m, bytes_field (txt "hmac_public") m, bytes_field (txt "hmac_private") m with
        | Some _, Some sk, Some h, Some s =>
          match h with [1] => Some (Tpm Sha256 s sk) | [2] => Some (Tpm Sha384 s sk) | _ => None end
        | _, _, _, _ => None
        end
      else None
    | _, _ => None
    end
  | _ => None
  end.
(** devicecredential/file.rs:163-173, with the device info that [devcred] leaves out *)
Definition cred_val (info : str) (dc : devcred) : cval :=
  VArr [VBool (dc_active dc); VInt (Z.of_N (dc_version dc)); text_val info; bstr_val (dc_guid dc); rv_info_val (dc_rv dc); hash_val (dc_mfg dc); keystore_val (dc_keys dc)].
Definition as_cred (v : cval) : option (str * devcred) :=
  match as_fields v with
  | [a; p; i; g; r; h; k] =>
    match as_bool a, as_version p, as_string i, as_bstr16 g, as_rv_info r, as_hash h, as_keystore k with
    | Some a, Some p, Some i, Some g, Some r, Some h, Some k => Some (i, DevCred a p g r h k)
    | _, _, _, _, _, _, _ => None
    end
  | _ => None
  end.

(** * DIUN *)
(** main.rs:256-262 *)
Inductive vmode := VHash (h : hash) | VCerts (bag : x5bag) | VInsecure.
(** publickey.rs:275-305 *)
Definition verify_chain (c : crypto) (m : vmode) (ch : x5chain) : outcome ferr bytes :=
  match m with
  | VHash h => verify_from_digest c ch h
  | VCerts bag => verify_from_x5bag c ch bag
  | VInsecure => insecure_verify c ch
  end.
(** diun.rs:105-113 *)
Definition as_acceptpayload (v : cval) : option bytes := match as_fields v with [x] => as_vecu8 x | _ => None end.
(** diun.rs:171-176; constants/mod.rs PublicKeyType *)
Definition as_keyparams (v : cval) : option (N * option (list N)) :=
  match as_fields v with
  | [t; l] =>
    match as_u8 t, as_option (as_list as_storage) l with
    | Some t, Some l => if is_pk_type t then Some (t, l) else None
    | _, _ => None
    end
  | _ => None
  end.
(** diun.rs Done; constants/mod.rs:426-429 *)
Definition as_diundone (v : cval) : option N := match as_fields v with [t] => option_map Z.to_N (as_int 0 1 t) | _ => None end.

(** main.rs:482-517: where the device's identification comes from.  [mi_given]: the variable MANUFACTURING_INFO, and its
    text if it is text; [mi_serial], [mi_mac]: what the files of the serial number and of the interface's address hold,
    where there are such files (and such an interface, given or the default one). *)
Record minfo := MInfo { mi_given : option (option str); mi_serial : option str; mi_mac : option str }.
Definition hexdig (x : N) : bool := ((48 <=? x) && (x <=? 57)) || ((65 <=? x) && (x <=? 70)) || ((97 <=? x) && (x <=? 102)).
(** the regular expression of line 506 *)
Fixpoint mac_pairs (n : nat) (s : str) : bool :=
  match n, s with
  | O, [a; b] => hexdig a && hexdig b
  | S n, a :: b :: sep :: r => hexdig a && hexdig b && ((sep =? 58) || (sep =? 45)) && mac_pairs n r
  | _, _ => false
  end.
Definition mac_ok (s : str) : bool := mac_pairs 5 s && negb (text_eqb s (txt "00:00:00:00:00:00")).
Definition get_info (mi : minfo) (stype : N) : outcome unit str :=
  match mi_given mi with
  | Some i => unwrap P_UNWRAP i
  | None =>
    let! i := (if stype =? 0 then of_option tt (mi_serial mi)
               else let! m := of_option tt (mi_mac mi) in
                    if mac_ok (trim m) then Ok (trim m) else Err tt) in
    if 64 <? nlen (utf8_enc i) then Err tt else Ok i
  end.

(** How the device is set up: plain DI with a kind of identification and keys from files, if they can be read (the HMAC
    secret and the private key; no other storage is supported, main.rs:746-787), or DIUN *)
Inductive setup := PlainDI (stype : N) (keys : option (bytes * bytes)) | WithDiun (m : vmode).
Definition CRED_PATH : str := txt "/etc/device-credentials".

Section client.
Context (A : aead) (c : crypto) (chk : bool) (ko : kex_ops) (avail : bool) (to_der : bytes -> bytes) (wo : world).
(** [newkey h kt st]: a new key of type [kt] in the storage [st]: its HMAC secret and private key.  [None]: an error. *)
Context (newkey : list devent -> N -> N -> option (bytes * bytes)).

(** main.rs:618-646, 648-705: only the two curves are supported in either storage *)
Definition new_in (kt stg : N) : dm (option keystore) :=
  fun s => (s, Ok (if (kt =? 10) || (kt =? 11) then
                     match newkey (s_hist s) kt stg with
                     | Some (secret, sk) =>
                       Some (if stg =? 0 then Plain secret sk else Tpm (if kt =? 10 then Sha256 else Sha384) secret sk)
                     | None => None
                     end
                   else None)).
(** main.rs:707-744 *)
Fixpoint first_new (kt : N) (l : list N) : dm keystore :=
  match l with
  | [] => fail
  | stg :: r => do! k := new_in kt stg in match k with Some k => ret k | None => first_new kt r end
  end.
Definition get_new_key (kt : N) (allowed : option (list N)) : dm keystore :=
  match allowed with
  | Some [] => fail
  | Some l => first_new kt l
  | None => first_new kt [0]
  end.
(** main.rs:789-832 *)
Definition storage_of (k : keystore) : N := match k with Plain _ _ => 0 | Tpm _ _ _ => 1 end.
Definition public_der (k : keystore) : bytes := to_der (c_pub c (ks_sk k)).

(** main.rs:136-178: the server's chain, its nonce and its key exchange *)
Definition check_accept (m : vmode) (nonce : bytes) (tok : cose) : outcome ferr bytes :=
  let! p := cose_get_unprotected (as_pubkey c) tok CUPH_OWNERPUBKEY in
  let! p := of_option FNonOwnerKey p in
  let! ch := of_option FNonOwnerKey (pk_certs p) in
  let! leaf := verify_chain c m ch in
  let! key := of_option FCrypto (c_cert_key c leaf) in
  let! n := cose_get_protected c as_bstr16 tok CUPH_NONCE key in
  let! n := of_option FIncorrectHash n in
  let! same := nonce_eq nonce n in
  if negb same then Err FIncorrectHash
  else cose_get_payload c (from_slice as_acceptpayload) tok key.
(** main.rs:109-213.  (The demand for the header about the KDF, line 151, comes between two checks of the chain.) *)
Definition perform_diun (m : vmode) : dm (keystore * N) :=
  do! nonce := draw wo 0 in
  do! k := (fun s => lift (of_option FCrypto (wo_kex wo (s_hist s) Ecdh384)) s) in
  do! pub := lift (get_public ko k) in
  do! b := ask A avail wo DIUNConnect DIUNAccept
             (Ok (enc (VArr [bstr_val nonce; text_val (kexsuite_name Ecdh384); VInt (cipher_num A256Gcm); vecu8_val pub]))) None in
  do! tok := lift (cose_deserialize chk b) in
  do! nonint := (fun s => lift (of_option tt (hc_kdf (s_hc s))) s) in
  do! other := lift (check_accept m nonce tok) in
  do! raw := lift (derive_key ko avail KDevice A256Gcm k other nonint) in
  do! b := ask A avail wo DIUNRequestKeyParameters DIUNProvideKeyParameters (Ok (enc (VArr [VNull])))
             (Some (from_derived (Z.to_N (cipher_num A256Gcm)) (Combined raw))) in
  do! (kt, allowed) := lift (from_slice as_keyparams b) in
  do! key := get_new_key kt allowed in
  do! b := ask A avail wo DIUNProvideKey DIUNDone (Ok (enc (VArr [vecu8_val (public_der key); VInt (Z.of_N (storage_of key))]))) None in
  do! stype := lift (from_slice as_diundone b) in
  ret (key, stype).

(** * DI *)
(** main.rs:916-998: a key in a file always makes the same kind of HMAC; a TPM's key its own kind *)
Definition make_hmac (k : keystore) (data : bytes) : outcome ferr hash :=
  match k with
  | Plain s _ => hash_from_digest HmacSha384 (c_hmac c Sha384 s data)
  | Tpm t s _ => if digestible t then hash_from_digest t (c_hmac c t s data) else Err FUnsupportedAlgorithm
  end.
(** main.rs:847-913 *)
Definition new_cred (k : keystore) (h : header) (kh : hash) : devcred := DevCred true V1_1 (hd_guid h) (hd_rv h) kh k.
Definition save (k : keystore) (h : header) (kh : hash) : dm unit :=
  fun s =>
    let hist := s_hist s ++ [TFx (EWrite CRED_PATH (enc (cred_val (hd_devinfo h) (new_cred k h kh))) 438)] in
    (St hist (s_url s) (s_hc s), match wo_fx wo hist with Fine => Ok tt | _ => Err tt end).
(** main.rs:215-254 *)
Definition perform_di (mi : minfo) (k : keystore) (stype : N) : dm unit :=
  do! info := lift (get_info mi stype) in
  do! b := ask A avail wo DIAppStart DISetCredentials (Ok (enc (VArr [VBytes (enc (text_val info))]))) None in
  do! h := lift (header_deserialize c chk b) in
  do! hb := lift (header_serialize h) in
  do! hmac := lift (make_hmac k hb) in
  do! kh := lift (mfg_key_hash c h Sha384) in
  do! _ := save k h kh in
  do! b := ask A avail wo DISetHMAC DIDone (Ok (enc (VArr [hash_val hmac]))) None in
  do! _ := lift (from_slice as_unit_struct b) in
  ret tt.

(** main.rs:288-480: [present] is the credential found *)
Inductive mexit := Already | Failed | Initialised | MCrashed (p : N).
Definition mfg_main (present : credfile) (su : setup) (mi : minfo) (url : str) : list devent * mexit :=
  let run :=
    match with_client url
      (match su with
       | PlainDI stype keys => do! (secret, sk) := lift (of_option tt keys) in perform_di mi (Plain secret sk) stype
       | WithDiun m => do! (k, stype) := perform_diun m in perform_di mi k stype
       end) (St [] [] client_new)
    with
    | (s, Ok _) => (s_hist s, Initialised)
    | (s, Err _) => (s_hist s, Failed)
    | (s, Panic p) => (s_hist s, MCrashed p)
    end in
  match present with
  | NoCred => run
  | Unreadable => ([], Failed)
  | Cred dc => if dc_active dc then ([], Already) else run
  end.
End client.
