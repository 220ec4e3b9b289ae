(** The owner onboarding server's handlers (owner-onboarding-server/src/handlers.rs) and the TO2 messages
    (data-formats/src/messages/v11/to2.rs). *)
From Verif Require Import Base CborModel ValueModel Text Hex TypesModel VoucherModel KexModel StoreModel Backend MsgModel SessionModel RvServerModel.
From Verif Require Import SiModel SiApiModel.
Local Open Scope N_scope.

(** * What is stored: the vouchers themselves (ownershipvoucher.rs:84-123).  A panic while reading a stored file is not
    told apart from an error. *)
Definition voucher_codec (c : crypto) (chk : bool) : codec voucher :=
  Codec (fun v => to_serr (voucher_serialize v)) (fun s => match voucher_deserialize c chk s with Ok v => Some v | _ => None end).

(** * Messages *)
(** types.rs:1289-1316: KexSuite is read from its name *)
Definition as_kexsuite (v : cval) : option kexsuite :=
  match as_string v with Some s => match kexsuite_of s with Ok k => Some k | _ => None end | None => None end.
(** types.rs:1402-1409 (serde_repr, i32) *)
Definition as_cipher (v : cval) : option cipher :=
  match as_int (-2147483648) 2147483647 v with Some z => cipher_of_num z | None => None end.
(** to2.rs:17-25, derived *)
Record hellodevice := HelloDevice { hd2_max : N; hd2_guid : bytes; hd2_nonce5 : bytes; hd2_kex : kexsuite; hd2_cipher : cipher; hd2_sig : Z * bytes }.
Definition as_hellodevice (v : cval) : option hellodevice :=
  match as_fields v with
  | [m; g; n; k; ci; s] =>
    match as_u16 m, as_bstr16 g, as_bstr16 n, as_kexsuite k, as_cipher ci, as_siginfo s with
    | Some m, Some g, Some n, Some k, Some ci, Some s => Some (HelloDevice m g n k ci s)
    | _, _, _, _, _, _ => None
    end
  | _ => None
  end.
(** to2.rs:126-131 *)
Definition as_getentry (v : cval) : option N := match as_fields v with [n] => as_u8 n | _ => None end.
(** to2.rs:302-306 *)
Definition as_u64 (v : cval) : option N := option_map Z.to_N (as_int 0 18446744073709551615 v).
Definition as_dsiready (v : cval) : option unit :=
  match as_fields v with
  | [h; m] => match as_option as_hash h, as_option as_u64 m with Some _, Some _ => Some tt | _, _ => None end
  | _ => None
  end.
(** types.rs:735-737: a list of pairs; serde's bool *)
Definition as_bool (v : cval) : option bool := match untag v with VBool b => Some b | _ => None end.
Definition as_siitem (v : cval) : option (str * bytes) :=
  match as_fields v with
  | [k; b] => match as_string k, as_bytebuf b with Some k, Some b => Some (k, b) | _, _ => None end
  | _ => None
  end.
Definition as_silist : cval -> option silist := as_list as_siitem.
Definition silist_val (l : silist) : cval := VArr (map (fun kb => VArr [text_val (fst kb); VBytes (snd kb)]) l).
(** to2.rs:382-387 *)
Definition as_dsi (v : cval) : option (bool * silist) :=
  match as_fields v with
  | [m; l] => match as_bool m, as_silist l with Some m, Some l => Some (m, l) | _, _ => None end
  | _ => None
  end.
(** to2.rs:477-481 *)
Definition as_done (v : cval) : option bytes := match as_fields v with [n] => as_bstr16 n | _ => None end.
(** types.rs:719-723 *)
Definition as_provepayload (v : cval) : option bytes := match as_fields v with [b] => as_bytebuf b | _ => None end.

(** [MHelloDevice]: with the hash of the request's body (server.rs:461; HelloDevice is not encrypted, so this is the
    body as received) *)
Inductive owmsg :=
| MHelloDevice (m : hellodevice) (req_hash : hash)
| MGetEntry (n : N)
| MProveDevice (token : cose)
| MSiReady
| MServiceInfo (more : bool) (l : silist)
| MDone (nonce6 : bytes).
Definition ow_parse (c : crypto) (chk : bool) (im : mtype) (b : bytes) : outcome unit owmsg :=
  map_err (fun _ => tt)
  match im with
  | TO2HelloDevice => let! m := from_slice as_hellodevice b in let! h := hash_from_data c Sha256 b in Ok (MHelloDevice m h)
  | TO2GetOVNextEntry => let! n := from_slice as_getentry b in Ok (MGetEntry n)
  | TO2ProveDevice => let! t := cose_deserialize chk b in Ok (MProveDevice t)
  | TO2DeviceServiceInfoReady => let! _ := from_slice as_dsiready b in Ok MSiReady
  | TO2DeviceServiceInfo => let! m := from_slice as_dsi b in Ok (MServiceInfo (fst m) (snd m))
  | TO2Done => let! n := from_slice as_done b in Ok (MDone n)
  | _ => Err FNotImplemented
  end.

(** types.rs:1024 etc.: header keys (constants/mod.rs) *)
Definition CUPH_NONCE : Z := 256.
Definition CUPH_OWNERPUBKEY : Z := 257.
Definition EUPH_NONCE : Z := -259.
(** to2.rs:15: [2 ^ 16] is an exclusive or *)
Definition MAX_MESSAGE_SIZE : N := N.lxor 2 16 - 1.

(** types.rs:884-926 *)
Definition proveovhdr_payload (hdr : bytes) (n : N) (hmac : hash) (nonce5 : bytes) (sig : Z * bytes) (kex : bytes) (req_hash : hash)
  : outcome ferr bytes :=
  map_err FArray (serialize_array (PA None (map enc
    [VBytes hdr; VInt (Z.of_N n); hash_val hmac; bstr_val nonce5; siginfo_val sig; VBytes kex; hash_val req_hash; VInt (Z.of_N MAX_MESSAGE_SIZE)]))).
(** to2.rs:166-179 *)
Definition ovnextentry (n : N) (e : cose) : outcome ferr bytes :=
  let! b := cose_serialize e in
  map_err FArray (serialize_array (PA None [enc (VInt (Z.of_N n)); b])).
(** types.rs:679-701; RendezvousInfo::new of no entries *)
Definition setup_val (guid nonce7 : bytes) (owner2 : pubkey) : cval := VArr [rv_info_val []; bstr_val guid; bstr_val nonce7; pubkey_val owner2].

(** * The server *)
(** main.rs:58-67: the keys *)
Record owconf := OwConf { oc_sk : bytes; oc_pub : pubkey; oc_sk2 : bytes; oc_pub2 : pubkey; oc_kdf_avail : bool }.
(** The entries of a session that the handlers use *)
Record owdata := OwData {
  od_guid : option str;        (* device_guid *)
  od_nonce6 : option bytes;
  od_cipher : option cipher;   (* ciphersuite *)
  od_kex : option kex;         (* a_key_exchange *)
  od_nonce7 : option bytes;
  od_proven : bool;            (* proven_device is there *)
  od_loops : option N          (* num_service_info_loops *)
}.
(** Around a request: the clock, what is drawn (nonce6, the key exchange, the new GUID, the signature's randomness),
    the header X-Non-Interoperable-KDF where it is text, the service info API (for a GUID and modules) and the store
    failing at one of its operations *)
Record owenv := OwEnv {
  oe_now : N; oe_nonce : bytes; oe_kex : kexsuite -> option kex; oe_guid : bytes; oe_rnd : bytes;
  oe_kdf : option str; oe_api : str -> str -> option reply; oe_fault : iofault }.

Section server.
Context (c : crypto) (chk : bool) (ko : kex_ops) (cf : owconf) {W : Type} (be : backend voucher W).

(** handlers.rs:31-46 etc.: load_data *)
Definition ow_load (w : W) (e : owenv) (k : str) : W * outcome N (option voucher) :=
  match oe_fault e with
  | LoadFails => (w, Err InternalServerError)
  | _ => let '(w', r) := b_load be (oe_now e) w k in (w', code InternalServerError r)
  end.

(** handlers.rs:52-118, the device being known *)
Definition hello_reply (v : voucher) (m : hellodevice) (req_hash : hash) (e : owenv) : outcome N (kex * bytes) :=
  if negb ((fst (hd2_sig m) =? ES256)%Z || (fst (hd2_sig m) =? ES384)%Z) then Err MessageBodyError
  else if negb (nlen (snd (hd2_sig m)) =? 0) then Err MessageBodyError
  else code InternalServerError (
    let! k := of_option FCrypto (oe_kex e (hd2_kex m)) in
    let! pub := get_public ko k in
    let! hdr := (match get (from_slice as_bytebuf) (ov_contents v) 1 with Ok h => Ok h | _ => Panic P_UNWRAP end) in
    let! p := proveovhdr_payload hdr (num_entries v) (ov_hmac v) (hd2_nonce5 m) (fst (hd2_sig m), []) pub req_hash in
    let! t := cose_new c chk p [(VInt CUPH_NONCE, bstr_val (oe_nonce e)); (VInt CUPH_OWNERPUBKEY, pubkey_val (oc_pub cf))] (oc_sk cf) (oe_rnd e) in
    let! b := cose_serialize t in
    Ok (k, b)).
(** handlers.rs:23-119.  Serializing the reply is part of the answer (server.rs:322-346). *)
Definition h_hellodevice (w : W) (s : session owdata) (m : hellodevice) (req_hash : hash) (e : owenv) : W * hres owdata :=
  match guid_text (hd2_guid m) with
  | None => (w, HPanic)
  | Some k =>
    match ow_load w e k with
    | (w1, Err n) => (w1, HReject n)
    | (w1, Panic _) => (w1, HPanic)
    | (w1, Ok None) => (w1, HReject ResourceNotFound)
    | (w1, Ok (Some v)) =>
      match hello_reply v m req_hash e with
      | Err n => (w1, HReject n)
      | Panic _ => (w1, HPanic)
      | Ok (kx, b) =>
        let d := ses_data s in
        (w1, HReply (OwData (Some k) (Some (oe_nonce e)) (Some (hd2_cipher m)) (Some kx) (od_nonce7 d) (od_proven d) (od_loops d)) None b)
      end
    end
  end.

(** handlers.rs:121-162 *)
Definition h_getentry (w : W) (s : session owdata) (n : N) (e : owenv) : W * hres owdata :=
  match od_guid (ses_data s) with
  | None => (w, HReject InvalidMessageError)
  | Some gt =>
    match guid_parse gt with
    | None => (w, HPanic)
    | Some g =>
      match guid_text g with
      | None => (w, HPanic)
      | Some k =>
        match ow_load w e k with
        | (w1, Err n) => (w1, HReject n)
        | (w1, Panic _) => (w1, HPanic)
        | (w1, Ok None) => (w1, HReject ResourceNotFound)
        | (w1, Ok (Some v)) =>
          match entry chk v (N.to_nat n) with
          | Ok en =>
            match ovnextentry n en with
            | Ok b => (w1, HReply (ses_data s) None b)
            | Err _ => (w1, HReject InternalServerError)
            | Panic _ => (w1, HPanic)
            end
          | _ => (w1, HPanic)      (* .unwrap() *)
          end
        end
      end
    end
  end.

(** handlers.rs:226-349: the device's key, its token, the new keys and the reply *)
Definition prove_check (v : voucher) (nonce6 : bytes) (kx : kex) (ci : cipher) (token : cose) (e : owenv)
  : outcome N (bytes * ekeys * bytes) :=
  match ov_chain v with
  | None | Some [] => Err InvalidMessageError
  | Some (leaf :: _) =>
    let! key := of_option InternalServerError (c_cert_key c leaf) in
    let! n7 := code InternalServerError (cose_get_unprotected as_bstr16 token EUPH_NONCE) in
    match n7 with
    | None => Err InvalidMessageError
    | Some nonce7 =>
      let! t := code InternalServerError (get_eat c token key) in
      match eat_payload t with
      | None => Err InvalidMessageError
      | Some pv =>
        let! b_kex := of_option InternalServerError (as_provepayload pv) in
        let! same := nonce_eq (eat_nonce t) nonce6 in
        if negb same then Err InvalidMessageError
        else code InternalServerError (
          let! k := derive_key ko (oc_kdf_avail cf) OwnerService ci kx b_kex (read_kdf_header (oe_kdf e)) in
          let! st := cose_new c chk (enc (setup_val (oe_guid e) nonce7 (oc_pub2 cf))) [] (oc_sk2 cf) (oe_rnd e) in
          let! b := cose_serialize st in
          Ok (nonce7, from_derived (Z.to_N (cipher_num ci)) (Combined k), b))
      end
    end
  end.
(** handlers.rs:164-355 *)
Definition h_prove (w : W) (s : session owdata) (token : cose) (e : owenv) : W * hres owdata :=
  let d := ses_data s in
  match od_guid d with
  | None => (w, HReject InvalidMessageError)
  | Some gt =>
    match guid_parse gt with
    | None => (w, HPanic)
    | Some g =>
      match guid_text g with
      | None => (w, HPanic)
      | Some k =>
        match od_nonce6 d, od_kex d, od_cipher d with
        | Some nonce6, Some kx, Some ci =>
          match ow_load w e k with
          | (w1, Err n) => (w1, HReject n)
          | (w1, Panic _) => (w1, HPanic)
          | (w1, Ok None) => (w1, HReject ResourceNotFound)
          | (w1, Ok (Some v)) =>
            match prove_check v nonce6 kx ci token e with
            | Err n => (w1, HReject n)
            | Panic _ => (w1, HPanic)
            | Ok (nonce7, keys, b) =>
              (w1, HReply (OwData (od_guid d) (od_nonce6 d) None None (Some nonce7) true (od_loops d)) (Some keys) b)
            end
          end
        | _, _, _ => (w, HReject InvalidMessageError)
        end
      end
    end
  end.

(** handlers.rs:357-385 *)
Definition h_siready (w : W) (s : session owdata) : W * hres owdata :=
  if od_proven (ses_data s) then (w, HReply (ses_data s) None (enc (VArr [VNull]))) else (w, HReject InvalidMessageError).

(** handlers.rs:387-474 *)
Definition MAX_SERVICE_INFO_LOOPS : N := 1000.
Definition h_serviceinfo (w : W) (s : session owdata) (l : silist) (e : owenv) : W * hres owdata :=
  let d := ses_data s in
  if negb (od_proven d) then (w, HReject InvalidMessageError)
  else
    match od_guid d with
    | None => (w, HReject InvalidMessageError)
    | Some gt =>
      match guid_parse gt with
      | None => (w, HPanic)
      | Some g =>
        match guid_text g with
        | None => (w, HPanic)
        | Some k =>
          let num := match od_loops d with Some n => n | None => 0 end in
          if MAX_SERVICE_INFO_LOOPS <? num then (w, HReject InvalidMessageError)
          else
            match perform_service_info (oe_api e k) num l with
            | None => (w, HReject InternalServerError)
            | Some (more, fin, out) =>
              (w, HReply (OwData (od_guid d) (od_nonce6 d) (od_cipher d) (od_kex d) (od_nonce7 d) (od_proven d) (Some (num + 1))) None
                    (enc (VArr [VBool more; VBool fin; silist_val out])))
            end
        end
      end
    end.

(** handlers.rs:586-664.  [session.destroy()] sets a flag that is not stored: it has no effect here (async-session,
    server.rs:252-272). *)
Definition h_done (w : W) (s : session owdata) (n : bytes) (e : owenv) : W * hres owdata :=
  let d := ses_data s in
  if negb (od_proven d) then (w, HReject InvalidMessageError)
  else
    match od_nonce6 d with
    | None => (w, HReject InvalidMessageError)
    | Some nonce6 =>
      match @nonce_eq unit nonce6 n with
      | Ok true =>
        match od_guid d with
        | None => (w, HReject InvalidMessageError)
        | Some gt =>
          match guid_parse gt with
          | None => (w, HPanic)
          | Some g =>
            match guid_text g with
            | None => (w, HPanic)
            | Some k =>
              match od_nonce7 d with
              | None => (w, HReject InvalidMessageError)
              | Some nonce7 =>
                match oe_fault e with
                | MetaFails => (w, HReject InternalServerError)
                | _ =>
                  match b_meta be (oe_now e) w k To2Performed (MBool true) with
                  | (w1, Err _) => (w1, HReject InternalServerError)
                  | (w1, Panic _) => (w1, HPanic)
                  | (w1, Ok _) =>
                    (w1, HReply (OwData (od_guid d) (od_nonce6 d) (od_cipher d) (od_kex d) None (od_proven d) (od_loops d)) None
                           (enc (VArr [bstr_val nonce7])))
                  end
                end
              end
            end
          end
        end
      | Ok false => (w, HReject InvalidMessageError)
      | _ => (w, HPanic)
      end
    end.

Definition ow_handle (im : mtype) (w : W) (s : session owdata) (m : owmsg) (e : owenv) : W * hres owdata :=
  match m with
  | MHelloDevice m h => h_hellodevice w s m h e
  | MGetEntry n => h_getentry w s n e
  | MProveDevice t => h_prove w s t e
  | MSiReady => h_siready w s
  | MServiceInfo _ l => h_serviceinfo w s l e
  | MDone n => h_done w s n e
  end.
(** main.rs:551-585 *)
Definition ow_routes : list (mtype * mtype) :=
  [(TO2HelloDevice, TO2ProveOVHdr); (TO2GetOVNextEntry, TO2OVNextEntry); (TO2ProveDevice, TO2SetupDevice);
   (TO2DeviceServiceInfoReady, TO2OwnerServiceInfoReady); (TO2DeviceServiceInfo, TO2OwnerServiceInfo); (TO2Done, TO2Done2)].
Definition ow_new : owdata := OwData None None None None None false None.
Definition ow_server : server W owdata owmsg owenv := Server ow_routes (ow_parse c chk) ow_new ow_handle.
End server.
