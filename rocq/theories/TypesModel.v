(** Hashes, identifiers, public keys, certificate chains and COSE_Sign1:
    data-formats/src/{types,publickey,constants/mod,errors}.rs.

    Cryptography is a record of functions without laws ([crypto]); theorems that need a law take it
    as an explicit hypothesis.  Keys and certificates are byte strings: a public key is its canonical
    encoding (so openssl's [public_eq] is equality), a certificate its DER encoding. *)
From Verif Require Import Base CborModel ValueModel.
Local Open Scope N_scope.

(** constants/mod.rs:32-40 *)
Inductive hashtype := Sha256 | Sha384 | HmacSha256 | HmacSha384.

Definition hashtype_eqb (a b : hashtype) : bool :=
  match a, b with
  | Sha256, Sha256 | Sha384, Sha384 | HmacSha256, HmacSha256 | HmacSha384, HmacSha384 => true
  | _, _ => false
  end.

(** constants/mod.rs:35-40 (repr i8) *)
Definition hashtype_num (t : hashtype) : Z :=
  match t with Sha256 => -16 | Sha384 => -43 | HmacSha256 => 5 | HmacSha384 => 6 end.
Definition hashtype_of (z : Z) : option hashtype :=
  match z with
  | (-16)%Z => Some Sha256
  | (-43)%Z => Some Sha384
  | 5%Z => Some HmacSha256
  | 6%Z => Some HmacSha384
  | _ => None
  end.

(** constants/mod.rs:76-83 *)
Definition digest_size (t : hashtype) : N :=
  match t with Sha256 => 32 | Sha384 => 48 | HmacSha256 => 32 | HmacSha384 => 48 end.

(** constants/mod.rs:85-92 *)
Definition inner_hash (t : hashtype) : hashtype :=
  match t with Sha256 => Sha256 | Sha384 => Sha384 | HmacSha256 => Sha256 | HmacSha384 => Sha384 end.

(** errors.rs:8-17 *)
Inductive chain_err := ChEmpty | ChInvalidSignedCert (pos : N) | ChNoTrustedRoot | ChNonIssuer (pos : N).

(** errors.rs:19-76, the variants the modelled code produces.  The strings of InconsistentValue are
    numbered. *)
Inductive ferr :=
| FArray (e : cerr)
| FSerde
| FCose
| FCrypto
| FIncorrectHash
| FIncorrectNonce
| FUnsupportedAlgorithm
| FNonOwnerKey
| FInconsistent (what : N)
| FInvalidProtocolVersion (v : N)
| FUnsupportedVersion (v : N)
| FInvalidChain (e : chain_err)
| FKeyExchange
| FNotImplemented
| FInvalidPemTag
| FPem
| FEmptyData
| FHex
| FAddr
| FInvalidSuiteName
| FInvalidTransition.

(** InconsistentValue texts *)
Definition I_BSTR16 : N := 1.           (* types.rs:221 *)
Definition I_UEID : N := 2.             (* types.rs:328 *)
Definition I_DIGEST_LEN : N := 3.       (* types.rs:88 *)
Definition I_HASH_SEP : N := 4.         (* types.rs:66 *)
Definition I_DIGEST_NAME : N := 5.      (* constants/mod.rs:49 *)
Definition I_EMPTY_PUBKEY : N := 6.     (* publickey.rs:116 *)
Definition I_EMPTY_X5CHAIN : N := 7.    (* publickey.rs:122, 269 *)
Definition I_MISSING_TAG : N := 8.      (* types.rs:1749 *)
Definition I_INVALID_TAG : N := 9.      (* types.rs:1751 *)
Definition I_SERIALIZE_TAG : N := 10.   (* types.rs:1775 *)
Definition I_SIGNATURE : N := 11.       (* types.rs:1847 *)
Definition I_DEVICE_INFO : N := 12.     (* ownershipvoucher.rs:555 *)

(** More panic labels. *)
Definition P_MEMCMP : N := 10.          (* openssl::memcmp::eq on different lengths *)
Definition P_INDEX : N := 11.           (* slice index out of range *)
Definition P_UNWRAP : N := 12.          (* unwrap of None or Err *)

(** openssl, openssl-kdf: the operations the code calls.  Randomness is an argument. *)
Record crypto := Crypto {
  c_hash : hashtype -> bytes -> bytes;              (* openssl::hash::hash, Sha256/Sha384 *)
  c_hmac : hashtype -> bytes -> bytes -> bytes;     (* HMAC: type, key, data *)
  c_pub : bytes -> bytes;                           (* public half of a private key *)
  c_alg : bytes -> option Z;                        (* COSE algorithm of a public key (get_parameters) *)
  c_sign : bytes -> bytes -> bytes -> bytes;        (* private key, message, randomness *)
  c_verify : bytes -> bytes -> bytes -> bool;       (* public key, message, signature *)
  c_key_of_der : bytes -> option bytes;             (* PKey::public_key_from_der *)
  c_cert_of_der : bytes -> option bytes;            (* X509::from_der followed by to_der *)
  c_cert_key : bytes -> option bytes;               (* X509::public_key *)
  c_issued : bytes -> bytes -> bool;                (* issuer.issued(cert) == OK *)
  c_cert_verify : bytes -> bytes -> option bool     (* cert.verify(key); None: openssl error *)
}.

(** * Reading typed values (serde visitors).  Tags are skipped.  Derived structs are read from
    arrays; the map form serde also accepts (field names as keys) is not modelled. *)

Definition from_slice {A} (f : cval -> option A) (s : bytes) : outcome ferr A :=
  match dec_top s with
  | Some v => of_option FSerde (f v)
  | None => Err FSerde
  end.

(** The integer of a value, if it lies in [lo, hi]. *)
Definition as_int (lo hi : Z) (v : cval) : option Z :=
  match untag v with
  | VInt z => if ((lo <=? z) && (z <=? hi))%Z then Some z else None
  | _ => None
  end.
Definition as_u8 (v : cval) : option N := option_map Z.to_N (as_int 0 255 v).
Definition as_u16 (v : cval) : option N := option_map Z.to_N (as_int 0 65535 v).
Definition as_u32 (v : cval) : option N := option_map Z.to_N (as_int 0 4294967295 v).

(** All elements, or nothing. *)
Fixpoint all_some {A} (l : list (option A)) : option (list A) :=
  match l with
  | [] => Some []
  | None :: _ => None
  | Some x :: r => option_map (cons x) (all_some r)
  end.

(** serde_bytes::ByteBuf: byte strings, texts and arrays of u8. *)
Definition as_bytebuf (v : cval) : option bytes :=
  match untag v with
  | VBytes b => Some b
  | VText b => match utf8_dec b with Some _ => Some b | None => None end
  | VArr l => all_some (map as_u8 l)
  | _ => None
  end.

(** String: texts and UTF-8 byte strings. *)
Definition as_string (v : cval) : option str :=
  match untag v with
  | VText b | VBytes b => utf8_dec b
  | _ => None
  end.

Definition as_list {A} (f : cval -> option A) (v : cval) : option (list A) :=
  match untag v with
  | VArr l => all_some (map f l)
  | _ => None
  end.

Definition as_option {A} (f : cval -> option A) (v : cval) : option (option A) :=
  match v with
  | VNull => Some None
  | _ => option_map Some (f v)
  end.

Definition as_fields (v : cval) : list cval := match untag v with VArr l => l | _ => [] end.

(** * Hash, types.rs:41-135 *)
Record hash := Hash { h_type : hashtype; h_value : bytes }.

Definition hash_val (h : hash) : cval := VArr [VInt (hashtype_num (h_type h)); VBytes (h_value h)].
Definition as_hash (v : cval) : option hash :=
  match as_fields v with
  | [t; b] =>
    match as_int (-128) 127 t with
    | None => None
    | Some z =>
      match hashtype_of z, as_bytebuf b with
      | Some t, Some b => Some (Hash t b)
      | _, _ => None
      end
    end
  | _ => None
  end.

(** constants/mod.rs:54-64 [MessageDigest::try_from] *)
Definition digestible (t : hashtype) : bool :=
  match t with Sha256 | Sha384 => true | _ => false end.

(** types.rs:79-84 *)
Definition hash_from_data (c : crypto) (t : hashtype) (data : bytes) : outcome ferr hash :=
  if digestible t then Ok (Hash t (c_hash c t data)) else Err FUnsupportedAlgorithm.

(** types.rs:86-91 *)
Definition hash_from_digest (t : hashtype) (value : bytes) : outcome ferr hash :=
  if negb (nlen value =? digest_size t) then Err (FInconsistent I_DIGEST_LEN)
  else Ok (Hash t value).

(** openssl::memcmp::eq asserts equal lengths. *)
Definition memcmp_eq {E} (a b : bytes) : outcome E bool :=
  if negb (nlen a =? nlen b) then Panic P_MEMCMP else Ok (bytes_eqb a b).

(** types.rs:125-129 [PartialEq]: the types are not compared. *)
Definition hash_eq (a b : hash) : outcome ferr bool := memcmp_eq (h_value a) (h_value b).

(** types.rs:105-114 *)
Definition hash_compare_data (c : crypto) (h : hash) (other : bytes) : outcome ferr unit :=
  if digestible (h_type h) then
    let! e := memcmp_eq (h_value h) (c_hash c (h_type h) other) in
    if e : bool then Ok tt else Err FIncorrectHash
  else Err FUnsupportedAlgorithm.

(** types.rs:116-122 *)
Definition hash_compare (a b : hash) : outcome ferr unit :=
  let! e := hash_eq a b in
  if e : bool then Ok tt else Err FIncorrectHash.

(** * Nonce and Guid, types.rs:214-355 *)

(** types.rs:214-243: deserialisation checks the length. *)
Definition as_bstr16 (v : cval) : option bytes :=
  match as_bytebuf v with
  | Some b => if nlen b =? 16 then Some b else None
  | None => None
  end.
Definition bstr_val (b : bytes) : cval := VBytes b.

(** types.rs:271-275 *)
Definition nonce_eq {E} (a b : bytes) : outcome E bool := memcmp_eq a b.

(** types.rs:302, 318-324 *)
Definition EAT_RAND : N := 1.
Definition as_ueid (g : bytes) : bytes := EAT_RAND :: g.

(** types.rs:326-332 *)
Definition from_ueid (data : bytes) : outcome ferr bytes :=
  match data with
  | [] => Panic P_INDEX
  | b :: r => if negb (b =? EAT_RAND) then Err (FInconsistent I_UEID) else Ok r
  end.

(** types.rs:313-316 and [Display] 343-347: formatting a GUID that is not 16 bytes panics. *)
Definition guid_as_uuid (g : bytes) : outcome ferr bytes :=
  if nlen g =? 16 then Ok g else Panic P_UNWRAP.

(** * Rendezvous information, types.rs:427-459: directives, instructions (variable, value bytes). *)
Definition rv_instruction := (N * bytes)%type.
Definition rv_directive := list rv_instruction.
Definition rv_info := list rv_directive.

(** constants/mod.rs RendezvousVariable 0..14 (repr u8) *)
Definition as_rv_variable (v : cval) : option N := option_map Z.to_N (as_int 0 14 v).
Definition as_rv_instruction (v : cval) : option rv_instruction :=
  match as_fields v with
  | [k; b] => match as_rv_variable k, as_bytebuf b with
              | Some k, Some b => Some (k, b)
              | _, _ => None
              end
  | _ => None
  end.
Definition as_rv_info : cval -> option rv_info := as_list (as_list as_rv_instruction).
Definition rv_info_val (r : rv_info) : cval :=
  VArr (map (fun d => VArr (map (fun i : rv_instruction => VArr [VInt (Z.of_N (fst i)); VBytes (snd i)]) d)) r).

(** * Certificate chains and public keys, publickey.rs *)

(** publickey.rs:211-264; certificates in the order leaf, ..., root. *)
Definition x5chain := list bytes.
Definition x5chain_val (ch : x5chain) : cval := VArr (map VBytes ch).
Definition as_x5chain (c : crypto) : cval -> option x5chain :=
  as_list (fun v => match as_bytebuf v with Some b => c_cert_of_der c b | None => None end).

(** publickey.rs:266-273 *)
Definition x5chain_new (ch : list bytes) : outcome ferr x5chain :=
  match ch with [] => Err (FInconsistent I_EMPTY_X5CHAIN) | _ => Ok ch end.

(** publickey.rs:25-37 *)
Record pubkey := Pubkey {
  pk_type : N; pk_enc : N; pk_data : bytes;
  pk_key : bytes;                 (* the parsed key *)
  pk_certs : option x5chain
}.

(** constants/mod.rs PublicKeyType {1,5,6,10,11} and PublicKeyEncoding {0,1,2,3} (repr u8). *)
Definition is_pk_type (n : N) : bool := existsb (N.eqb n) [1; 5; 6; 10; 11].
Definition is_pk_enc (n : N) : bool := n <=? 3.
Definition ENC_X509 : N := 1.
Definition ENC_X5CHAIN : N := 2.

(** publickey.rs:104-133 (the X509 encoding of an unparsable key is an openssl error; so is a leaf
    certificate without readable key). *)
Definition parse_key (c : crypto) (e : N) (data : bytes) : outcome ferr (option x5chain * bytes) :=
  if e =? ENC_X509 then
    let! k := of_option FCrypto (c_key_of_der c data) in Ok (None, k)
  else if e =? ENC_X5CHAIN then
    match data with
    | [] => Err (FInconsistent I_EMPTY_PUBKEY)
    | _ =>
      let! ch := from_slice (as_x5chain c) data in
      match ch with
      | [] => Err (FInconsistent I_EMPTY_X5CHAIN)
      | leaf :: _ => let! k := of_option FCrypto (c_cert_key c leaf) in Ok (Some ch, k)
      end
    end
  else Err FUnsupportedAlgorithm.

(** publickey.rs:77-94 *)
Definition pubkey_new (c : crypto) (t e : N) (data : bytes) : outcome ferr pubkey :=
  let! (certs, k) := parse_key c e data in
  Ok (Pubkey t e data k certs).

(** publickey.rs:25-37 (serialise) and 39-74 (deserialise; every error becomes a serde error) *)
Definition pubkey_val (p : pubkey) : cval :=
  VArr [VInt (Z.of_N (pk_type p)); VInt (Z.of_N (pk_enc p)); VBytes (pk_data p)].
Definition as_pubkey (c : crypto) (v : cval) : option pubkey :=
  match as_fields v with
  | [t; e; d] =>
    match as_u8 t, as_u8 e, as_bytebuf d with
    | Some t, Some e, Some d =>
      if is_pk_type t && is_pk_enc e then
        match pubkey_new c t e d with Ok p => Some p | _ => None end
      else None
    | _, _, _ => None
    end
  | _ => None
  end.

(** publickey.rs:160-179 (TryFrom<X5Chain>).  [ktype] is key_type_from_pkey (publickey.rs:135-149);
    errors of [public_key] and [key_type_from_pkey] are not told apart from openssl errors. *)
Definition pubkey_of_chain (c : crypto) (ktype : bytes -> option N) (ch : x5chain) : outcome ferr pubkey :=
  match ch with
  | [] => Err (FInconsistent I_EMPTY_X5CHAIN)
  | leaf :: _ =>
    let! k := of_option FCrypto (c_cert_key c leaf) in
    let! t := of_option FUnsupportedAlgorithm (ktype k) in
    Ok (Pubkey t ENC_X5CHAIN (enc (x5chain_val ch)) k (Some ch))
  end.

(** publickey.rs:181-198 (TryFrom<X509>); [to_der] is public_key_to_der. *)
Definition pubkey_of_cert (c : crypto) (ktype : bytes -> option N) (to_der : bytes -> bytes) (cert : bytes) : outcome ferr pubkey :=
  let! k := of_option FCrypto (c_cert_key c cert) in
  let! t := of_option FUnsupportedAlgorithm (ktype k) in
  Ok (Pubkey t ENC_X509 (to_der k) k None).

(** publickey.rs:155-157 *)
Definition matches_pkey (p : pubkey) (key : bytes) : bool := bytes_eqb (pk_key p) key.

(** enhanced_types.rs:217-277: a bag of certificates (keyed by SHA-256 digest; here: the list of
    certificates, compared by digest). *)
Definition x5bag := list bytes.
Definition bag_contains (c : crypto) (bag : x5bag) (cert : bytes) : bool :=
  existsb (fun b => bytes_eqb (c_hash c Sha256 b) (c_hash c Sha256 cert)) bag.

(** publickey.rs:307-343.  The loop over [certpos], from position [pos]. *)
Fixpoint chain_loop (c : crypto) (trusted : bytes -> outcome ferr bool) (leaf : bytes)
  (pos : N) (ch : list bytes) : outcome ferr bytes :=
  match ch with
  | cert :: ((issuer :: _) as rest) =>
    if negb (c_issued c issuer cert) then Err (FInvalidChain (ChNonIssuer pos))
    else
      let! k := unwrap P_UNWRAP (c_cert_key c issuer) in
      match c_cert_verify c cert k with
      | None => Err FCrypto
      | Some false => Err (FInvalidChain (ChInvalidSignedCert pos))
      | Some true =>
        let! t := trusted issuer in
        if t : bool then Ok leaf
        else chain_loop c trusted leaf (pos + 1) rest
      end
  | _ => Err (FInvalidChain ChNoTrustedRoot)
  end.

Definition chain_verify (c : crypto) (trusted : bytes -> outcome ferr bool) (ch : x5chain)
  : outcome ferr bytes :=
  match ch with
  | [] => Err (FInvalidChain ChEmpty)
  | [one] =>
    let! t := trusted one in
    if t : bool then Ok one else Err (FInvalidChain ChNoTrustedRoot)
  | leaf :: _ => chain_loop c trusted leaf 0 ch
  end.

(** publickey.rs:275-283 *)
Definition verify_from_x5bag (c : crypto) (ch : x5chain) (bag : x5bag) : outcome ferr bytes :=
  chain_verify c (fun cert => Ok (bag_contains c bag cert)) ch.

(** publickey.rs:285-295: comparison with [PartialEq<DigestBytes>] (types.rs:131-135), which panics
    when the digest given has another length. *)
Definition verify_from_digest (c : crypto) (ch : x5chain) (d : hash) : outcome ferr bytes :=
  if digestible (h_type d) then
    chain_verify c (fun cert => memcmp_eq (h_value d) (c_hash c (h_type d) cert)) ch
  else Err FUnsupportedAlgorithm.

(** publickey.rs:297-305 *)
Definition insecure_verify (c : crypto) (ch : x5chain) : outcome ferr bytes :=
  chain_verify c (fun _ => Ok true) ch.

(** * COSE_Sign1, types.rs:1731-1940 and the crate aws-nitro-enclaves-cose (external, modelled from
    its documentation: COSE_Sign1 of RFC 8152 with the algorithm in the protected header). *)
Record cose := Cose {
  cs_contents : parsed_array;
  cs_prot : bytes;                    (* serialised protected header *)
  cs_unprot : list (cval * cval);
  cs_payload : bytes;
  cs_sig : bytes
}.

Definition COSESIGN_TAG : N := 18.

(** Header lookup: integer keys, the last of several equal keys. *)
Fixpoint hdr_get (k : Z) (m : list (cval * cval)) : option cval :=
  match m with
  | [] => None
  | (key, v) :: r =>
    match hdr_get k r with
    | Some x => Some x
    | None => match untag key with VInt z => if (z =? k)%Z then Some v else None | _ => None end
    end
  end.

Definition as_map (v : cval) : option (list (cval * cval)) :=
  match untag v with VMap m => Some m | _ => None end.

(** The signed bytes: ["Signature1", protected, external_aad = h'', payload]. *)
Definition SIGNATURE1 : bytes := [83; 105; 103; 110; 97; 116; 117; 114; 101; 49].
Definition tbs (prot payload : bytes) : bytes :=
  enc (VArr [VText SIGNATURE1; VBytes prot; VBytes []; VBytes payload]).

(** CoseSign1::from_bytes *)
Definition cose_inner_of_bytes (data : bytes)
  : outcome ferr (bytes * list (cval * cval) * bytes * bytes) :=
  match dec_top data with
  | None => Err FCose
  | Some v =>
    let body := match v with VTag 18 b => Some b | VTag _ _ => None | _ => Some v end in
    match body with
    | Some (VArr [p; u; pl; sg]) =>
      match as_bytebuf p, as_map u, as_bytebuf pl, as_bytebuf sg with
      | Some p, Some u, Some pl, Some sg =>
        match dec_top p with
        | Some pv => match as_map pv with Some _ => Ok (p, u, pl, sg) | None => Err FCose end
        | None => Err FCose
        end
      | _, _, _, _ => Err FCose
      end
    | _ => Err FCose
    end
  end.

(** types.rs:1741-1764, on a whole slice *)
Definition cose_deserialize (chk : bool) (s : bytes) : outcome ferr cose :=
  let! a := map_err FArray (parse_array_data chk (Some 4) s) in
  match pa_tag a with
  | None => Err (FInconsistent I_MISSING_TAG)
  | Some t =>
    if negb (t =? COSESIGN_TAG) then Err (FInconsistent I_INVALID_TAG)
    else
      let! data := map_err FArray (serialize_array a) in
      let! (p, u, pl, sg) := cose_inner_of_bytes data in
      Ok (Cose a p u pl sg)
  end.

(** types.rs:1766-1780 *)
Definition cose_serialize (s : cose) : outcome ferr bytes :=
  match pa_tag (cs_contents s) with
  | Some 18 => map_err FArray (serialize_array (cs_contents s))
  | _ => Err (FInconsistent I_SERIALIZE_TAG)
  end.

(** types.rs:1784-1793 *)
Definition cose_from_inner (chk : bool) (p : bytes) (u : list (cval * cval)) (pl sg : bytes)
  : outcome ferr cose :=
  let! a := map_err FArray (parse_array_data chk (Some 4) (enc (VArr [VBytes p; VMap u; VBytes pl; VBytes sg]))) in
  Ok (Cose (PA (Some COSESIGN_TAG) (pa_items a)) p u pl sg).

(** types.rs:1814-1841 (and 1795-1812 with an empty protected map: CoseSign1::new builds the map
    {1: alg} itself).  [rnd] is the signer's randomness. *)
Definition cose_new_with_protected (c : crypto) (chk : bool) (payload : bytes)
  (prot unprot : list (cval * cval)) (sk rnd : bytes) : outcome ferr cose :=
  let! alg := of_option FCose (c_alg c (c_pub c sk)) in
  let p := enc (VMap (prot ++ [(VInt 1, VInt alg)])) in
  cose_from_inner chk p unprot payload (c_sign c sk (tbs p payload) rnd).

Definition cose_new (c : crypto) (chk : bool) (payload : bytes) (unprot : list (cval * cval))
  (sk rnd : bytes) : outcome ferr cose :=
  cose_new_with_protected c chk payload [] unprot sk rnd.

(** CoseSign1::verify_signature: the protected header must name the algorithm of the key.
    [Err] stands for its errors, [Ok false] for a bad signature. *)
Definition cose_check (c : crypto) (s : cose) (key : bytes) : outcome ferr bool :=
  let! alg := of_option FCose (c_alg c key) in
  let! pv := of_option FCose (dec_top (cs_prot s)) in
  let! pm := of_option FCose (as_map pv) in
  match hdr_get 1 pm with
  | None => Err FCose
  | Some a =>
    match untag a with
    | VInt z => if (z =? alg)%Z then Ok (c_verify c key (tbs (cs_prot s) (cs_payload s)) (cs_sig s))
                else Err FCose
    | _ => Err FCose
    end
  end.

(** types.rs:1843-1849 *)
Definition cose_verify (c : crypto) (s : cose) (key : bytes) : outcome ferr unit :=
  let! ok := cose_check c s key in
  if ok : bool then Ok tt else Err (FInconsistent I_SIGNATURE).

(** CoseSign1::get_payload(Some key): [Err UnverifiedSignature] on a bad signature. *)
Definition cose_verified_payload (c : crypto) (s : cose) (key : bytes) : outcome ferr bytes :=
  let! ok := cose_check c s key in
  if ok : bool then Ok (cs_payload s) else Err FCose.

(** types.rs:1871-1877 with the payload's reader *)
Definition cose_get_payload {A} (c : crypto) (rd : bytes -> outcome ferr A) (s : cose) (key : bytes)
  : outcome ferr A :=
  let! p := cose_verified_payload c s key in rd p.

(** types.rs:1863-1869 *)
Definition cose_get_payload_unverified {A} (rd : bytes -> outcome ferr A) (s : cose) : outcome ferr A :=
  rd (cs_payload s).

(** types.rs:1914-1929 *)
Definition cose_get_protected {A} (c : crypto) (f : cval -> option A) (s : cose) (k : Z) (key : bytes)
  : outcome ferr (option A) :=
  let! _ := cose_verified_payload c s key in
  let! pv := of_option FCose (dec_top (cs_prot s)) in
  let! pm := of_option FCose (as_map pv) in
  match hdr_get k pm with
  | None => Ok None
  | Some v => let! x := of_option FSerde (f v) in Ok (Some x)
  end.

(** types.rs:1931-1939: unprotected values are returned without verification. *)
Definition cose_get_unprotected {A} (f : cval -> option A) (s : cose) (k : Z) : outcome ferr (option A) :=
  match hdr_get k (cs_unprot s) with
  | None => Ok None
  | Some v => let! x := of_option FSerde (f v) in Ok (Some x)
  end.
