(** Key exchange (data-formats/src/types.rs:977-1400) and the layout of EC signatures
    (data-formats/src/devicecredential/file.rs:328-345). *)
From Verif Require Import Base ValueModel TypesModel Text.
From Coq Require Import Zpow_facts.
Local Open Scope N_scope.

(** types.rs:1254-1262 *)
Inductive kexsuite := Ecdh256 | Ecdh384 | DhkexId14 | DhkexId15.

(** types.rs:1264-1287 [FromStr] and [Display] *)
Definition kexsuite_name (s : kexsuite) : str :=
  match s with
  | Ecdh256 => txt "ECDH256" | Ecdh384 => txt "ECDH384"
  | DhkexId14 => txt "DHKEXid14" | DhkexId15 => txt "DHKEXid15"
  end.
Definition str_eqb : list N -> list N -> bool := list_eqb N.eqb.
Definition kexsuite_of (s : list N) : outcome ferr kexsuite :=
  if str_eqb s (txt "ECDH256") then Ok Ecdh256
  else if str_eqb s (txt "ECDH384") then Ok Ecdh384
  else if str_eqb s (txt "DHKEXid14") then Ok DhkexId14
  else if str_eqb s (txt "DHKEXid15") then Ok DhkexId15
  else Err FInvalidSuiteName.

(** types.rs:1402-1409 and [FromStr], [Display] 1443-1466 *)
Inductive cipher := A128Gcm | A256Gcm.
Definition cipher_name (c : cipher) : str := match c with A128Gcm => txt "A128GCM" | A256Gcm => txt "A256GCM" end.
Definition cipher_of (s : list N) : outcome ferr cipher :=
  if str_eqb s (txt "A128GCM") then Ok A128Gcm
  else if str_eqb s (txt "A256GCM") then Ok A256Gcm
  else Err FInvalidSuiteName.
(** types.rs:1403 (repr i32) *)
Definition cipher_num (c : cipher) : Z := match c with A128Gcm => 1 | A256Gcm => 3 end.
Definition cipher_of_num (z : Z) : option cipher :=
  match z with 1%Z => Some A128Gcm | 3%Z => Some A256Gcm | _ => None end.
(** types.rs:1426-1431 *)
Definition required_keylen (c : cipher) : N := match c with A128Gcm => 16 | A256Gcm => 32 end.

(** types.rs:1319-1326 *)
Definition P_UNREACHABLE : N := 13.
Definition ecdh_random_size (s : kexsuite) : outcome ferr N :=
  match s with Ecdh256 => Ok 16 | Ecdh384 => Ok 48 | _ => Panic P_UNREACHABLE end.

(** What openssl does.  Points are pairs of coordinates; [None] is an openssl error (or the point at
    infinity for [ec_mul], which the code turns into an error too). *)
Record kex_ops := KexOps {
  ec_pub : kexsuite -> bytes -> option (N * N);              (* public point of a DER private key *)
  ec_valid : kexsuite -> N * N -> bool;                      (* from_public_key_affine_coordinates, check_key *)
  ec_mul : kexsuite -> N * N -> bytes -> option (N * N);     (* other's point times our private key *)
  dh_accepts : N -> N -> N -> bool;                          (* prime, other's public value, shared value *)
  kdf : bool -> bytes -> bytes -> N -> option bytes          (* non-interoperable?, info, secret, length *)
}.

(** openssl BigNum::to_vec: big endian without leading zeros; BigNum::from_slice is [be_dec]. *)
Definition bn_to_vec (n : N) : bytes := be_enc (N.to_nat ((N.size n + 7) / 8)) n.

(** types.rs:1338-1395: RFC 3526 sections 3 and 4, generator 2. *)
Definition prime14 : N := 0xFFFFFFFFFFFFFFFFC90FDAA22168C234C4C6628B80DC1CD129024E088A67CC74020BBEA63B139B22514A08798E3404DDEF9519B3CD3A431B302B0A6DF25F14374FE1356D6D51C245E485B576625E7EC6F44C42E9A637ED6B0BFF5CB6F406B7EDEE386BFB5A899FA5AE9F24117C4B1FE649286651ECE45B3DC2007CB8A163BF0598DA48361C55D39A69163FA8FD24CF5F83655D23DCA3AD961C62F356208552BB9ED529077096966D670C354E4ABC9804F1746C08CA18217C32905E462E36CE3BE39E772C180E86039B2783A2EC07A28FB5C55DF06F4C52C9DE2BCBF6955817183995497CEA956AE515D2261898FA051015728E5A8AACAA68FFFFFFFFFFFFFFFF.
Definition prime15 : N := 0xFFFFFFFFFFFFFFFFC90FDAA22168C234C4C6628B80DC1CD129024E088A67CC74020BBEA63B139B22514A08798E3404DDEF9519B3CD3A431B302B0A6DF25F14374FE1356D6D51C245E485B576625E7EC6F44C42E9A637ED6B0BFF5CB6F406B7EDEE386BFB5A899FA5AE9F24117C4B1FE649286651ECE45B3DC2007CB8A163BF0598DA48361C55D39A69163FA8FD24CF5F83655D23DCA3AD961C62F356208552BB9ED529077096966D670C354E4ABC9804F1746C08CA18217C32905E462E36CE3BE39E772C180E86039B2783A2EC07A28FB5C55DF06F4C52C9DE2BCBF6955817183995497CEA956AE515D2261898FA051015728E5A8AAAC42DAD33170D04507A33A85521ABDF1CBA64ECFB850458DBEF0A8AEA71575D060C7DB3970F85A6E1E4C7ABF5AE8CDB0933D71E8C94E04A25619DCEE3D2261AD2EE6BF12FFA06D98A0864D87602733EC86A64521F2B18177B200CBBE117577A615D6C770988C0BAD946E208E24FA074E5AB3143DB5BFCE0FD108E4B82D120A93AD2CAFFFFFFFFFFFFFFFF.
Definition dh_prime (s : kexsuite) : outcome ferr N :=
  match s with DhkexId14 => Ok prime14 | DhkexId15 => Ok prime15 | _ => Panic P_UNREACHABLE end.
Definition pow_mod (b e p : N) : N := Z.to_N (Zpow_mod (Z.of_N b) (Z.of_N e) (Z.of_N p)).

(** types.rs:996-1000 *)
Inductive kex := Ecdh (s : kexsuite) (key random : bytes) | Dhkex (s : kexsuite) (key : bytes).
Inductive kside := OwnerService | KDevice.

(** types.rs:1056-1069 ([as u16]) *)
Definition encode_ecdh_bstr (ax ay random : bytes) : bytes :=
  be_enc 2 (nlen ax mod 65536) ++ ax ++ be_enc 2 (nlen ay mod 65536) ++ ay ++ be_enc 2 (nlen random mod 65536) ++ random.

(** slice::split_at panics past the end *)
Definition P_SPLIT : N := 14.
Definition split_at {E} (n : N) (b : bytes) : outcome E (bytes * bytes) :=
  if n <=? nlen b then Ok (firstn (N.to_nat n) b, skipn (N.to_nat n) b) else Panic P_SPLIT.

(** types.rs:1071-1094 *)
Definition decode_ecdh_bstr (s : bytes) : outcome ferr (bytes * bytes * bytes) :=
  let! (axl, s) := split_at 2 s in
  let! (ax, s) := split_at (be_dec axl) s in
  let! (ayl, s) := split_at 2 s in
  let! (ay, s) := split_at (be_dec ayl) s in
  let! (rl, s) := split_at 2 s in
  let! (random, s) := split_at (be_dec rl) s in
  match s with
  | [] => Ok (ax, ay, random)
  | _ => Err FKeyExchange
  end.

(** types.rs:1024-1054 *)
Definition get_public (o : kex_ops) (k : kex) : outcome ferr bytes :=
  match k with
  | Dhkex s key =>
    let! p := dh_prime s in
    Ok (bn_to_vec (pow_mod 2 (be_dec key) p))
  | Ecdh s key random =>
    let! _ := ecdh_random_size s in      (* get_ecdh_group: the same unreachable arm *)
    let! (x, y) := of_option FCrypto (ec_pub o s key) in
    Ok (encode_ecdh_bstr (bn_to_vec x) (bn_to_vec y) random)
  end.

(** types.rs:1096-1109 *)
Definition derive_key_dh (o : kex_ops) (s : kexsuite) (key other : bytes) : outcome ferr bytes :=
  let! p := dh_prime s in
  let z := pow_mod (be_dec other) (be_dec key) p in
  if dh_accepts o p (be_dec other) z then Ok (bn_to_vec z) else Err FCrypto.

(** types.rs:1110-1172 *)
Definition derive_key_ecdh (o : kex_ops) (side : kside) (s : kexsuite) (key our_random other : bytes) : outcome ferr bytes :=
  let! size := ecdh_random_size s in
  let! (xy, other_random) := decode_ecdh_bstr other in
  let '(x, y) := xy in
  if negb (nlen other_random =? size) then Err FKeyExchange
  else
    let pt := (be_dec x, be_dec y) in
    if negb (ec_valid o s pt) then Err FCrypto
    else
      match ec_mul o s pt key with
      | None => Err FKeyExchange
      | Some (dx, _) =>
        Ok (bn_to_vec dx ++ match side with
                            | KDevice => our_random ++ other_random
                            | OwnerService => other_random ++ our_random
                            end)
      end.

(** types.rs:1003-1004, 1185-1188: the KDF's info; context_rand is empty in both suites *)
Definition KDF_CONTEXT : bytes := txt "AutomaticOnboardTunnel".
Definition kdf_info (c : cipher) : bytes := KDF_CONTEXT ++ be_enc 2 ((required_keylen c * 8) mod 65536).

(** types.rs:1174-1234; [avail] is interoperable_kdf_available() (lib.rs:27-41).  Both cipher suites
    use a combined key. *)
Definition derive_key (o : kex_ops) (avail : bool) (side : kside) (c : cipher) (k : kex) (other : bytes) (nonint : bool) : outcome ferr bytes :=
  let! secret := (match k with
                  | Dhkex s key => derive_key_dh o s key other
                  | Ecdh s key random => derive_key_ecdh o side s key random other
                  end) in
  let nonint := if negb avail then true else nonint in
  of_option FCrypto (kdf o nonint (kdf_info c) secret (required_keylen c)).

(** The header X-Non-Interoperable-KDF a party sends (http-wrapper/src/client.rs:232-234,
    server.rs:315-317) and what the other reads from it (client.rs:242-249: the first response;
    owner-onboarding-server/src/handlers.rs:312-318, manufacturing-server/src/handlers/diun.rs:43-49). *)
Definition kdf_header (avail : bool) : option str := if negb avail then Some (txt "true") else None.
Definition read_kdf_header (h : option str) : bool := match h with Some v => str_eqb v (txt "true") | None => false end.

(** devicecredential/file.rs:328-345 *)
Definition P_ASSERT : N := 15.
Definition merge_ec_signature (r s : bytes) (key_length : nat) : outcome ferr bytes :=
  if (length r <=? key_length)%nat && (length s <=? key_length)%nat then
    Ok (repeat 0 (key_length - length r) ++ r ++ repeat 0 (key_length - length s) ++ s)
  else Panic P_ASSERT.
