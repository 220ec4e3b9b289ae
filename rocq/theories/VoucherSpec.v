(** Specification for ownership vouchers: what a chain of custody is. *)
From Verif Require Import Base CborModel ValueModel TypesModel VoucherModel CryptoSpec.
Local Open Scope N_scope.

(** [h] is the digest of [data] under the hash [h] names. *)
Definition digest_of (c : crypto) (h : hash) (data : bytes) : Prop :=
  (h_type h = Sha256 \/ h_type h = Sha384) /\ h_value h = c_hash c (h_type h) data.

(** The object [e] is signed under [key]: its protected header names the key's algorithm and the
    signature over protected header and payload verifies. *)
Definition signed_by (c : crypto) (key : bytes) (e : cose) : Prop :=
  exists alg m z, c_alg c key = Some alg /\ dec_top (cs_prot e) = Some m /\
    (exists l v, as_map m = Some l /\ hdr_get 1 l = Some v /\ untag v = VInt z) /\ z = alg /\
    c_verify c key (tbs (cs_prot e) (cs_payload e)) (cs_sig e) = true.

(** [custody prev info key raws ps]: the encoded entries [raws] hand the device over from the holder
    of [key], step by step; entry by entry, [ps] is their content.  Each entry is signed by the
    holder at that point, commits to the bytes before it ([prev]) and to the device's identity
    ([info]), and names the next holder. *)
Inductive custody (c : crypto) (chk : bool) (info : bytes) : bytes -> bytes -> list bytes -> list payload -> Prop :=
| custody_nil prev key : custody c chk info prev key [] []
| custody_cons prev key raw e p raws ps :
    cose_deserialize chk raw = Ok e ->
    signed_by c key e ->
    read_payload c (cs_payload e) = Ok p ->
    digest_of c (p_prev p) prev ->
    digest_of c (p_hdr p) info ->
    custody c chk info raw (pk_key (p_key p)) raws ps ->
    custody c chk info prev key (raw :: raws) (p :: ps).

(** The owner after a list of verified entries: the last one named, the manufacturer if none. *)
Definition owner_after (v : voucher) (ps : list payload) : pubkey :=
  last (map p_key ps) (hd_mfg (ov_header v)).

(** The parts of a voucher as encoded: header bytes (inside the byte string) and HMAC item. *)
Definition header_raw (v : voucher) (hb : bytes) : Prop :=
  exists raw, nth_error (pa_items (ov_contents v)) 1 = Some raw /\ from_slice as_bytebuf raw = Ok hb.
Definition hmac_raw (v : voucher) (hm : bytes) : Prop :=
  nth_error (pa_items (ov_contents v)) 2 = Some hm.
Definition entries_raw (v : voucher) : list bytes := pa_items (ov_entries v).

(** Identity bytes the entries commit to. *)
Definition device_identity (h : header) : bytes := hd_guid h ++ utf8_enc (hd_devinfo h).

(** One extension request: private key used, extra information, next holder, signer's randomness. *)
Record ext := Ext { x_sk : bytes; x_extra : option (list (N * bytes)); x_next : pubkey; x_rnd : bytes }.

(** Every request uses the key of the current holder, beginning with [key]. *)
Fixpoint rightful (c : crypto) (key : bytes) (l : list ext) : Prop :=
  match l with
  | [] => True
  | x :: r => c_pub c (x_sk x) = key /\ rightful c (pk_key (x_next x)) r
  end.

(** Running the requests one after another, stopping at the first failure. *)
Fixpoint extend_all (c : crypto) (chk : bool) (v : voucher) (l : list ext) : voucher * outcome ferr unit :=
  match l with
  | [] => (v, Ok tt)
  | x :: r =>
    match extend c chk v (x_sk x) (x_extra x) (x_next x) (x_rnd x) with
    | (v', Ok _) => extend_all c chk v' r
    | (v', e) => (v', e)
    end
  end.

(** Tags the writer can write. *)
Definition tag_small (o : option N) : Prop := match o with None => True | Some t => t <= 65535 end.

(** An extension request with readable, moderately sized arguments. *)
Definition extra_ok (e : option (list (N * bytes))) : Prop :=
  match e with
  | None => True
  | Some l => nlen l < 4294967296 /\ nlen (enc (extra_val (Some l))) < 4294967296 /\
      Forall (fun kv => fst kv < two64 /\ bytes_ok (snd kv) /\ nlen (snd kv) < 4294967296) l
  end.

Definition ext_ok (c : crypto) (x : ext) : Prop :=
  pubkey_valid c (x_next x) /\ nlen (pk_data (x_next x)) < 4294967296 /\ extra_ok (x_extra x).

(** A header that reads back from what it writes. *)
Definition header_rt (c : crypto) (chk : bool) (h : header) : Prop :=
  exists hb, header_serialize h = Ok hb /\ header_deserialize c chk hb = Ok h /\ bytes_ok hb.

(** A byte vector has at most isize::MAX bytes. *)
Definition fits_memory (v : voucher) : Prop := nlen (concat (pa_items (ov_contents v))) < 9223372036854775802.

(** Vouchers as they come into being. *)
Inductive made (c : crypto) (chk : bool) : voucher -> Prop :=
| made_new h hmac ch v : header_rt c chk h -> hash_small hmac -> chain_ok c ch ->
    voucher_new h hmac (Some ch) = Ok v -> fits_memory v -> made c chk v
| made_extended v v' x : made c chk v -> ext_ok c x ->
    extend c chk v (x_sk x) (x_extra x) (x_next x) (x_rnd x) = (v', Ok tt) -> made c chk v'
| made_loaded s v : bytes_ok s -> voucher_deserialize c chk s = Ok v -> made c chk v.

(** A header byte string without trailing bytes. *)
Definition header_exact (chk : bool) (v : voucher) : Prop :=
  forall hb, header_raw v hb -> exists a, parse_array chk (Some 6) hb = Ok (a, []).

(** Arguments for a new header: a supported version, a 16-byte GUID, printable ASCII device info. *)
Definition header_args_ok (c : crypto) (version : N) (guid : bytes) (rv : rv_info) (devinfo : str) (mfg : pubkey)
  (chain_hash : hash) : Prop :=
  (version = V1_0 \/ version = V1_1) /\ bytes_ok guid /\ nlen guid = 16 /\ rv_ok rv /\
  Forall (fun ch => 32 <= ch < 127) devinfo /\ nlen devinfo < 4294967296 /\
  pubkey_valid c mfg /\ nlen (pk_data mfg) < 4294967296 /\ hash_small chain_hash.
