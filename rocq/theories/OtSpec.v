(** What the owner tool's commands are for. *)
From Verif Require Import Base CborModel ValueModel Text Assoc RvSpec Hex TypesModel VoucherModel CryptoSpec VoucherSpec RvModel StoreModel StoreSpec
  MsgModel SessionModel RvServerModel RvServerSpec OwnerModel MfgModel MfgSpec ClientModel ClientSpec MfgClientModel MfgClientSpec OtModel.
Local Open Scope N_scope.

(** The voucher in a file, in either form *)
Definition holds_voucher (pm : pem_codec) (c : crypto) (chk : bool) (d : dir) (path : name) (v : voucher) : Prop :=
  exists f, aget path d = Some f /\ from_pem_or_raw pm c chk (f_data f) = Ok v.
(** [v'] is [v] handed on to the owner of [next] with the private key [sk]: one entry more, nothing else changed; and if
    the entries of [v] verify, [sk] is the key of the last owner, and those of [v'] verify and end with [next]. *)
Definition handed_on (c : crypto) (chk : bool) (sk : bytes) (next : pubkey) (v v' : voucher) : Prop :=
  ov_version v' = ov_version v /\ ov_header v' = ov_header v /\ ov_hmac v' = ov_hmac v /\ ov_chain v' = ov_chain v /\
  (exists e, entries_raw v' = entries_raw v ++ [e]) /\
  forall ps, verify_entries c chk v = Ok ps -> c_pub c sk = pk_key (owner_after v ps) /\
    exists p, verify_entries c chk v' = Ok (ps ++ [p]) /\ p_key p = next /\ p_extra p = None.
(** The key that a certificate file is about *)
Definition names_owner (c : crypto) (rd : readers) (d : dir) (certfile : name) (next : pubkey) : Prop :=
  exists f cert, aget certfile d = Some f /\ rd_cert rd (f_data f) = Some cert /\ c_cert_key c cert = Some (pk_key next).
Definition holds_key (rd : readers) (d : dir) (keyfile : name) (sk : bytes) : Prop :=
  exists f, aget keyfile d = Some f /\ rd_pkey rd (f_data f) = Some sk.

(** A voucher and a credential that were made for each other: the credential is for the voucher's header (with the device
    information as given, where the header's is trimmed), the voucher's HMAC is that of its header with the credential's
    secret, its device certificate is for the credential's key, and nobody but the manufacturer owns the device. *)
Definition belong_together (c : crypto) (chk : bool) (v : voucher) (info : str) (dc : devcred) : Prop :=
  exists hb secret sk leaf rest,
    header_raw v hb /\ header_deserialize c chk hb = Ok (ov_header v) /\
    dc_active dc = true /\ dc_version dc = V1_1 /\ dc_guid dc = hd_guid (ov_header v) /\ dc_rv dc = hd_rv (ov_header v) /\ trim info = hd_devinfo (ov_header v) /\
    (exists kraw, nth_error (pa_items (hd_contents (ov_header v))) 4 = Some kraw /\ dc_mfg dc = Hash Sha384 (c_hash c Sha384 kraw)) /\
    dc_keys dc = Plain secret sk /\ ov_hmac v = Hash HmacSha384 (c_hmac c Sha384 secret hb) /\
    ov_chain v = Some (leaf :: rest) /\ c_cert_key c leaf = Some (c_pub c sk) /\
    hd_chain_hash (ov_header v) = Some (Hash Sha384 (c_hash c Sha384 (concat (leaf :: rest)))) /\
    entries_raw v = [].

(** The owner's record for a voucher *)
Definition row_for (c : crypto) (chk : bool) (v : voucher) (r : row) : Prop :=
  voucher_deserialize c chk (r_contents r) = Ok v /\ r_to2 r = None /\ r_to0 r = None.

(** * Assumptions *)
(** PEM: what is encoded is read back, PEM text begins with dashes and is not shorter than what it encodes; what is read
    are bytes, fewer than there are characters. *)
Definition pem_ok (pm : pem_codec) : Prop :=
  (forall tag d, pem_parse pm (pem_encode pm tag d) = Some (tag, d)) /\
  (forall tag d, exists t, pem_encode pm tag d = 45 :: 45 :: t) /\
  (forall tag d, nlen d <= nlen (pem_encode pm tag d)) /\
  (forall b tag d, bytes_ok b -> pem_parse pm b = Some (tag, d) -> bytes_ok d /\ nlen d <= nlen b).
(** A file of bytes, below an exabyte *)
Definition file_ok (b : bytes) : Prop := bytes_ok b /\ nlen b < 1152921504606846976.
Definition files_ok (d : dir) : Prop := forall n f, aget n d = Some f -> file_ok (f_data f).
(** The readers of the tool's input files give usable values of moderate size for files below a gigabyte. *)
Definition readers_ok (c : crypto) (rd : readers) : Prop :=
  (forall b ch, nlen b < 1073741824 -> rd_certs rd b = Some ch -> chain_ok c ch /\ nlen ch < 4294967295 /\ nlen (enc (x5chain_val ch)) < 4294967296) /\
  (forall b rv, nlen b < 1073741824 -> rd_rv rd b = Ok rv -> rv_ok rv /\ nlen (enc (rv_info_val rv)) < 4294967296).
(** The device's identifier is text as a command line can have it; what is drawn is what is needed. *)
Definition id_ok (info : str) : Prop := forallb is_scalar info = true /\ nlen (utf8_enc info) <= 131072.
Definition draws_ok (dr : draws) : Prop := key_bytes (dr_sk dr) /\ key_bytes (dr_secret dr) /\ bytes_ok (dr_guid dr) /\ nlen (dr_guid dr) = 16.
Definition inputs_small (d : dir) (a : initargs) : Prop := forall n f, (n = ia_cachain a \/ n = ia_rv a) -> aget n d = Some f -> nlen (f_data f) < 1073741824.
(** A manufacturer's table: rows under different keys, each with a voucher that can be written again (see C05: a tag on
    its outer array is at most 65535) under its GUID *)
Definition issued_table (c : crypto) (chk : bool) (t : table) : Prop :=
  NoDup (map fst t) /\
  forall k r, In (k, r) t -> bytes_ok (r_contents r) /\ nlen (r_contents r) < 576460752303423488 /\
    exists v, voucher_deserialize c chk (r_contents r) = Ok v /\ guid_text (hd_guid (ov_header v)) = Some k /\ tag_small (pa_tag (ov_contents v)).
