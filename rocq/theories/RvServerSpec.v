(** What a registration at the rendezvous server is, what a rightful lookup is, and where they show in a run. *)
From Verif Require Import Base CborModel ValueModel Text Hex TypesModel VoucherModel CryptoSpec VoucherSpec ChainSpec RvModel StoreModel StoreSpec
  Backend BackendSpec MsgModel SessionModel RvServerModel.
Local Open Scope N_scope.

(** A registration request is an array of a byte string [to0d] and a signed object [to1d] ... *)
Definition request_parts (chk : bool) (body to0d : bytes) (to1d : cose) : Prop :=
  exists tag r0 r1 rest, parse_array chk (Some 2) body = Ok (PA tag [r0; r1], rest) /\
    from_slice as_bytebuf r0 = Ok to0d /\ cose_deserialize chk r1 = Ok to1d.
(** ... where [to0d] is an array of a voucher, the seconds asked for and a nonce. *)
Definition to0d_parts (c : crypto) (chk : bool) (to0d : bytes) (v : voucher) (wait : N) (nonce : bytes) : Prop :=
  exists tag r0 r1 r2 rest, parse_array chk (Some 3) to0d = Ok (PA tag [r0; r1; r2], rest) /\
    voucher_deserialize c chk r0 = Ok v /\ from_slice as_u32 r1 = Ok wait /\ from_slice as_bstr16 r2 = Ok nonce.

(** The voucher's entries are a chain of custody beginning with the manufacturer. *)
Definition verifies (c : crypto) (chk : bool) (v : voucher) (ps : list payload) : Prop :=
  exists hb hm, header_raw v hb /\ hmac_raw v hm /\
    custody c chk (device_identity (ov_header v)) (hb ++ hm) (pk_key (hd_mfg (ov_header v))) (entries_raw v) ps.
(** The manufacturer's key is that of a configured certificate, if any are configured. *)
Definition mfg_accepted (c : crypto) (mfg : option x5bag) (v : voucher) : Prop :=
  forall bag, mfg = Some bag -> exists cert, In cert bag /\ c_cert_key c cert = Some (pk_key (hd_mfg (ov_header v))).
(** The device's chain leads to a configured certificate (one with the same digest); with none configured, its first
    link is right. *)
Definition device_accepted (c : crypto) (dev : option x5bag) (v : voucher) (key : bytes) : Prop :=
  exists ch leaf, ov_chain v = Some ch /\ c_cert_key c leaf = Some key /\
    reaches c (fun x => forall bag, dev = Some bag -> exists b, In b bag /\ c_hash c Sha256 b = c_hash c Sha256 x) ch leaf.

(** The request [body] with this session's nonce [n] registers [to1d], for the device [key] with GUID [g], asking for
    [wait] seconds. *)
Definition registers (c : crypto) (chk : bool) (cf : rvconf) (body n g key : bytes) (to1d : cose) (wait : N) : Prop :=
  exists to0d v ps addrs h,
    request_parts chk body to0d to1d /\ to0d_parts c chk to0d v wait n /\
    hd_guid (ov_header v) = g /\ verifies c chk v ps /\ ps <> [] /\
    signed_by c (pk_key (owner_after v ps)) to1d /\
    from_slice as_to1payload (cs_payload to1d) = Ok (To1p addrs h) /\ digest_of c h to0d /\
    mfg_accepted c (cf_mfg cf) v /\ device_accepted c (cf_dev cf) v key.

(** The token is signed with [key] and carries the nonce [n]. *)
Definition EAT_NONCE_KEY : Z := 10.
Definition token_proves (c : crypto) (chk : bool) (body : bytes) (key n : bytes) : Prop :=
  exists token claims v, cose_deserialize chk body = Ok token /\ signed_by c key token /\
    from_slice as_claims (cs_payload token) = Ok claims /\ hdr_get EAT_NONCE_KEY claims = Some v /\ as_bstr16 v = Some n.

Section runs.
Context {W : Type}.
Definition rvobs := obs (W:=W) (D:=rvdata) (M:=rvmsg) (E:=rvenv).
(** Session [id] was given the nonce [n] for registering. *)
Definition gave_nonce3 (os : list rvobs) (id : str) (n : bytes) : Prop :=
  exists s body m w e, In (Ran id TO0Hello s body m w e) os /\ e_nonce e = n.
(** Session [id] asked for the device with GUID [g] and was given the nonce [n]. *)
Definition asked_for (os : list rvobs) (id : str) (g n : bytes) : Prop :=
  exists s body sg m w e, In (Ran id TO1HelloRV s body m w e) os /\ from_slice as_hellorv body = Ok (HelloRV g sg) /\ e_nonce e = n.
(** The record [it] under the key [k] comes from a registration at time [t] that asked for [wait] seconds. *)
Definition registered_at (c : crypto) (chk : bool) (cf : rvconf) (os : list rvobs) (k : str) (it : item) (t wait : N) : Prop :=
  exists pre id s body m w e post n g, os = pre ++ Ran id TO0OwnerSign s body m w e :: post /\ e_now e = t /\
    gave_nonce3 pre id n /\ guid_text g = Some k /\ registers c chk cf body n g (pk_key (si_key it)) (si_to1d it) wait.
Definition registered (c : crypto) (chk : bool) (cf : rvconf) (os : list rvobs) (k : str) (it : item) : Prop :=
  exists t wait, registered_at c chk cf os k it t wait.
End runs.

(** Requests carry bytes; nonces drawn have 16 bytes; the year is before 2^62 seconds. *)
Definition request_ok (body : bytes) (e : rvenv) : Prop :=
  bytes_ok body /\ bytes_ok (e_nonce e) /\ nlen (e_nonce e) = 16 /\ e_now e / second < 2 ^ 62.
(** What may happen between requests: time passes, connections break, the maintenance runs and, generally, records are
    forgotten. *)
Definition event_ok {W} (keeps : W -> key -> item -> Prop) (ev : event (W:=W) (E:=rvenv)) : Prop :=
  match ev with
  | EArrive rq => request_ok (rq_body rq) (rq_env rq)
  | EWorld f => forall w, forgets keeps w (f w)
  | _ => True
  end.
(** Keys in certificates: the type has a number, and the DER form reads back. *)
Definition keyfns_ok (c : crypto) (kf : keyfns) : Prop :=
  forall cert k, c_cert_key c cert = Some k ->
    (forall t, kf_type kf k = Some t -> is_pk_type t = true) /\
    bytes_ok (kf_der kf k) /\ nlen (kf_der kf k) <= 1048576 /\ c_key_of_der c (kf_der kf k) = Some k.
