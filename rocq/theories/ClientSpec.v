(** What the device's owner authentication means, in terms of what was received, and what the device keeps when it is
    interrupted. *)
From Verif Require Import Base CborModel ValueModel Text TypesModel VoucherModel CryptoSpec VoucherSpec KexModel RvModel MsgModel SessionModel
  HttpClientModel RvServerModel SiModel DevSiModel OwnerModel ClientModel.
Local Open Scope N_scope.

(** To the request [w], sent after [h], the bytes [b] came back, as a success. *)
Definition came_back (wo : world) (h : list devent) (url : str) (w : wire) (b : bytes) : Prop :=
  exists r, wo_resp wo (h ++ [TWire url w]) = Some r /\ hr_success r = true /\ hr_body r = Some b.

(** The text of an owner's proof: eight items, the first of them the voucher's header, the number of entries, the
    header's HMAC and the device's nonce. *)
Definition proof_says (chk : bool) (s : bytes) (hdr : bytes) (num : N) (hmac : hash) (nonce5 : bytes) : Prop :=
  exists tag r0 r1 r2 r3 rest, parse_array_data chk (Some 8) s = Ok (PA tag (r0 :: r1 :: r2 :: r3 :: rest)) /\
    from_slice as_bytebuf r0 = Ok hdr /\ from_slice as_u16 r1 = Ok num /\ from_slice as_hash r2 = Ok hmac /\
    from_slice as_bstr16 r3 = Ok nonce5.

(** The HMAC is that of the header under the device's own secret. *)
Definition own_hmac (c : crypto) (dc : devcred) (hdr : bytes) (hmac : hash) : Prop :=
  exists t secret sk, (t = Sha256 \/ t = Sha384) /\ (dc_keys dc = Plain secret sk \/ dc_keys dc = Tpm t secret sk) /\
    h_value hmac = c_hmac c t secret hdr.

(** [fetched h i raws h']: from [h] on, the entries with the numbers [i], [i + 1], ... were asked for and received;
    they are [raws]. *)
Inductive fetched (chk : bool) (wo : world) (url : str) : list devent -> N -> list bytes -> list devent -> Prop :=
| fetched_nil h i : fetched chk wo url h i [] h
| fetched_cons h i w b e raw raws h' :
    wr_type w = 62 -> came_back wo h url w b ->
    read_ovnext chk b = Ok (i, e) -> cose_serialize e = Ok raw ->
    fetched chk wo url (h ++ [TWire url w]) (i + 1) raws h' ->
    fetched chk wo url h i (raw :: raws) h'.

(** In the session that began at [h0], up to [h], the owner has proved that it is the one the voucher names last.
    [to1d] is the redirect that led to it. *)
Definition owner_authenticated (c : crypto) (chk : bool) (wo : world) (dc : devcred) (to1d : cose) (h0 h : list devent) : Prop :=
  exists url w b tok x0 nonce5 rest hdr num hmac hd kraw raws ps p,
    (* the device asked, with a nonce of its own *)
    wr_type w = 60 /\ wr_body w = enc (VArr (x0 :: VBytes (dc_guid dc) :: VBytes nonce5 :: rest)) /\
    nonce5 = wo_rand wo h0 0 /\
    (* and got a signed proof with that nonce *)
    came_back wo h0 url w b /\ cose_deserialize chk b = Ok tok /\
    proof_says chk (cs_payload tok) hdr num hmac nonce5 /\
    (* for a header the device made the HMAC of, by the manufacturer it knows *)
    own_hmac c dc hdr hmac /\
    header_deserialize c chk hdr = Ok hd /\ nth_error (pa_items (hd_contents hd)) 4 = Some kraw /\ digest_of c (dc_mfg dc) kraw /\
    (* all entries were fetched, and lead from the manufacturer to the last owner *)
    fetched chk wo url (h0 ++ [TWire url w]) 0 raws h /\ nlen raws = num /\
    custody c chk (device_identity hd) (hdr ++ enc (hash_val hmac)) (pk_key (hd_mfg hd)) raws (ps ++ [p]) /\
    (* who signed the proof and the redirect *)
    signed_by c (pk_key (p_key p)) tok /\ signed_by c (pk_key (p_key p)) to1d.

(** The redirect [to1d] was received before [h], in answer to a ProveToRV message. *)
Definition redirected (chk : bool) (wo : world) (to1d : cose) (h : list devent) : Prop :=
  exists h1 url w b h2, h = (h1 ++ [TWire url w]) ++ h2 /\ wr_type w = 32 /\ came_back wo h1 url w b /\ cose_deserialize chk b = Ok to1d.

(** No new session with an owner was begun in these events. *)
Definition no_hello (l : list devent) : Prop := forall url w, In (TWire url w) l -> wr_type w <> 60.
(** What a device does only with an owner it accepts: its proof, service information with all its effects on the
    machine, the end of the protocol, and changes to what the device keeps *)
Definition past_authentication (e : devent) : Prop := match e with TWire _ w => In (wr_type w) [64; 66; 68; 70] | _ => True end.
(** In [h], the session now open has come to the point where the owner is authenticated. *)
Definition session_authenticated (c : crypto) (chk : bool) (wo : world) (dc : devcred) (h : list devent) : Prop :=
  exists to1d h0 h1 h2, h = h1 ++ h2 /\ no_hello h2 /\ redirected chk wo to1d h0 /\ owner_authenticated c chk wo dc to1d h0 h1.

(** * Interruptions *)
(** A device that starts with this goes on to onboard. *)
Definition will_onboard (d : devdisk) : Prop :=
  dd_marker d = false /\ exists dc l x, dd_cred d = Cred dc /\ dc_active dc = true /\ dc_version dc = V1_1 /\ to_interpreted (dc_rv dc) Device = Ok (x :: l).
(** The device has told an owner that it is done. *)
Definition told_done (h : list devent) : Prop := exists url w, In (TWire url w) h /\ wr_type w = 70.

(** [ct] says [pt] under keys the device agreed on. *)
Definition says (A : aead) (ko : kex_ops) (avail : bool) (ct pt : bytes) : Prop :=
  exists k other nonint raw, derive_key ko avail KDevice A256Gcm k other nonint = Ok raw /\ ek_decrypt A (from_derived 3 (Combined raw)) ct = Ok pt.
(** The last thing in [h] is a service info message whose answer says that the owner has nothing more to tell. *)
Definition info_done (A : aead) (ko : kex_ops) (avail : bool) (wo : world) (h : list devent) : Prop :=
  exists h1 url w ct pt more l, h = h1 ++ [TWire url w] /\ wr_type w = 68 /\ came_back wo h1 url w ct /\ says A ko avail ct pt /\
    from_slice as_osi pt = Ok (more, true, l).
(** The last thing in [h] is the Done message, answered with the nonce the device had drawn in this session. *)
Definition done_answered (A : aead) (ko : kex_ops) (avail : bool) (wo : world) (h : list devent) : Prop :=
  exists h0 l url w ct pt nonce7, h = (h0 ++ l) ++ [TWire url w] /\ wr_type w = 70 /\ no_hello l /\ nonce7 = wo_rand wo h0 0 /\
    came_back wo (h0 ++ l) url w ct /\ says A ko avail ct pt /\ from_slice as_done pt = Ok nonce7.
(** How the credential is put away *)
Definition put_away (m : deactivation) : list devent :=
  match m with KeepIt => [] | DeleteIt => [TDelete true] | DeactivateIt => [TErase true; TOff true] end.
(** What is changed on the device, and the Done message, come after the owner said it had nothing more to tell, in this
    order: marker, credential, Done. *)
Definition in_order (A : aead) (ko : kex_ops) (avail : bool) (wo : world) (m : deactivation) (h : list devent) (e : devent) : Prop :=
  let after l := exists h1, h = h1 ++ l /\ info_done A ko avail wo h1 in
  match e with
  | TMark _ => after []
  | TErase _ => m = DeactivateIt /\ after [TMark true]
  | TOff _ => m = DeactivateIt /\ after [TMark true; TErase true]
  | TDelete _ => m = DeleteIt /\ after [TMark true]
  | TWire _ w => wr_type w = 70 -> after (TMark true :: put_away m)
  | TFx _ => True
  end.

(** * Honest owners *)
(** To the request [w], sent after [h], the answer is the message [m] with this body.  [av]: the other side has the
    interoperable key derivation; [tok]: a token for the session, if one is sent. *)
Definition answers (av : bool) (wo : world) (h : list devent) (url : str) (w : wire) (m : mtype) (b : bytes) (tok : option str) : Prop :=
  wo_resp wo (h ++ [TWire url w]) = to_hresponse av (Answer m b tok) [].
(** Vouchers made by this implementation, from a new one *)
Inductive issued (c : crypto) (chk : bool) : voucher -> Prop :=
| issued_new h hmac ch v : header_rt c chk h -> hash_small hmac -> chain_ok c ch -> voucher_new h hmac (Some ch) = Ok v -> fits_memory v -> issued c chk v
| issued_extended v v' x : issued c chk v -> ext_ok c x -> extend c chk v (x_sk x) (x_extra x) (x_next x) (x_rnd x) = (v', Ok tt) -> issued c chk v'.
(** From [h0] on, requests for entries are answered as the owner server answers them (handlers.rs:121-162): the entry
    of the voucher with that number, with the number. *)
Definition serves_entries (chk av : bool) (wo : world) (url : str) (v : voucher) (h0 : list devent) : Prop :=
  forall l w n e b, Forall (fun ev => exists w', ev = TWire url w' /\ wr_type w' = 62) l -> wr_type w = 62 ->
    from_slice as_getentry (wr_body w) = Ok n -> entry chk v (N.to_nat n) = Ok e -> ovnextentry n e = Ok b ->
    answers av wo (h0 ++ l) url w TO2OVNextEntry b None.
(** A device that has just received the owner's proof *)
Definition after_proof (s : st) : Prop := hc_keys (s_hc s) = unencrypted /\ hc_last (s_hc s) = Some TO2ProveOVHdr.
(** An owner that behaves: it shows header, HMAC and number of entries of its voucher [v] in a proof [tok] that is, as
    the blob [to1d], signed with the key of the voucher's last owner, and gives out the entries.  [ph]: the content of
    the proof. *)
Definition honest_owner (c : crypto) (chk av : bool) (wo : world) (v : voucher) (tok : cose) (ph : provehdr) (to1d : cose) (s : st) : Prop :=
  exists ps, verify_entries c chk v = Ok ps /\ header_raw v (ph_header ph) /\ ph_hmac ph = ov_hmac v /\ ph_num ph = nlen (entries_raw v) /\
    read_provehdr chk (cs_payload tok) = Ok ph /\ signed_by c (pk_key (owner_after v ps)) tok /\ signed_by c (pk_key (owner_after v ps)) to1d /\
    serves_entries chk av wo (s_url s) v (s_hist s).
