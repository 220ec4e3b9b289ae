(** What the owner onboarding server must have seen before it lets a device on, and where that shows in a run. *)
From Verif Require Import Base CborModel ValueModel Text Assoc Hex TypesModel VoucherModel CryptoSpec KexModel StoreModel StoreSpec
  Backend BackendSpec MsgModel SessionModel SessionSpec RvServerModel RvServerSpec SiModel SiApiModel OwnerModel.
Local Open Scope N_scope.

(** The key of the device certificate, the first of the voucher's chain. *)
Definition device_key (c : crypto) (v : voucher) (key : bytes) : Prop :=
  exists leaf rest, ov_chain v = Some (leaf :: rest) /\ c_cert_key c leaf = Some key.

(** A HelloDevice message is an array of six, the second of which is the GUID. *)
Definition hello_guid (body g : bytes) : Prop :=
  exists v x0 x1 rest, dec_top body = Some v /\ as_fields v = x0 :: x1 :: rest /\ as_bstr16 x1 = Some g.
(** A GetOVNextEntry message is an array of the entry's number. *)
Definition entry_number (body : bytes) (n : N) : Prop := exists v x, dec_top body = Some v /\ as_fields v = [x] /\ as_u8 x = Some n.
(** A Done message is an array of the nonce. *)
Definition done_nonce (pt n : bytes) : Prop := exists v x, dec_top pt = Some v /\ as_fields v = [x] /\ as_bstr16 x = Some n.

Section runs.
Context {W : Type}.
Definition owobs := obs (W:=W) (D:=owdata) (M:=owmsg) (E:=owenv).
(** Session [id] asked to be onboarded as the device with GUID [g] and was given the nonce [n]. *)
Definition greeted (os : list owobs) (id : str) (g n : bytes) : Prop :=
  exists s body m w e, In (Ran id TO2HelloDevice s body m w e) os /\ hello_guid body g /\ oe_nonce e = n.
(** Session [id] then presented a token signed by the key of the device certificate in the voucher kept for that GUID,
    over that nonce. *)
Definition proved (c : crypto) (chk : bool) (keeps : W -> key -> voucher -> Prop) (os : list owobs) (id : str) (g n : bytes) : Prop :=
  exists pre s body m w e post k v key,
    os = pre ++ Ran id TO2ProveDevice s body m w e :: post /\ greeted pre id g n /\ guid_text g = Some k /\
    keeps w k v /\ device_key c v key /\ token_proves c chk body key n.
(** Session [id] said it is done, with the nonce [n]. *)
Definition finished (A : aead) (os : list owobs) (id : str) (n : bytes) : Prop :=
  exists s body pt m w e, In (Ran id TO2Done s body m w e) os /\ ek_decrypt A (keys_of s) body = Ok pt /\ done_nonce pt n.

(** The key exchange value the device put in its token: the claim -257 is an array of it. *)
Definition token_kex (chk : bool) (body x : bytes) : Prop :=
  exists token claims v y, cose_deserialize chk body = Ok token /\ from_slice as_claims (cs_payload token) = Ok claims /\
    hdr_get (-257)%Z claims = Some v /\ as_fields v = [y] /\ as_bytebuf y = Some x.
(** Session [id] was offered the key exchange [kx], drawn for it. *)
Definition offered (os : list owobs) (id : str) (kx : kex) : Prop :=
  exists s body m w e suite, In (Ran id TO2HelloDevice s body m w e) os /\ oe_kex e suite = Some kx.
(** The keys [k] come from the key exchange of session [id]: its own secret and the value in the device's token. *)
Definition agreed (chk : bool) (ko : kex_ops) (avail : bool) (os : list owobs) (id : str) (k : ekeys) : Prop :=
  exists pre s body m w e post kx x raw ci,
    os = pre ++ Ran id TO2ProveDevice s body m w e :: post /\ offered pre id kx /\ token_kex chk body x /\
    derive_key ko avail OwnerService ci kx x (match oe_kdf e with Some h => text_eqb h (txt "true") | None => false end) = Ok raw /\
    k = EKeys (Some (Z.to_N (cipher_num ci))) (Some (Combined raw)).

(** The service info rounds a session has had. *)
Definition is_round (x : mtype * mtype * session owdata) : bool := mtype_num (fst (fst x)) =? 68.
Definition rounds (id : str) (os : list owobs) : N := nlen (filter is_round (stored_of id os)).
End runs.

(** Marking a voucher as onboarded.  [marked w k]: the voucher under [k] is marked. *)
Section marks.
Context {V W : Type} (be : backend V W) (marked : W -> key -> Prop).
Definition marks_less (w w' : W) : Prop := forall k, plain_key k -> marked w' k -> marked w k.
Record mark_laws : Prop := {
  ml_load : forall now w k w' r, plain_key k -> b_load be now w k = (w', r) -> marks_less w w';
  ml_meta : forall now w k m x w' r, plain_key k -> b_meta be now w k m x = (w', r) ->
    forall k', plain_key k' -> marked w' k' -> marked w k' \/ (k' = k /\ m = To2Performed /\ x = MBool true);
  ml_set : forall now w k w', b_meta be now w k To2Performed (MBool true) = (w', Ok tt) ->
    (exists v, snd (b_load be now w k) = Ok (Some v)) -> marked w' k
}.
End marks.
Definition dir_marked (d : dir) (k : key) : Prop :=
  exists f, In (get_path k, f) d /\ aget (txt "user.fdo.to2_performed") (f_xattr f) = Some (txt "true").
Definition db_marked (t : table) (k : key) : Prop := exists r, In (k, r) t /\ r_to2 r = Some true.

(** Requests carry bytes; nonces drawn have 16 bytes. *)
Definition ow_request_ok (body : bytes) (e : owenv) : Prop := bytes_ok body /\ bytes_ok (oe_nonce e) /\ nlen (oe_nonce e) = 16.
(** Between requests anything may happen to the store except that vouchers get marked. *)
Definition ow_event_ok {W} (marked : W -> key -> Prop) (ev : event (W:=W) (E:=owenv)) : Prop :=
  match ev with
  | EArrive rq => ow_request_ok (rq_body rq) (rq_env rq)
  | EWorld f => forall w, marks_less marked w (f w)
  | _ => True
  end.

(** The messages a device gets only after it has proved itself. *)
Definition after_proof : list mtype := [TO2SetupDevice; TO2OwnerServiceInfoReady; TO2OwnerServiceInfo; TO2Done2].
