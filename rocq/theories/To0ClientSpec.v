(** An owner server that registers a voucher with a rendezvous server over HTTP. *)
From Verif Require Import Base CborModel ValueModel CborSpec Text Assoc Hex TypesModel VoucherModel CryptoSpec VoucherSpec RvModel StoreModel StoreSpec Backend
  MsgModel SessionModel SessionSpec HttpClientModel HttpClientSpec RvServerModel RvServerSpec SiModel DevSiModel OwnerModel ClientModel To0Model To0Spec FindSpec.
Local Open Scope N_scope.

(** The request that is a call: a Hello message, an empty array; or an OwnerSign message *)
Inductive sent_as : contact -> devent -> Prop :=
| sent_hello u w : wr_type w = 20 -> wr_body w = [128] -> wr_auth w = None -> sent_as (CHello u) (TWire u w)
| sent_sign u m w : wr_type w = 22 -> wr_body w = m -> sent_as (CSign u m) (TWire u w).

(** A voucher in the store of the owner it was last given to, whose registration the rendezvous server's policy allows: its
    device has the key [key]. *)
Record registrable (c : crypto) (chk : bool) (kf : keyfns) (rcf : rvconf) (cf : to0conf) (data : bytes) (v : voucher) (key : pubkey) : Prop := {
  rg_data : bytes_ok data /\ nlen data < 2 ^ 32;
  rg_read : voucher_deserialize c chk data = Ok v;
  rg_tag : tag_small (CborModel.pa_tag (ov_contents v));
  rg_owner : exists ps, verify_entries c chk v = Ok ps /\ ps <> [] /\ pk_key (owner_after v ps) = c_pub c (tc_sk cf);
  rg_tells : tellable c cf;
  rg_admits : admits c kf rcf v key }.
(** What the owner server itself requires of it *)
Definition reportable (c : crypto) (cf : to0conf) (v : voucher) : Prop :=
  hd_version (ov_header v) = 101 /\
  exists ch leaf, ov_chain v = Some ch /\ match tc_trusted cf with Some bag => verify_from_x5bag c ch bag | None => insecure_verify c ch end = Ok leaf.
(** The record is of the owner's: the device's key, and the owner's addresses signed by the owner *)
Definition owners_record (c : crypto) (chk : bool) (cf : to0conf) (key : pubkey) (it : item) : Prop :=
  si_key it = key /\ sends chk (si_to1d it) /\ signed_by c (c_pub c (tc_sk cf)) (si_to1d it) /\
  exists h, cose_get_payload_unverified (from_slice as_to1payload) (si_to1d it) = Ok (To1p (tc_addrs cf) h).
(** The end of a registration made at the time [now] *)
Definition registered_to (cf : to0conf) (rcf : rvconf) (now : N) : N := (now / second + N.min (tc_period cf) (cf_max rcf)) * second.

(** The responses the owner server gets are made of bytes, and the authorization headers in them are text. *)
Definition plain_responses (wo : world) : Prop :=
  forall h r, wo_resp wo h = Some r -> hr_auth r <> Some HOpaque /\ forall b, hr_body r = Some b -> bytes_ok b.
(** A voucher that can be read and small enough, every certificate of which has a readable key; a configuration that can be told *)
Record harmless (c : crypto) (chk : bool) (cf : to0conf) (data : bytes) (v : voucher) : Prop := {
  hl_data : bytes_ok data /\ nlen data < 2 ^ 32;
  hl_read : voucher_deserialize c chk data = Ok v;
  hl_tag : tag_small (CborModel.pa_tag (ov_contents v));
  hl_certs : forall ch x, ov_chain v = Some ch -> In x ch -> c_cert_key c x <> None;
  hl_tells : tellable c cf }.
