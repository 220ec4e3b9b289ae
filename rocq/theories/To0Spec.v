(** What the owner server's maintenance is to do, on the rows of its voucher table and the files of its directory. *)
From Verif Require Import Base Text Assoc Hex RvModel StoreModel StoreSpec RvServerModel CborSpec ValueModel TypesModel VoucherModel OwnerModel To0Model.
Local Open Scope N_scope.

(** The table of an owner server: one row for each GUID, with a readable voucher for it. *)
Definition holds (c : crypto) (chk : bool) (r : row) (v : voucher) : Prop := voucher_deserialize c chk (r_contents r) = Ok v.
Definition sound_table (c : crypto) (chk : bool) (t : table) : Prop :=
  NoDup (map fst t) /\ forall k r, In (k, r) t -> exists v, holds c chk r v /\ guid_text (hd_guid (ov_header v)) = Some k.
Definition onboarded (r : row) : Prop := r_to2 r = Some true.
(** The registration lasts until (the start of) this second at least. *)
Definition registered_until (r : row) (sec : N) : Prop := exists x, r_to0 r = Some x /\ (Z.of_N sec <= x)%Z.

(** What request handlers do meanwhile: mark vouchers as onboarded. *)
Definition only_marks (f : table -> table) : Prop :=
  forall t, map fst (f t) = map fst t /\
  forall k r, aget k t = Some r -> exists r', aget k (f t) = Some r' /\ r_contents r' = r_contents r /\ r_to0 r' = r_to0 r /\
    (r_to2 r' = r_to2 r \/ r_to2 r' = Some true).
(** While one report is made: handlers only mark, the outcome can be recorded, and not before [t]. *)
Definition calm (t : N) (e : around table) : Prop := only_marks (ar_between e) /\ ar_write e = true /\ t <= ar_now e.

(** A report for the voucher of this GUID *)
Definition reported (l : list report) (k : key) (v : voucher) : Prop :=
  guid_text (hd_guid (ov_header v)) = Some k /\ exists rp, In rp l /\ rp_voucher rp = v.

(** Files: the attributes set by the server *)
Definition attr (a : string) (f : file) : option bytes := aget (txt a) (f_xattr f).
Definition file_onboarded (f : file) : Prop := attr "user.fdo.to2_performed" f = Some (txt "true").
(** A time stored as eight bytes, least significant first *)
Definition file_registered_until (f : file) (sec : N) : Prop :=
  exists b, attr "user.fdo.to0_accept_owner_wait_seconds" f = Some b /\ sec <= le_dec b.
(** The attributes are as the server writes them. *)
Definition file_sound (f : file) : Prop :=
  match attr "user.fdo.to2_performed" f with Some b => b = txt "true" \/ b = txt "false" | None => True end /\
  match attr "user.fdo.to0_accept_owner_wait_seconds" f with Some b => length b = 8%nat /\ Forall (fun x => x < 256) b /\ le_dec b < 2 ^ 63 | None => True end.

(** An address that can be told to devices *)
Definition addr_ok (a : to2_addr) : Prop :=
  match ta_ip a with Some b => bytes_ok b /\ (nlen b = 4 \/ nlen b = 16) | None => True end /\
  match ta_dns a with Some s => forallb is_scalar s = true /\ nlen (utf8_enc s) <= 65535 | None => True end /\
  ta_port a <= 65535 /\ 1 <= ta_protocol a <= 6.
(** The rendezvous server's policy lets this voucher in: its manufacturer is trusted and its device chain leads to [key]. *)
Definition admits (c : crypto) (kf : keyfns) (rcf : rvconf) (v : voucher) (k : pubkey) : Prop :=
  match cf_mfg rcf with None => True | Some bag => bag_contains_key c bag (pk_key (hd_mfg (ov_header v))) = Ok true end /\
  exists ch leaf, ov_chain v = Some ch /\
    match cf_dev rcf with Some bag => verify_from_x5bag c ch bag | None => insecure_verify c ch end = Ok leaf /\
    pubkey_of_cert c (kf_type kf) (kf_der kf) leaf = Ok k.
(** The owner server's configuration can be told to devices. *)
Definition tellable (c : crypto) (cf : to0conf) : Prop :=
  Forall addr_ok (tc_addrs cf) /\ nlen (tc_addrs cf) <= 65535 /\ tc_period cf < 2 ^ 32 /\ c_alg c (c_pub c (tc_sk cf)) <> None.
