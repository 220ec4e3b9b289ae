(** A rendezvous server at which a device is registered, as the device meets it. *)
From Verif Require Import Base CborModel ValueModel Text Assoc Hex TypesModel VoucherModel CryptoSpec VoucherSpec KexModel KexSpec RvModel StoreModel StoreSpec Backend
  MsgModel SessionModel SessionSpec HttpClientModel HttpClientSpec RvServerModel RvServerSpec SiModel DevSiModel OwnerModel ClientModel OnboardSpec ServeSpec.
Local Open Scope N_scope.

(** A store that holds the record [it] for the key [k], until the time [until], while [holds] is so: it is found, and whatever
    else is looked for or stored, it is still there. *)
Record finder {W} (be : backend item W) (k : str) (it : item) (until : N) (holds : W -> Prop) : Prop := {
  fi_load : forall now w, now <= until -> holds w -> b_load be now w k = (w, Ok (Some it));
  fi_loads : forall now w k' w' r, now <= until -> holds w -> b_load be now w k' = (w', r) -> holds w';
  fi_stores : forall w k' x w' r, plain_key k' -> k' <> k -> holds w -> b_store be w k' x = (w', r) -> holds w';
  fi_metas : forall now w k' s w' r, plain_key k' -> k' <> k -> holds w -> b_meta be now w k' Ttl (MDur s) = (w', r) -> holds w' }.
(** In a directory: a file with no expiry before that; in a table: a row *)
Definition dir_until (cd : codec item) (k : str) (it : item) (until : N) (d : dir) : Prop :=
  exists f, aget (get_path k) d = Some f /\ de cd (f_data f) = Some it /\
    match aget (xname Ttl) (f_xattr f) with None => True | Some t => exists x, ttl_from_disk t = Ok x /\ until <= x end.
Definition row_of (cd : codec item) (k : str) (it : item) (t : table) : Prop := exists r, aget k t = Some r /\ de cd (r_contents r) = Some it.

(** The requests of others: before [until], and none registers this device (the key [k]) anew. *)
Definition of_others (c : crypto) (chk : bool) (k : str) (until : N) (m : rvmsg) (e : rvenv) : Prop :=
  e_now e <= until /\
  match m with
  | MOwnerSign m => forall t, to0data_read c chk (os_to0d m) = Ok t ->
      bytes_ok (hd_guid (ov_header (t0_voucher t))) /\ guid_text (hd_guid (ov_header (t0_voucher t))) <> Some k
  | _ => True
  end.
(** What the server has to work with when the device calls *)
Record rv_ready {W} (idt : str -> option str) (until : N) (x : surround W rvenv) : Prop := {
  ry_env : forall w, exists n, su_env x w = RvEnv (e_now (su_env x w)) n IoOk /\ nonce_ok n;
  ry_time : forall w, e_now (su_env x w) <= until;
  ry_same : forall w w', su_env x w = su_env x w';
  ry_token : no_space (su_token x) /\ idt (su_token x) = Some (su_id x) }.
(** The record is for the device of the credential: its key *)
Definition its_record (c : crypto) (dc : devcred) (it : item) : Prop :=
  (bytes_ok (dc_guid dc) /\ nlen (dc_guid dc) = 16) /\ pk_key (si_key it) = c_pub c (ks_sk (dc_keys dc)) /\ c_alg c (c_pub c (ks_sk (dc_keys dc))) <> None.
(** What is stored can be sent and is then read as it was: so of everything that was registered. *)
Definition sends (chk : bool) (t : cose) : Prop := exists b, cose_serialize t = Ok b /\ cose_deserialize chk b = Ok t.
(** An address at which nobody answers *)
Definition dead (wo : world) (u : str) : Prop := forall h w, wo_resp wo (h ++ [TWire u w]) = None.
(** Requests that went to such addresses *)
Definition to_dead (wo : world) (e : devent) : Prop := exists u w, e = TWire u w /\ dead wo u.
