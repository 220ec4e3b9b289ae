(** Properties of the manufacturing server: C31, C32. *)
From Verif Require Import Base BaseFacts Text Assoc RvModel StoreModel StoreSpec Hex Backend BackendSpec BackendProofs
  CborModel ValueModel TypesModel CryptoSpec VoucherModel VoucherSpec VoucherProofs KexModel KexSpec MsgModel SessionModel SessionSpec SeqFacts
  RvServerModel RvServerSpec RvServerRuns SiModel OwnerModel MfgModel MfgSpec MfgProofs ToyCrypto ToySession P_Voucher P_Kex P_RvServer P_Owner.
From Coq Require Import ZifyBool ZifyNat ZifyN.
Local Open Scope N_scope.

(** Vouchers in a directory, and in the manufacturer's table of a database. *)
Definition mf_dir c chk := dir_backend (voucher_codec c chk).
Definition mf_db c chk := db_backend (voucher_codec c chk) (fun v => match guid_text (hd_guid (ov_header v)) with Some k => k | None => [] end) Manufacturer.

(** * C32 *)
Section generic.
Context (c : crypto) (chk : bool) (ko : kex_ops) (kf : keyfns) (mkcert : bytes -> bytes -> str -> bytes -> bytes -> option bytes) (cf : mfconf) (A : aead) (idt : str -> option str).
Context (HO : outputs_ok c) (HS : sign_correct c) (HK : keyfns_ok c kf) (HC : certifies c mkcert) (HF : mfconf_ok c cf) (HA : opens_bytes A).
Context {W : Type} (be : backend voucher W) (keeps : W -> key -> voucher -> Prop) (okv : key -> voucher -> Prop).
Context (SL : store_laws be (voucher_codec c chk) keeps okv) (OK : forall k v, guid_text (hd_guid (ov_header v)) = Some k -> okv k v).

(** A voucher in the store was there at the start or came out of a session. *)
Theorem C32_stored : forall now w0 es y o, Forall (mf_event_ok keeps) es ->
  sys_run A idt (mf_server c chk ko kf mkcert cf be) (sys_init now w0) es = (y, o) ->
  forall k v, plain_key k -> keeps (y_world y) k v -> keeps w0 k v \/ issued_in_session c chk ko kf mkcert cf A be o k v.
Proof.
  intros now w0 es y o EA R. destruct (mf_principle c chk ko kf mkcert cf be keeps okv w0 A idt SL OK HO HS HK HC HF HA now es y o) as (H & _);
    [intros k v _ KP; left; exact KP|apply mf_events_ok; exact EA|exact R|exact H].
Qed.
(** And a device whose HMAC is answered has its voucher stored: the one that came out of its session. *)
Theorem C32_answered : forall now w0 es y o, Forall (mf_event_ok keeps) es ->
  sys_run A idt (mf_server c chk ko kf mkcert cf be) (sys_init now w0) es = (y, o) ->
  forall pre id s body m w e post w' d ks b, o = pre ++ Ran id DISetHMAC s body m w e :: post ->
  sv_handle (mf_server c chk ko kf mkcert cf be) DISetHMAC w s m e = (w', HReply d ks b) ->
  exists k v, b_store be w k v = (w', Ok tt) /\ issued_in_session c chk ko kf mkcert cf A be (pre ++ [Ran id DISetHMAC s body m w e]) k v.
Proof.
  intros now w0 es y o EA R pre id s body m w e post w' d ks b EQ H.
  destruct (mf_principle c chk ko kf mkcert cf be keeps okv w0 A idt SL OK HO HS HK HC HF HA now es y o) as (_ & HR & _);
    [intros k v _ KP; left; exact KP|apply mf_events_ok; exact EA|exact R|].
  destruct (HR _ _ _ _ _ _ _ _ _ EQ) as (_ & HD & _ & P & LB & RQ).
  eapply (mf_done c chk ko kf mkcert cf be okv A idt OK HO HS HC HF HA); eassumption.
Qed.

(** * C31 *)
(** Without plain DI: a voucher that is new comes from a session that provisioned a key; the certificate in it is for
    this key. *)
Theorem C31_stored : mf_di cf = false -> forall now w0 es y o, Forall (mf_event_ok keeps) es ->
  sys_run A idt (mf_server c chk ko kf mkcert cf be) (sys_init now w0) es = (y, o) ->
  forall k v, plain_key k -> keeps (y_world y) k v -> ~ keeps w0 k v ->
  exists pre id s body m w e post der key leaf rest, o = pre ++ Ran id DISetHMAC s body m w e :: post /\
    provisioned ko cf A pre id der /\ c_key_of_der c der = Some key /\ ov_chain v = Some (leaf :: rest) /\ c_cert_key c leaf = Some key.
Proof.
  intros DI now w0 es y o EA R k v PK KP NK. destruct (C32_stored now w0 es y o EA R k v PK KP) as [X|X]; [contradiction|].
  destruct X as (pre & id & s & body & pt & m & w & e & post & hm & hb & h & info & guid & leaf & key & EQ & _ & _ & HN & _ & _ & _ & _ & _ & OC & LK & _).
  destruct HN as (p1 & s1 & b1 & pt1 & m1 & w1 & e1 & post1 & der & sg & rest & E1 & _ & _ & _ & _ & [PV|[X _]] & KD & _); [|congruence].
  exists pre, id, s, body, m, w, e, post, der, key, leaf, (mf_ca cf). split; [exact EQ|]. split; [|auto].
  rewrite E1. apply provisioned_app. exact PV.
Qed.
(** No request of the DI protocol is answered, other than with an error, before a key was provisioned in the session. *)
Theorem C31_answers : mf_di cf = false -> forall now w0 es y o, Forall (mf_event_ok keeps) es ->
  sys_run A idt (mf_server c chk ko kf mkcert cf be) (sys_init now w0) es = (y, o) ->
  forall pre id im s body m w e post w' d ks b, o = pre ++ Ran id im s body m w e :: post -> im = DIAppStart \/ im = DISetHMAC ->
  sv_handle (mf_server c chk ko kf mkcert cf be) im w s m e = (w', HReply d ks b) -> exists der, provisioned ko cf A pre id der.
Proof.
  intros DI now w0 es y o EA R pre id im s body m w e post w' d ks b EQ IM H.
  destruct (mf_principle c chk ko kf mkcert cf be keeps okv w0 A idt SL OK HO HS HK HC HF HA now es y o) as (_ & HR & _);
    [intros k v _ KP; left; exact KP|apply mf_events_ok; exact EA|exact R|].
  destruct (HR _ _ _ _ _ _ _ _ _ EQ) as (_ & HD & _ & P & _).
  eapply (mf_no_plain c chk ko kf mkcert cf be A); eassumption.
Qed.
End generic.

(** The two stores. *)
Section stores.
Context (c : crypto) (chk : bool) (ko : kex_ops) (kf : keyfns) (mkcert : bytes -> bytes -> str -> bytes -> bytes -> option bytes) (cf : mfconf) (A : aead) (idt : str -> option str).
Context (HO : outputs_ok c) (HS : sign_correct c) (HK : keyfns_ok c kf) (HC : certifies c mkcert) (HF : mfconf_ok c cf) (HA : opens_bytes A).

Lemma db_ok k (v : voucher) : guid_text (hd_guid (ov_header v)) = Some k ->
  Manufacturer = Rendezvous \/ (match guid_text (hd_guid (ov_header v)) with Some k => k | None => [] end) = k.
Proof. intros ->. right. reflexivity. Qed.

Theorem C32_directory : forall now d0 es y o, Forall (mf_event_ok (dir_keeps (voucher_codec c chk))) es ->
  sys_run A idt (mf_server c chk ko kf mkcert cf (mf_dir c chk)) (sys_init now d0) es = (y, o) ->
  forall k v, plain_key k -> dir_keeps (voucher_codec c chk) (y_world y) k v ->
  dir_keeps (voucher_codec c chk) d0 k v \/ issued_in_session c chk ko kf mkcert cf A (mf_dir c chk) o k v.
Proof. eapply (C32_stored c chk ko kf mkcert cf A idt HO HS HK HC HF HA (mf_dir c chk)); [apply (dir_laws (voucher_codec c chk))|intros; exact Logic.I]. Qed.
Theorem C32_database : forall now t0 es y o, Forall (mf_event_ok (db_keeps (voucher_codec c chk))) es ->
  sys_run A idt (mf_server c chk ko kf mkcert cf (mf_db c chk)) (sys_init now t0) es = (y, o) ->
  forall k v, plain_key k -> db_keeps (voucher_codec c chk) (y_world y) k v ->
  db_keeps (voucher_codec c chk) t0 k v \/ issued_in_session c chk ko kf mkcert cf A (mf_db c chk) o k v.
Proof. eapply (C32_stored c chk ko kf mkcert cf A idt HO HS HK HC HF HA (mf_db c chk)); [apply (db_laws (voucher_codec c chk))|exact db_ok]. Qed.
Theorem C31_directory : mf_di cf = false -> forall now d0 es y o, Forall (mf_event_ok (dir_keeps (voucher_codec c chk))) es ->
  sys_run A idt (mf_server c chk ko kf mkcert cf (mf_dir c chk)) (sys_init now d0) es = (y, o) ->
  forall k v, plain_key k -> dir_keeps (voucher_codec c chk) (y_world y) k v -> ~ dir_keeps (voucher_codec c chk) d0 k v ->
  exists pre id s body m w e post der key leaf rest, o = pre ++ Ran id DISetHMAC s body m w e :: post /\
    provisioned ko cf A pre id der /\ c_key_of_der c der = Some key /\ ov_chain v = Some (leaf :: rest) /\ c_cert_key c leaf = Some key.
Proof. eapply (C31_stored c chk ko kf mkcert cf A idt HO HS HK HC HF HA (mf_dir c chk)); [apply (dir_laws (voucher_codec c chk))|intros; exact Logic.I]. Qed.
Theorem C31_database : mf_di cf = false -> forall now t0 es y o, Forall (mf_event_ok (db_keeps (voucher_codec c chk))) es ->
  sys_run A idt (mf_server c chk ko kf mkcert cf (mf_db c chk)) (sys_init now t0) es = (y, o) ->
  forall k v, plain_key k -> db_keeps (voucher_codec c chk) (y_world y) k v -> ~ db_keeps (voucher_codec c chk) t0 k v ->
  exists pre id s body m w e post der key leaf rest, o = pre ++ Ran id DISetHMAC s body m w e :: post /\
    provisioned ko cf A pre id der /\ c_key_of_der c der = Some key /\ ov_chain v = Some (leaf :: rest) /\ c_cert_key c leaf = Some key.
Proof. eapply (C31_stored c chk ko kf mkcert cf A idt HO HS HK HC HF HA (mf_db c chk)); [apply (db_laws (voucher_codec c chk))|exact db_ok]. Qed.
End stores.

(** ** The assumptions hold of the toy cryptography *)
Definition mk_toy (signer sk : bytes) (info : str) (key rnd : bytes) : option bytes :=
  match key, signer with [k], i :: _ => if (k <? 256) && (i <? 256) then Some [k; i] else None | _, _ => None end.
Lemma mk_toy_ok : certifies toy mk_toy.
Proof.
  intros signer sk info key rnd cert H. unfold mk_toy in H. destruct key as [|k [|? ?]]; try discriminate. destruct signer as [|i ?]; [discriminate|].
  destruct ((k <? 256) && (i <? 256)) eqn:E; [|discriminate]. inversion H; subst. cbn [toy c_cert_key c_cert_of_der].
  assert (k < 256 /\ i < 256) as [Hk Hi] by lia. destruct (N.ltb_spec k 256); [|lia]. split; [reflexivity|]. split; [reflexivity|].
  split; [repeat constructor; assumption|vm_compute; reflexivity].
Qed.
Lemma strip_in p l r : strip p l = Some r -> l = p ++ r.
Proof.
  revert l. induction p as [|a p IH]; cbn [strip]; [intros l H; inversion H; reflexivity|]. intros [|b l] H; [discriminate|].
  destruct (N.eqb_spec a b); [|discriminate]. subst. rewrite (IH _ H). reflexivity.
Qed.
Lemma toy_opens : opens_bytes toy_aead.
Proof.
  intros k body pt BB H. change (strip (224 :: k) body = Some pt) in H. apply strip_in in H. subst body. apply bytes_ok_app in BB. split; [apply BB|]. rewrite nlen_app. lia.
Qed.
(** The manufacturer [7]; devices' certificates are signed by [43]; vouchers are passed on to [8] *)
Definition dn_toy : diunconf := DiunConf 1 10 [0] [7] (ex_key 7).
Definition mcf (di diun owner : bool) : mfconf :=
  MfConf [7; 7] (if owner then Some ([7], ex_key 8) else None) [43] [[43; 43]] ex_rv di (if diun then Some dn_toy else None) true.
Lemma mcf_ok di diun owner : mfconf_ok toy (mcf di diun owner).
Proof.
  pose proof ex_header_ok as X. unfold header_args_ok in X. unfold mfconf_ok, mcf. cbn [mf_rv mf_ca mf_owner].
  split; [apply X|]. split; [vm_compute; reflexivity|]. split; [repeat constructor; vm_compute; try reflexivity; try discriminate|].
  split; [vm_compute; reflexivity|]. split; [vm_compute; reflexivity|]. destruct owner; [|exact Logic.I].
  split; [apply ex_key_valid; reflexivity|vm_compute; reflexivity].
Qed.

(** ** Runs *)
Definition info_toy : str := txt " pi ".
Definition mf_env : mfenv :=
  MfEnv t100 ex_guid (fun _ => Some kexO) [] [] None (fun i => Ok (if text_eqb i info_toy then Some [41] else None)) IoOk.
Definition connect_toy : bytes :=
  enc (VArr [bstr_val n5; text_val (txt "ECDH256"); VInt (cipher_num A128Gcm); vecu8_val (of_ok [] (get_public toy_kex kexD))]).
Definition appstart_toy : bytes := enc (VArr [VBytes (enc (text_val info_toy))]).
Definition hmac_toy : hash := Hash HmacSha384 (repeat 9 48).
Definition sethmac_toy : bytes := enc (VArr [hash_val hmac_toy]).
Definition mf_req (t : N) (auth : option str) (body : bytes) (id : str) : sevent dir mfenv := SReq (Req t true auth body mf_env id id [] true) NoFault.
Definition diun_events : list (sevent dir mfenv) :=
  [mf_req 210 None connect_toy [1]; mf_req 212 (Some [1]) (enc (VArr [VNull])) [2]; mf_req 214 (Some [1]) (sealed (enc (VArr [vecu8_val [42]; VInt 0]))) [3];
   mf_req 10 (Some [1]) (sealed appstart_toy) [4]; mf_req 12 (Some [1]) (sealed sethmac_toy) [5]].
Definition plain_events : list (sevent dir mfenv) := [mf_req 10 None appstart_toy [1]; mf_req 12 (Some [1]) sethmac_toy [2]].
Definition mf_run cf l := sys_run toy_aead toy_idt (mf_server toy true toy_kex kf_toy mk_toy cf (mf_dir toy true)) (sys_init 0 []) (sequential l).
Lemma mf_req_ok t auth body id : forallb (fun x => x <? 256) body = true -> Forall (mf_event_ok (dir_keeps (voucher_codec toy true))) (sequential [mf_req t auth body id]).
Proof.
  intros H. unfold sequential, mf_req. cbn [flat_map expand app one_request].
  constructor; [|constructor; [exact Logic.I|constructor; [exact Logic.I|constructor]]]. cbn. split; [apply bytes_okb; exact H|]. split; [apply bytes_okb; reflexivity|reflexivity].
Qed.
Lemma diun_events_ok : Forall (mf_event_ok (dir_keeps (voucher_codec toy true))) (sequential diun_events).
Proof. apply seq_forall. unfold diun_events. repeat (constructor; [apply mf_req_ok; vm_compute; reflexivity|]). constructor. Qed.
Lemma plain_events_ok : Forall (mf_event_ok (dir_keeps (voucher_codec toy true))) (sequential plain_events).
Proof. apply seq_forall. unfold plain_events. repeat (constructor; [apply mf_req_ok; vm_compute; reflexivity|]). constructor. Qed.
(** The vouchers in the directory: certificate chain, device information, owners named *)
Definition summary (d : dir) :=
  map (fun nf => match de (voucher_codec toy true) (f_data (snd nf)) with
       | Some v => Some (ov_chain v, hd_devinfo (ov_header v), match verify_entries toy true v with Ok l => Some (map (fun p => pk_key (p_key p)) l) | _ => None end)
       | None => None end) d.
(** The assumptions hold together; the provisioned key ends up in the voucher, which is extended to the owner; without
    an owner there is no entry; without DIUN nothing is stored, unless plain DI is on, when the key on file is used. *)
Example C31_case : Forall (mf_event_ok (dir_keeps (voucher_codec toy true))) (sequential diun_events) /\
  Forall (mf_event_ok (dir_keeps (voucher_codec toy true))) (sequential plain_events) /\
  outputs_ok toy /\ sign_correct toy /\ keyfns_ok toy kf_toy /\ certifies toy mk_toy /\ opens_bytes toy_aead /\ (forall di diun owner, mfconf_ok toy (mcf di diun owner)) /\
  kinds (sent (snd (mf_run (mcf false true true) diun_events))) = [211; 213; 215; 11; 13] /\
  map fst (y_world (fst (mf_run (mcf false true true) diun_events))) = [get_path key_toy] /\
  summary (y_world (fst (mf_run (mcf false true true) diun_events))) = [Some (Some [[42; 43]; [43; 43]], txt "pi", Some [[8]])] /\
  summary (y_world (fst (mf_run (mcf false true false) diun_events))) = [Some (Some [[42; 43]; [43; 43]], txt "pi", Some [])] /\
  kinds (sent (snd (mf_run (mcf false true true) plain_events))) = [1500; 1500] /\ y_world (fst (mf_run (mcf false true true) plain_events)) = [] /\
  kinds (sent (snd (mf_run (mcf true false true) plain_events))) = [11; 13] /\
  summary (y_world (fst (mf_run (mcf true false true) plain_events))) = [Some (Some [[41; 43]; [43; 43]], txt "pi", Some [[8]])] /\
  kinds (sent (snd (mf_run (mcf true false true) diun_events))) = [1500; 1500; 1500; 1100; 1500].
Proof.
  split; [exact diun_events_ok|]. split; [exact plain_events_ok|]. split; [exact toy_outputs_ok|]. split; [exact toy_sign_correct|]. split; [exact kf_toy_ok|].
  split; [exact mk_toy_ok|]. split; [exact toy_opens|]. split; [exact mcf_ok|].
  repeat (split; [vm_compute; reflexivity|]). vm_compute; reflexivity.
Qed.

Print Assumptions C32_stored.
Print Assumptions C32_answered.
Print Assumptions C31_stored.
Print Assumptions C31_answers.
Print Assumptions C32_directory.
Print Assumptions C32_database.
Print Assumptions C31_directory.
Print Assumptions C31_database.
