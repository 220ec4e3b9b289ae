(** * C80, C81: a device is initialised, and onboards with the owner its manufacturer named
    DI and DIUN on both sides (manufacturing-client/src/main.rs:109-480, manufacturing-server/src/handlers/di.rs and
    diun.rs), from the start of the device's program to its end; then C79 with what both sides have been left with. *)
From Verif Require Import Base BaseFacts CborModel CborProofs ValueModel ValueProofs Text Assoc Hex TypesModel CryptoSpec TypesProofs VoucherModel VoucherSpec VoucherProofs KexModel KexSpec RvModel StoreModel StoreSpec StoreProofs Backend
  MsgModel SessionModel SessionSpec HttpClientModel HttpClientSpec RvServerModel RvServerSpec SiModel DevSiModel SiSpec SiProofs2 SiApiModel SiApiSpec OwnerModel MfgModel MfgSpec ClientModel ClientSpec MfgClientModel MfgClientSpec MfgClientProofs
  OwnerSpec OnboardSpec OnboardProofs3 ServeSpec FindSpec FactorySpec FactoryProofs FactoryProofs2 P_Find.
From Verif Require P_Servers P_Mfg.
From Coq Require Import ZifyBool ZifyNat ZifyN.
Local Open Scope N_scope.
Local Opaque dec_top from_slice any_value.

(** [g]: the GUID that the server draws for the device, [k] its text; [pubs]: the public keys the server has on file;
    [present]: what credential the device finds, [su], [mi]: how it is set up, [info]: its identification. *)
Theorem C80_initialised : forall A idt c chk ko kf mkcert cf W (be : backend voucher W) free stored avail to_der wo newkey url surr at_ id g k pubs present su mi info,
  (* cryptography *)
  aead_roundtrip A -> seal_longer A -> P_Servers.seals_derived ko A -> outputs_ok c -> sign_correct c -> hmac_sizes c -> curve_laws ko -> kex_works ko -> keyfns_ok c kf -> certifies c mkcert ->
  (* the manufacturing server is behind the address and can make vouchers; what happens there otherwise does not concern the device *)
  reached A idt (mf_server c chk ko kf mkcert cf be) (mf_kdf_avail cf) wo url surr at_ ->
  (forall h, undisturbed A idt (mf_server c chk ko kf mkcert cf be) (fun _ _ => True) id (fun _ => True) (su_before (surr h))) ->
  (forall h, mf_ready ko idt g pubs (surr h)) -> (forall h, su_id (surr h) = id) -> y_pend (at_ []) = [] -> can_issue c kf cf ->
  (* its store can take the voucher *)
  shelf be (voucher_codec c chk) free stored -> guid_text g = Some k -> nonce_ok g ->
  (forall h, unsent h -> free (y_world (fst (sys_run A idt (mf_server c chk ko kf mkcert cf be) (at_ h) (sequential (su_before (surr h)))))) k) ->
  (* the device is new and set up for this server, and no request is larger than that takes *)
  will_initialise present -> set_up_for c to_der mkcert cf newkey pubs mi info su -> good_info info -> new_device ko wo ->
  fits (fst (mfg_main A c chk ko avail to_der wo newkey present su mi url)) ->
  exists h data dc v, mfg_main A c chk ko avail to_der wo newkey present su mi url = (h, Initialised) /\ factory_session url su data h /\
    (* the credential that the device has written *)
    from_slice as_cred data = Ok (trim info, dc) /\ dc_active dc = true /\ dc_version dc = V1_1 /\ dc_guid dc = g /\ dc_rv dc = mf_rv cf /\ keys_from newkey cf su (dc_keys dc) /\
    (* and the voucher that the server has stored for it *)
    its_voucher c chk dc v /\ issued c chk v /\ owned_as_configured c chk cf v /\ as_ordered c mkcert cf info dc v /\ stored (y_world (at_ h)) k v.
Proof.
  intros A idt c chk ko kf mkcert cf W be free stored avail to_der wo newkey url surr at_ id g k pubs present su mi info AR SLG SDV HO HS HZ CL KW HK HC SD QU MR IDS PE CI SH GT GOK FREE WI SU GI ND FT.
  exact (factory_ok A AR SLG idt c HO HS HZ chk ko CL KW SDV kf HK mkcert HC cf CI be free stored SH avail to_der wo newkey url surr at_ SD id QU g k pubs MR GT GOK FREE ND present su mi info IDS PE WI SU GI FT).
Qed.

(** Both stores are such. *)
Theorem C80_directory : forall c chk, shelf (P_Mfg.mf_dir c chk) (voucher_codec c chk) dir_free (fun d k v => dir_holds (voucher_codec c chk) k v d).
Proof. intros c chk. apply dir_shelf. Qed.
Theorem C80_database : forall c chk, shelf (P_Mfg.mf_db c chk) (voucher_codec c chk) db_free (fun t k v => db_holds (voucher_codec c chk) k v t).
Proof. intros c chk. apply db_shelf. intros v k ->. reflexivity. Qed.

(** * C81 *)
(** The owner named in the manufacturer's configuration owns the device, as the owner's server and the device see it. *)
Lemma named_owner c chk cf ocf sk owner v to1d : mf_owner cf = Some (sk, owner) -> issued c chk v -> owned_as_configured c chk cf v -> pk_key owner = c_pub c (oc_sk ocf) ->
  signed_by c (c_pub c (oc_sk ocf)) to1d -> c_alg c (c_pub c (oc_sk ocf)) <> None /\ c_alg c (c_pub c (oc_sk2 ocf)) <> None -> writable c (oc_pub ocf) /\ writable c (oc_pub2 ocf) -> its_owner c chk ocf v to1d.
Proof.
  intros MO IS OW PK SG AL WR. unfold owned_as_configured in OW. rewrite MO in OW. destruct OW as (NE & p & VE & PO). constructor; auto.
  - unfold bytes in *. rewrite NE. lia.
  - exists [p]. split; [exact VE|]. unfold owner_after. cbn [map last]. rewrite PO. exact PK.
Qed.
(** After a run as in C80, at a manufacturer who gives its vouchers to [owner]: wherever the credential is then the device's, the
    voucher is in the store of that owner's server, and the owner's redirect is registered for the device's key, the device
    onboards. *)
Theorem C81_delivered : forall A idt c chk ko kf mkcert cf W (be : backend voucher W) free stored avail to_der wo newkey url surr at_ id g k pubs present su mi info sk owner,
  aead_roundtrip A -> seal_longer A -> P_Servers.seals_derived ko A -> outputs_ok c -> sign_correct c -> hmac_sizes c -> hash_sizes c -> curve_laws ko -> kex_works ko -> keyfns_ok c kf -> certifies c mkcert ->
  (* as in C80 *)
  reached A idt (mf_server c chk ko kf mkcert cf be) (mf_kdf_avail cf) wo url surr at_ ->
  (forall h, undisturbed A idt (mf_server c chk ko kf mkcert cf be) (fun _ _ => True) id (fun _ => True) (su_before (surr h))) ->
  (forall h, mf_ready ko idt g pubs (surr h)) -> (forall h, su_id (surr h) = id) -> y_pend (at_ []) = [] -> can_issue c kf cf ->
  shelf be (voucher_codec c chk) free stored -> guid_text g = Some k -> nonce_ok g ->
  (forall h, unsent h -> free (y_world (fst (sys_run A idt (mf_server c chk ko kf mkcert cf be) (at_ h) (sequential (su_before (surr h)))))) k) ->
  will_initialise present -> set_up_for c to_der mkcert cf newkey pubs mi info su -> good_info info -> new_device ko wo ->
  fits (fst (mfg_main A c chk ko avail to_der wo newkey present su mi url)) ->
  mf_owner cf = Some (sk, owner) ->
  exists h data dc v, mfg_main A c chk ko avail to_der wo newkey present su mi url = (h, Initialised) /\ factory_session url su data h /\
    from_slice as_cred data = Ok (trim info, dc) /\ stored (y_world (at_ h)) k v /\
    forall oidt ridt okf rcf ocf WR WO (rbe : backend item WR) (obe : backend voucher WO) marked owo allow prefix show_ip n
      rurl rav rsurr rat rid it until rholds ourl osurr oat oid oholds d tok auth conf sc pd pres x posts pre post opre opost pl,
    (* the rendezvous server, and the device's registration there *)
    reached A ridt (rv_server c chk okf rcf rbe) rav owo rurl rsurr rat ->
    (forall h, undisturbed A ridt (rv_server c chk okf rcf rbe) (of_others c chk k until) rid rholds (su_before (rsurr h))) ->
    (forall h, rv_ready ridt until (rsurr h)) -> (forall h, su_id (rsurr h) = rid) ->
    finder rbe k it until rholds -> rholds (y_world (rat [])) -> y_pend (rat []) = [] -> pk_key (si_key it) = c_pub c (ks_sk (dc_keys dc)) -> sends chk (si_to1d it) ->
    (* the server of the owner the manufacturer named *)
    pk_key owner = c_pub c (oc_sk ocf) -> signed_by c (c_pub c (oc_sk ocf)) (si_to1d it) ->
    c_alg c (c_pub c (oc_sk ocf)) <> None /\ c_alg c (c_pub c (oc_sk2 ocf)) <> None -> writable c (oc_pub ocf) /\ writable c (oc_pub2 ocf) ->
    served A oidt (ow_server c chk ko ocf obe) (oc_kdf_avail ocf) owo ourl osurr oat ->
    (forall h, quiet oidt oid oholds (an_before (osurr h))) -> (forall h, owner_ready ko oidt (osurr h)) -> (forall h, an_id (osurr h) = oid) ->
    keeper obe k v oholds -> mark_laws obe marked -> oholds (y_world (oat [])) -> y_pend (oat []) = [] ->
    info_auth tok auth = true -> from_settings c conf = Some sc -> (forall h mods, an_api (osurr h) k mods = ask_api tok auth sc pd g mods) ->
    let user := match pd g with Some u => u | None => st_user conf end in
    config_fine conf -> (forall u, user = Some u -> user_fine u) ->
    (forall mods l, list_of_reply (make_reply sc (pd g) mods) = Some l -> nlen (enc (silist_val l)) < 2 ^ 64) ->
    (* the device's directives, which are the manufacturer's, lead to the rendezvous server, and the registration to the owner *)
    avail || allow = true -> dd_marker d = false -> dd_cred d = Cred dc ->
    to_interpreted (mf_rv cf) Device = Ok (pres ++ x :: posts) -> Forall (fun y => forall us, get_client_list show_ip y = Some us -> Forall (dead owo) us) pres ->
    get_client_list show_ip x = Some (pre ++ rurl :: post) -> Forall (dead owo) pre -> ~ dead owo rurl ->
    cose_get_payload_unverified (from_slice as_to1payload) (si_to1d it) = Ok pl -> get_to2_urls show_ip (t1_addrs pl) = opre ++ ourl :: opost -> Forall (dead owo) opre -> ~ dead owo ourl -> ourl <> rurl ->
    device_ready ko owo -> fits (fst (main A c chk ko avail show_ip prefix owo allow d (S n))) ->
    exists h l1 w30 w32 l2 l es, main A c chk ko avail show_ip prefix owo allow d (S n) = (h, Onboarded (match st_reboot conf with Some b => b | None => false end)) /\
      h = l1 ++ TWire rurl w30 :: TWire rurl w32 :: l2 ++ l /\ Forall (to_dead owo) l1 /\ wr_type w30 = 30 /\ wr_type w32 = 32 /\ Forall (to_dead owo) l2 /\
      session_of ourl 1 es (dd_method d) l /\ configured prefix conf user (offered owo) es /\ marked (y_world (oat h)) k.
Proof.
  intros A idt c chk ko kf mkcert cf W be free stored avail to_der wo newkey url surr at_ id g k pubs present su mi info sk owner AR SLG SDV HO HS HZ HSZ CL KW HK HC SD QU MR IDS PE CI SH GT GOK FREE WI SU GI ND FT MO.
  destruct (C80_initialised A idt c chk ko kf mkcert cf W be free stored avail to_der wo newkey url surr at_ id g k pubs present su mi info AR SLG SDV HO HS HZ CL KW HK HC SD QU MR IDS PE CI SH GT GOK FREE WI SU GI ND FT)
    as (h & data & dc & v & E & FS & CR & AC & VE & DG & RV & KF & IV & IS & OW & AO & ST).
  exists h, data, dc, v. do 4 (split; [assumption|]).
  intros oidt ridt okf rcf ocf WR WO rbe obe marked owo allow prefix show_ip n rurl rav rsurr rat rid it until rholds ourl osurr oat oid oholds d tok auth conf sc pd pres x posts pre post opre opost pl
    RSD RQU RRY RID FI RHW RHP PK SND OPK SG AL WR' OSD OQU OR OID KP ML OHW OHP AUTH FST API user CF UF SZ AV MK DC TI DPS GC DP NDR GP GU DO NDO NE DR FT2.
  assert (ONE : nlen (entries_raw v) = 1) by (unfold owned_as_configured in OW; rewrite MO in OW; apply OW). rewrite <- ONE.
  pose proof (named_owner c chk cf ocf sk owner v (si_to1d it) MO IS OW OPK SG AL WR') as IO.
  subst user. clear CI IDS PE QU SD MR FREE. subst g. rewrite <- RV in TI. clear RV.
  assert (ITS : its_record c dc it) by (split; [exact GOK|]; split; [exact PK|exact (iv_alg _ _ _ _ IV)]).
  eapply (C79_onboards A oidt ridt c chk ko okf rcf ocf WR WO rbe obe marked owo avail allow prefix show_ip n rurl rav rsurr rat rid it until rholds ourl osurr oat oid k v oholds dc d tok auth conf sc pd pres x posts pre post opre opost pl); eauto.
Qed.

(** ** A case: a device with DIUN and one without it, at a manufacturer that keeps a directory or a table *)
From Verif Require Import RvServerRuns To0Model ToyCrypto ToySession P_Voucher P_Rv P_Kex P_RvServer P_Si P_SiApi OwnerProofs P_Owner P_To0 ClientToy P_Honest P_Mfg P_MfgClient MfgModel OnboardSpec P_Onboard.

(** Only SetHMAC changes what the server keeps. *)
Lemma others_keep A idt c chk ko kf mkcert cf W (be : backend voucher W) now w st rq : rq_type rq <> 12 ->
  let y := fst (sys_run A idt (mf_server c chk ko kf mkcert cf be) (Sys now w st []) (one_request rq NoFault)) in y_world y = w /\ y_pend y = [].
Proof.
  intros T. set (sv := mf_server c chk ko kf mkcert cf be).
  assert (AK : forall w' st' p os, arrive A idt sv now w st rq = (w', st', p, os) -> w' = w /\ match p with Some p => pd_stored p = false | None => True end).
  { intros w' st' p os. unfold arrive. destruct (route sv (rq_type rq)) as [[im om]|] eqn:R; [|intros X; inversion X; auto].
    destruct (_ || _); [intros X; inversion X; auto|]. destruct (find_session idt sv now st rq) as [st1 [[[i tok] s]|]]; [|intros X; inversion X; auto].
    destruct (parse_request A sv im s (rq_body rq)) as [m|r] eqn:PM; [|intros X; inversion X; auto].
    assert (KH : fst (sv_handle sv im w s m (rq_env rq)) = w).
    { unfold parse_request in PM. destruct (negb _); [discriminate|]. destruct (enc_violated _ _); [discriminate|]. destruct (ek_decrypt _ _ _) as [pt| |]; try discriminate.
      assert (PP : mf_parse im pt = Ok m) by (change (sv_parse sv im pt) with (mf_parse im pt) in PM; destruct (mf_parse im pt); congruence). clear PM.
      change (sv_handle sv im w s m (rq_env rq)) with (mf_handle c chk ko kf mkcert cf be im w s m (rq_env rq)).
      destruct m as [i0|h|m|t|k0 sg]; cbn [mf_handle].
      - unfold h_appstart. destruct (di_refused _ _); [reflexivity|]. destruct (let! _ := _ in _) as [[? ?]| |]; reflexivity.
      - exfalso. apply T. unfold route in R. apply find_some in R. destruct R as [RI RE]. cbn [fst] in RE. apply N.eqb_eq in RE.
        rewrite <- RE. unfold mf_parse in PP; destruct im; cbn [map_err] in PP; try discriminate; try (match type of PP with context [from_slice ?r ?b] => destruct (from_slice r b) as [?| |] end; discriminate). reflexivity.
      - unfold h_connect. destruct (mf_diun cf); [|reflexivity]. destruct (connect_reply _ _ _ _ _ _ _) as [[? ?]| |]; reflexivity.
      - unfold h_requestparams. destruct (mf_diun cf); [|reflexivity]. destruct (md_keys _); reflexivity.
      - unfold h_providekey. destruct (mf_diun cf); reflexivity. }
    destruct (sv_handle sv im w s m (rq_env rq)) as [w1 [?|?|]]; cbn [fst] in KH; intros X; inversion X; subst; auto. }
  cbv zeta. unfold one_request. cbn [sys_run sys_step]. destruct (arrive A idt sv now w st rq) as [[[w' st'] p] os] eqn:E. destruct (AK _ _ _ _ eq_refl) as [-> PS].
  destruct p as [p|]; cbn [app sys_run sys_step nth_error]; [|split; reflexivity]. rewrite PS. cbn [replace_nth nth_error pd_stored negb remove_nth fst snd]. split; reflexivity.
Qed.

Section toy_factory.
Context {W : Type} (be : backend voucher W) (free : W -> str -> Prop) (stored : W -> str -> voucher -> Prop) (SH : shelf be (voucher_codec toy true) free stored)
  (w0 : W) (FR : free w0 key_toy) (plain : bool).
Definition fa_conf : mfconf := MfConf [9; 9] (Some ([9], ex_key 7)) [43] [[43; 43]] [ex_d1] plain (if plain then None else Some dn_cl) true.
Definition fa_pubs (i : str) : outcome unit (option bytes) := Ok (Some [42]).
Definition fa_surr (h : list devent) : surround W mfenv :=
  Surround [STick (5 * SES_SEC); SMaint] (fun w => MfEnv t100 ex_guid (fun _ => Some kex384) [] [] (if wr_kdf w then Some (txt "true") else None) fa_pubs IoOk) [5] [5] [].
Definition fa_server := mf_server toy true toy_kex kf_toy mk_toy fa_conf be.
Definition fa_step (y : sys (W:=W) (D:=mfdata)) (w : HttpClientModel.wire) :=
  sys_run toy_aead toy_idt fa_server (fst (sys_run toy_aead toy_idt fa_server y (sequential (su_before (fa_surr []))))) (one_request (su_request (fa_surr []) w) NoFault).
Fixpoint fa_back (r : list devent) : sys (W:=W) (D:=mfdata) :=
  match r with
  | [] => sys_init t100 w0
  | TWire u w :: r => if bytes_eqb u mcl_url then fst (fa_step (fa_back r) w) else fa_back r
  | _ :: r => fa_back r
  end.
Definition fa_at (h : list devent) := fa_back (rev h).
Definition fa_resp (h : list devent) : option hresponse :=
  match rev h with TWire u w :: r => if bytes_eqb u mcl_url then to_hresponse true (last (replies_of (snd (fa_step (fa_back r) w))) Dropped) [] else None | _ => None end.
Definition fa_world : world := World fa_resp (fun _ => Fine) (fun _ => true) (fun h n => repeat (N.of_nat (length h) mod 256) 16) (fun h s => Some (Ecdh s [3; 4] (repeat 7 48))) None [] [].
Definition fa_setup : setup := if plain then mcl_plain else WithDiun (VHash mcl_root).
Definition fa_main := mfg_main toy_aead toy true toy_kex true mcl_der fa_world mcl_newkey NoCred fa_setup mcl_info mcl_url.

Lemma fa_reached : reached toy_aead toy_idt fa_server true fa_world mcl_url fa_surr fa_at.
Proof.
  constructor.
  - intros h w. unfold fa_at. rewrite rev_unit. cbn [fa_back]. rewrite bytes_eqb_refl. split; [reflexivity|]. cbn [wo_resp fa_world]. unfold fa_resp. rewrite rev_unit, bytes_eqb_refl. reflexivity.
  - intros h e N. unfold fa_at. rewrite rev_unit. cbn [fa_back]. destruct e as [u w| | | | |]; try reflexivity. destruct (bytes_eqb u mcl_url) eqn:E; [|reflexivity].
    apply bytes_eqb_spec in E. subst u. exfalso. exact (N w eq_refl).
Qed.
Lemma fa_undisturbed holds h : undisturbed toy_aead toy_idt fa_server (fun _ _ => True) [5] holds (su_before (fa_surr h)).
Proof. split; [vm_compute; discriminate|]. repeat constructor. Qed.
Lemma fa_ready h : mf_ready toy_kex toy_idt ex_guid fa_pubs (fa_surr h).
Proof.
  constructor; cbn [fa_surr su_env su_token su_id].
  - exists t100, (fun _ => Some kex384), [], []. split; [apply ob_kex_ok; reflexivity|]. intros w. reflexivity.
  - split; [|reflexivity]. intros [H|[]]. discriminate.
Qed.
Lemma fa_before (y : sys (W:=W) (D:=mfdata)) : let y' := fst (sys_run toy_aead toy_idt fa_server y (sequential (su_before (fa_surr [])))) in y_world y' = y_world y /\ y_pend y' = y_pend y.
Proof. destruct y. split; reflexivity. Qed.
Lemma fa_kept h : unsent h -> y_world (fa_at h) = w0 /\ y_pend (fa_at h) = [].
Proof.
  induction h as [|e h IH] using rev_ind; intros U; [split; reflexivity|]. specialize (IH (fun u w H => U u w (in_or_app _ _ _ (or_introl H)))).
  unfold fa_at in *. rewrite rev_unit. cbn [fa_back]. destruct e as [u w| | | | |]; try exact IH. destruct (bytes_eqb u mcl_url); [|exact IH].
  unfold fa_step. destruct (fa_before (fa_back (rev h))) as [B1 B2]. destruct (fst (sys_run _ _ _ (fa_back (rev h)) _)) as [now w' st ps]. cbn [y_world y_pend] in B1, B2.
  destruct IH as [I1 I2]. rewrite I1 in B1. rewrite I2 in B2. subst w' ps. apply others_keep. cbn [su_request rq_type]. apply (U u w). apply in_or_app. right. left. reflexivity.
Qed.
Lemma fa_free h : unsent h -> free (y_world (fst (sys_run toy_aead toy_idt fa_server (fa_at h) (sequential (su_before (fa_surr h)))))) key_toy.
Proof using FR. intros U. change (su_before (fa_surr h)) with (su_before (fa_surr [])). destruct (fa_before (fa_at h)) as [-> _]. destruct (fa_kept h U) as [-> _]. exact FR. Qed.
Lemma fa_issues : can_issue toy kf_toy fa_conf.
Proof.
  constructor.
  - unfold mfconf_ok, fa_conf. cbn [mf_rv mf_ca mf_owner].
    split; [repeat constructor; vm_compute; try reflexivity; try discriminate; auto|]. split; [vm_compute; reflexivity|]. split; [repeat constructor; vm_compute; try reflexivity; try discriminate|].
    split; [vm_compute; reflexivity|]. split; [vm_compute; reflexivity|]. split; [apply ex_key_valid; reflexivity|vm_compute; reflexivity].
  - vm_compute. reflexivity.
  - discriminate.
  - exists [9], 10. split; [reflexivity|]. split; [reflexivity|]. split; [reflexivity|discriminate].
Qed.
Lemma fa_good_key info : good_key toy mk_toy fa_conf info cl_secret [42].
Proof.
  constructor.
  - split; (split; [apply bytes_okb; vm_compute; reflexivity|vm_compute; reflexivity]).
  - discriminate.
  - intros signer rest rnd E. inversion E; subst. vm_compute. discriminate.
Qed.
Lemma fa_trust : good_diun toy (VHash mcl_root) dn_cl.
Proof.
  constructor.
  - exists dn_chain, [7; 6]. split; [reflexivity|]. split; [|split; [reflexivity|]].
    + apply verify_chain_trusted. vm_compute. reflexivity.
    + intros x H. repeat (destruct H as [<-|H]; [vm_compute; reflexivity|]). destruct H.
  - discriminate.
  - split; [|vm_compute; reflexivity]. split; [reflexivity|]. split; [reflexivity|]. split; [apply bytes_okb; vm_compute; reflexivity|vm_compute; reflexivity].
  - left. reflexivity.
  - split; [repeat constructor; lia|reflexivity].
  - vm_compute. discriminate.
Qed.
Lemma fa_set_up : exists info, set_up_for toy mcl_der mk_toy fa_conf mcl_newkey fa_pubs mcl_info info fa_setup /\ good_info info.
Proof.
  unfold fa_setup. destruct plain eqn:PL.
  - exists (txt "serial"). split.
    + eapply for_plain with (der := [42]); [unfold fa_conf; cbn [mf_di]; exact PL|vm_compute; reflexivity|reflexivity|reflexivity|apply fa_good_key].
    + split; [vm_compute; reflexivity|]. split; [vm_compute; discriminate|]. repeat constructor; vm_compute; try discriminate; reflexivity.
  - exists (txt "52:54:00:12:34:56"). split.
    + apply for_diun with (dn := dn_cl); [unfold fa_conf; cbn [mf_diun]; rewrite PL; reflexivity|exact fa_trust|vm_compute; reflexivity| |].
      * exists 0. split; [right; left; reflexivity|]. intros h. discriminate.
      * intros h stg secret sk E. unfold mcl_newkey in E. destruct (stg =? 0); inversion E; subst. split; [apply fa_good_key|]. split; [apply mcl_der_ok|reflexivity].
    + split; [vm_compute; reflexivity|]. split; [vm_compute; discriminate|]. repeat constructor; vm_compute; try discriminate; reflexivity.
Qed.
Lemma fa_new : new_device toy_kex fa_world.
Proof.
  constructor; cbn [fa_world wo_rand wo_kex wo_fx].
  - intros h. split; [|reflexivity]. apply Forall_forall. intros x H. apply repeat_spec in H. subst x. pose proof (N.mod_upper_bound (N.of_nat (length h)) 256). lia.
  - intros h. apply ob_kex_ok; reflexivity.
  - reflexivity.
Qed.
Lemma fa_guid : guid_text ex_guid = Some key_toy. Proof. vm_compute. reflexivity. Qed.
Lemma fa_guid_ok : nonce_ok ex_guid. Proof. apply b16; reflexivity. Qed.
Lemma fa_hmac : hmac_sizes toy. Proof. intros t s d [->| ->]; (split; [apply toy_hmac_bytes|reflexivity]). Qed.
Lemma fa_case : fits (fst fa_main) -> exists info h data dc v, fa_main = (h, Initialised) /\ factory_session mcl_url fa_setup data h /\
  from_slice as_cred data = Ok (trim info, dc) /\ dc_active dc = true /\ dc_version dc = V1_1 /\ dc_guid dc = ex_guid /\ dc_rv dc = [ex_d1] /\ keys_from mcl_newkey fa_conf fa_setup (dc_keys dc) /\
  its_voucher toy true dc v /\ issued toy true v /\ owned_as_configured toy true fa_conf v /\ as_ordered toy mk_toy fa_conf info dc v /\ stored (y_world (fa_at h)) key_toy v.
Proof using SH FR.
  intros FT. destruct fa_set_up as (info & SU & GI). exists info.
  exact (C80_initialised toy_aead toy_idt toy true toy_kex kf_toy mk_toy fa_conf W be free stored true mcl_der fa_world mcl_newkey mcl_url fa_surr fa_at [5] ex_guid key_toy fa_pubs NoCred fa_setup mcl_info info
    toy_roundtrip ob_seals (P_Servers.toy_seals_derived toy_kex) toy_outputs_ok toy_sign_correct fa_hmac toy_curve_laws ob_kex_works kf_toy_ok mk_toy_ok
    fa_reached (fun h => fa_undisturbed _ h) fa_ready (fun h => eq_refl) eq_refl fa_issues SH fa_guid fa_guid_ok fa_free (or_introl eq_refl) SU GI fa_new FT).
Qed.
End toy_factory.
Lemma fa_fits_dir plain : fits (fst (fa_main (mf_dir toy true) [] plain)).
Proof. apply ob_fits_b. destruct plain; vm_compute; reflexivity. Qed.
Lemma fa_fits_db plain : fits (fst (fa_main (mf_db toy true) [] plain)).
Proof. apply ob_fits_b. destruct plain; vm_compute; reflexivity. Qed.
Example C80_case_directory : forall plain, exists info h data dc v, fa_main (mf_dir toy true) [] plain = (h, Initialised) /\ factory_session mcl_url (fa_setup plain) data h /\
  from_slice as_cred data = Ok (trim info, dc) /\ dc_active dc = true /\ dc_version dc = V1_1 /\ dc_guid dc = ex_guid /\ dc_rv dc = [ex_d1] /\ keys_from mcl_newkey (fa_conf plain) (fa_setup plain) (dc_keys dc) /\
  its_voucher toy true dc v /\ issued toy true v /\ owned_as_configured toy true (fa_conf plain) v /\ as_ordered toy mk_toy (fa_conf plain) info dc v /\ dir_holds (voucher_codec toy true) key_toy v (y_world (fa_at (mf_dir toy true) [] plain h)).
Proof. intros plain. exact (fa_case (mf_dir toy true) dir_free _ (C80_directory toy true) [] eq_refl plain (fa_fits_dir plain)). Qed.
Example C80_case_database : forall plain, exists info h data dc v, fa_main (mf_db toy true) [] plain = (h, Initialised) /\ factory_session mcl_url (fa_setup plain) data h /\
  from_slice as_cred data = Ok (trim info, dc) /\ dc_active dc = true /\ dc_version dc = V1_1 /\ dc_guid dc = ex_guid /\ dc_rv dc = [ex_d1] /\ keys_from mcl_newkey (fa_conf plain) (fa_setup plain) (dc_keys dc) /\
  its_voucher toy true dc v /\ issued toy true v /\ owned_as_configured toy true (fa_conf plain) v /\ as_ordered toy mk_toy (fa_conf plain) info dc v /\ db_holds (voucher_codec toy true) key_toy v (y_world (fa_at (mf_db toy true) [] plain h)).
Proof. intros plain. exact (fa_case (mf_db toy true) db_free _ (C80_database toy true) [] eq_refl plain (fa_fits_db plain)). Qed.

(** The device made with DIUN, with the rendezvous server and the owner of P_Find.v; the owner was given the manufacturer's directory. *)
Definition fa_run := fa_main (mf_dir toy true) [] false.
Definition fa_dir : dir := y_world (fa_at (mf_dir toy true) [] false (fst fa_run)).
Definition fa_data : bytes := match nth_error (rev (fst fa_run)) 1 with Some (TFx (EWrite _ data _)) => data | _ => [] end.
Definition fa_dc : devcred := match from_slice as_cred fa_data with Ok (_, dc) => dc | _ => cl_cred end.
Fixpoint fo_back (r : list devent) : sys (W:=dir) (D:=owdata) :=
  match r with
  | [] => sys_init t1000 fa_dir
  | TWire u w :: r => if bytes_eqb u ob_url then fst (ob_step (fo_back r) w) else fo_back r
  | _ :: r => fo_back r
  end.
Definition fo_at (h : list devent) := fo_back (rev h).
Definition fo_resp (h : list devent) : option hresponse :=
  match rev h with
  | TWire u w :: r => if bytes_eqb u ob_url then to_hresponse true (last (responses (snd (ob_step (fo_back r) w))) Dropped) []
                      else if bytes_eqb u fd_rurl then to_hresponse true (last (replies_of (snd (fd_step (fd_back r) w))) Dropped) [] else None
  | _ => None
  end.
Definition fo_world : world := World fo_resp (wo_fx ob_world) (wo_io ob_world) (wo_rand ob_world) (wo_kex ob_world) (wo_release ob_world) (wo_arch ob_world) (wo_mods ob_world).
Definition fo_disk (dc : devcred) : devdisk := DevDisk false (Cred dc) DeactivateIt.
Definition fo_main (dc : devcred) := main toy_aead toy true toy_kex true to_sh None fo_world false (fo_disk dc) 1.
Lemma fo_reached : reached toy_aead toy_idt fd_server true fo_world fd_rurl fd_surr fd_at.
Proof.
  constructor.
  - intros h w. split; [apply (rc_wire _ _ _ _ _ _ _ _ fd_reached)|]. cbn [wo_resp fo_world]. unfold fo_resp. rewrite rev_unit, bytes_eqb_refl. reflexivity.
  - apply (rc_rest _ _ _ _ _ _ _ _ fd_reached).
Qed.
Lemma fo_served : served toy_aead toy_idt ob_server (oc_kdf_avail ocf) fo_world ob_url ob_around fo_at.
Proof.
  constructor.
  - intros h w. unfold fo_at. rewrite rev_unit. cbn [fo_back]. rewrite bytes_eqb_refl. split; [reflexivity|]. cbn [wo_resp fo_world]. unfold fo_resp. rewrite rev_unit, bytes_eqb_refl. reflexivity.
  - intros h e N. unfold fo_at. rewrite rev_unit. cbn [fo_back]. destruct e as [u w| | | | |]; try reflexivity. destruct (bytes_eqb u ob_url) eqn:E; [|reflexivity].
    apply bytes_eqb_spec in E. subst u. exfalso. exact (N w eq_refl).
Qed.
Lemma fo_device_ready : device_ready toy_kex fo_world.
Proof. destruct ob_device_ready. constructor; assumption. Qed.
Lemma fo_dead1 : dead fo_world (txt "http://rv1:80").
Proof. intros h w. cbn [wo_resp fo_world]. unfold fo_resp. rewrite rev_unit. reflexivity. Qed.
Lemma fo_dead2 : dead fo_world (txt "http://gone:8043").
Proof. intros h w. cbn [wo_resp fo_world]. unfold fo_resp. rewrite rev_unit. reflexivity. Qed.
Lemma fo_alive1 : ~ dead fo_world fd_rurl.
Proof. intros D. specialize (D [] (Wire 30 None false [])). vm_compute in D. discriminate. Qed.
Lemma fo_alive2 : ~ dead fo_world ob_url.
Proof. intros D. specialize (D [] (Wire 60 None false [])). vm_compute in D. discriminate. Qed.
Lemma fo_fits : fits (fst (fo_main fa_dc)). Proof. apply ob_fits_b. vm_compute. reflexivity. Qed.
Lemma fo_key : pk_key (si_key fd_item) = c_pub toy (ks_sk (dc_keys fa_dc)). Proof. vm_compute. reflexivity. Qed.
Lemma fo_at_start v : dir_holds (voucher_codec toy true) key_toy v fa_dir -> dir_holds (voucher_codec toy true) key_toy v (y_world (fo_at [])).
Proof. exact (fun H => H). Qed.
Lemma fo_alg : c_alg toy (c_pub toy (oc_sk ocf)) <> None /\ c_alg toy (c_pub toy (oc_sk2 ocf)) <> None. Proof. split; discriminate. Qed.
Lemma fo_writable : writable toy (oc_pub ocf) /\ writable toy (oc_pub2 ocf). Proof. split; (split; [apply ex_key_valid; lia|vm_compute; reflexivity]). Qed.
Lemma fa_data_is h data url : fst fa_run = h -> factory_session url (fa_setup false) data h -> fa_data = data.
Proof. intros <- (pre & e10 & e12 & L & _). unfold fa_data. rewrite L, rev_app_distr. reflexivity. Qed.
Example C81_case : exists h l1 w30 w32 l2 l es, fo_main fa_dc = (h, Onboarded true) /\
  h = l1 ++ TWire fd_rurl w30 :: TWire fd_rurl w32 :: l2 ++ l /\ Forall (to_dead fo_world) l1 /\ wr_type w30 = 30 /\ wr_type w32 = 32 /\ Forall (to_dead fo_world) l2 /\
  session_of ob_url 1 es DeactivateIt l /\ configured None full_conf (st_user full_conf) [DevMod; SSHKey; BinaryFile; Command; Reboot; DiskEncryption] es /\ dir_marked (y_world (fo_at h)) key_toy.
Proof.
  destruct (fa_set_up false) as (info & SU & GI).
  destruct (C81_delivered toy_aead toy_idt toy true toy_kex kf_toy mk_toy (fa_conf false) dir (mf_dir toy true) dir_free (fun d k v => dir_holds (voucher_codec toy true) k v d) true mcl_der (fa_world (mf_dir toy true) [] false) mcl_newkey mcl_url
    fa_surr (fa_at (mf_dir toy true) [] false) [5] ex_guid key_toy fa_pubs NoCred (fa_setup false) mcl_info info [9] (ex_key 7)
    toy_roundtrip ob_seals (P_Servers.toy_seals_derived toy_kex) toy_outputs_ok toy_sign_correct fa_hmac toy_sizes toy_curve_laws ob_kex_works kf_toy_ok mk_toy_ok
    (fa_reached _ _ _) (fun h => fa_undisturbed _ _ _ h) fa_ready (fun h => eq_refl) eq_refl (fa_issues false) (C80_directory toy true) fa_guid fa_guid_ok (fa_free _ dir_free [] eq_refl false) (or_introl eq_refl) SU GI (fa_new _ _ _) (fa_fits_dir false) eq_refl)
    as (h & data & dc & v & E & FS & CR & ST & ON).
  change (fa_run = (h, Initialised)) in E. assert (H : fst fa_run = h) by (rewrite E; reflexivity).
  pose proof (fa_data_is h data mcl_url H FS) as DA.
  assert (DC : dc = fa_dc) by (unfold fa_dc; rewrite DA, CR; reflexivity). clear E FS CR DA. rewrite DC in ON. clear DC.
  rewrite <- H in ST. clear H. destruct fd_payload as (pl & P1 & P2).
  exact (ON toy_idt toy_idt kf_toy cf_toy ocf dir dir (rv_dir toy true) (ow_dir toy true) dir_marked fo_world false None to_sh 0%nat
    fd_rurl true fd_surr fd_at [6] fd_item fd_until (dir_until (item_codec toy true) key_toy fd_item fd_until) ob_url ob_around fo_at [5] (dir_holds (voucher_codec toy true) key_toy v)
    (fo_disk fa_dc) ob_tok (txt "Bearer tok") full_conf ob_sc no_pd [] ex_x1 [] [txt "http://rv1:80"] [] [txt "http://gone:8043"] [] pl
    fo_reached (fun h => fd_undisturbed _ _ h) fd_rv_ready (fun h => eq_refl) (C78_directory _ _ _ _ fd_plain) fd_rholds eq_refl fo_key fd_sends
    eq_refl fd_signed fo_alg fo_writable fo_served (fun h => ob_quiet _ h) ob_owner_ready (fun h => eq_refl) (C69_directory _ _ _) (dir_mark_laws _) (fo_at_start v ST) eq_refl fd_auth ob_settings (fun h mods => eq_refl)
    full_conf_fine full_user_fine ob_sizes eq_refl eq_refl eq_refl fd_directives (Forall_nil _) fd_urls (Forall_cons _ fo_dead1 (Forall_nil _)) fo_alive1
    P1 P2 (Forall_cons _ fo_dead2 (Forall_nil _)) fo_alive2 ltac:(discriminate) fo_device_ready fo_fits).
Qed.

Print Assumptions C80_initialised.
Print Assumptions C80_directory.
Print Assumptions C80_database.
Print Assumptions C81_delivered.
