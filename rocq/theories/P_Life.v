(** * C87: from the manufacturer to the owner
    The whole of it: a device is initialised (C80), its owner registers it with a rendezvous server (C85), it finds its owner there
    and onboards (C79). *)
From Verif Require Import Base BaseFacts CborModel CborSpec ValueModel Text Assoc Hex TypesModel CryptoSpec VoucherModel VoucherSpec VoucherProofs KexModel KexSpec RvModel StoreModel StoreSpec StoreProofs Backend
  MsgModel SessionModel SessionSpec HttpClientModel HttpClientSpec RvServerModel RvServerSpec RvServerRuns SiModel DevSiModel SiSpec SiProofs2 SiApiModel SiApiSpec OwnerModel MfgModel MfgSpec ClientModel ClientSpec
  MfgClientModel MfgClientSpec OwnerSpec To0Model To0Spec To0ClientModel OnboardSpec ServeSpec FindSpec FindProofs To0ClientSpec FactorySpec LifeSpec P_Find P_To0Client P_Factory.
From Verif Require P_Servers ServeProofs.
From Coq Require Import ZifyBool ZifyNat ZifyN.
Local Open Scope N_scope.
Local Opaque dec_top from_slice any_value.

Lemma issued_tag c chk v : issued c chk v -> CborModel.pa_tag (ov_contents v) = None.
Proof.
  induction 1 as [h hmac ch v _ _ _ VN _|v v' x _ IH _ EX].
  - unfold voucher_new in VN. destruct (serialize_array (hd_contents h)); cbn [map_err bind] in VN; try discriminate. destruct (serialize_array (PA None [])); cbn [map_err bind] in VN; try discriminate.
    inversion VN. reflexivity.
  - unfold extend in EX. destruct (let! _ := _ in _) as [raw| |] in EX; try discriminate.
    match type of EX with context [serialize_array ?es] => destruct (serialize_array es) as [b| |]; cbn [bind] in EX; try discriminate end.
    destruct (set_raw (ov_contents v) 4 b) as [ct| |] eqn:SR; try discriminate. inversion EX; subst. cbn [ov_contents]. revert SR. unfold set_raw.
    repeat match goal with |- context [match ?x with _ => _ end] => destruct x end; intros SR; inversion SR; subst; exact IH.
Qed.
Lemma until_less cd k it u u' d : u <= u' -> dir_until cd k it u' d -> dir_until cd k it u d.
Proof.
  intros LE (f & A & D & X). exists f. split; [exact A|]. split; [exact D|]. destruct (aget (xname Ttl) (f_xattr f)) as [t|]; [|exact Logic.I]. destruct X as (x & T & L). exists x. split; [exact T|lia].
Qed.
(** What the manufacturer hands over can be registered. *)
Lemma ordered_registrable c chk mkcert cf info dc v okf rcf tcf vdata sk owner t : as_ordered c mkcert cf info dc v -> issued c chk v -> owned_as_configured c chk cf v -> mf_owner cf = Some (sk, owner) ->
  bytes_ok vdata /\ nlen vdata < 2 ^ 32 -> voucher_deserialize c chk vdata = Ok v -> pk_key owner = c_pub c (tc_sk tcf) -> tellable c tcf ->
  trusts_authority c mkcert cf (cf_dev rcf) -> allows_manufacturer c cf rcf -> kf_type okf (c_pub c (ks_sk (dc_keys dc))) = Some t ->
  registrable c chk okf rcf tcf vdata v (Pubkey t ENC_X509 (kf_der okf (c_pub c (ks_sk (dc_keys dc)))) (c_pub c (ks_sk (dc_keys dc))) None).
Proof.
  intros [_ _ _ (mk & CK & PK) (leaf & CH & LK & FA)] IS OW MO VD RD OK TL TA AM KT. unfold owned_as_configured in OW. rewrite MO in OW. destruct OW as (NE & p & VE & PO). constructor; auto.
  - rewrite (issued_tag _ _ _ IS). exact Logic.I.
  - exists [p]. split; [exact VE|]. split; [discriminate|]. unfold owner_after. cbn [map last]. rewrite PO. exact OK.
  - split.
    + unfold allows_manufacturer in AM. destruct (cf_mfg rcf) as [bag|]; [|exact Logic.I]. rewrite PK. apply AM. exact CK.
    + exists (leaf :: mf_ca cf), leaf. split; [exact CH|]. split; [exact (TA _ _ FA)|]. unfold pubkey_of_cert. rewrite LK. cbn [of_option bind]. rewrite KT. reflexivity.
Qed.

(** A device that is new runs its program at a manufacturer whose configuration names [owner].  It is then initialised, and what
    it wrote and what the manufacturer has stored for it is all that is needed:
    - where the voucher has come to the owner's server, and the owner and a rendezvous server trust the manufacturer, the owner's
      registration arrives;
    - after that, whatever others do at the rendezvous server (but for registering the same device) and however long that takes,
      while the registration lasts the device's program, started with the credential, finds the rendezvous server and the
      owner's server, and ends with what the owner asked for done and the owner's server knowing it. *)
Theorem C87_life : forall A idt c chk ko kf mkcert cf W (be : backend voucher W) free stored avail to_der wo newkey url surr at_ id g k pubs present su mi info sk owner,
  aead_roundtrip A -> seal_longer A -> P_Servers.seals_derived ko A -> outputs_ok c -> sign_correct c -> hmac_sizes c -> hash_sizes c -> curve_laws ko -> kex_works ko -> keyfns_ok c kf -> certifies c mkcert ->
  (* the manufacturing server, as in C80 *)
  reached A idt (mf_server c chk ko kf mkcert cf be) (mf_kdf_avail cf) wo url surr at_ ->
  (forall h, undisturbed A idt (mf_server c chk ko kf mkcert cf be) (fun _ _ => True) id (fun _ => True) (su_before (surr h))) ->
  (forall h, mf_ready ko idt g pubs (surr h)) -> (forall h, su_id (surr h) = id) -> y_pend (at_ []) = [] -> can_issue c kf cf ->
  shelf be (voucher_codec c chk) free stored -> guid_text g = Some k -> nonce_ok g ->
  (forall h, unsent h -> free (y_world (fst (sys_run A idt (mf_server c chk ko kf mkcert cf be) (at_ h) (sequential (su_before (surr h)))))) k) ->
  will_initialise present -> set_up_for c to_der mkcert cf newkey pubs mi info su -> good_info info -> new_device ko wo ->
  fits (fst (mfg_main A c chk ko avail to_der wo newkey present su mi url)) ->
  mf_owner cf = Some (sk, owner) ->
  exists h data dc v, mfg_main A c chk ko avail to_der wo newkey present su mi url = (h, Initialised) /\ factory_session url su data h /\
    from_slice as_cred data = Ok (trim info, dc) /\ stored (y_world (at_ h)) k v /\
    forall ridt okf rcf tcf vdata tavail tav two turl tsurr tat tid tuntil sh s il us rest,
    (* the owner's server has the voucher; it and the rendezvous server trust the manufacturer *)
    bytes_ok vdata /\ nlen vdata < 2 ^ 32 -> voucher_deserialize c chk vdata = Ok v ->
    pk_key owner = c_pub c (tc_sk tcf) -> tellable c tcf -> keyfns_ok c okf -> kf_type okf (c_pub c (ks_sk (dc_keys dc))) <> None ->
    trusts_authority c mkcert cf (tc_trusted tcf) -> trusts_authority c mkcert cf (cf_dev rcf) -> allows_manufacturer c cf rcf ->
    (* the rendezvous server, as the owner's server meets it; the manufacturer's directives lead there *)
    let rv := rv_server c chk okf rcf (rv_dir c chk) in
    reached A ridt rv tav two turl tsurr tat -> (forall h, undisturbed A ridt rv (fun _ _ => True) tid (fun _ => True) (su_before (tsurr h))) ->
    (forall h, rv_ready ridt tuntil (tsurr h)) -> (forall h, su_id (tsurr h) = tid) -> tuntil / second + N.min (tc_period tcf) (cf_max rcf) < 2 ^ 63 -> y_pend (tat (s_hist s)) = [] ->
    to_interpreted (mf_rv cf) RvModel.Owner = Ok il -> flat_map (get_urls sh) il = us ++ turl :: rest -> Forall (dead two) us -> ~ dead two turl ->
    fits (s_hist (fst (to0_report A c chk tavail sh two tcf v s))) ->
    exists s' l w20 w22 it, to0_report A c chk tavail sh two tcf v s = (s', Ok (N.min (tc_period tcf) (cf_max rcf))) /\
      s_hist s' = s_hist s ++ l ++ [TWire turl w20; TWire turl w22] /\ Forall (to_dead two) l /\ wr_type w20 = 20 /\ wr_type w22 = 22 /\
      let ends := registered_to tcf rcf (e_now (su_env (tsurr (s_hist s ++ l ++ [TWire turl w20])) w22)) in
      forall between until oidt ocf WO (obe : backend voucher WO) marked owo allow prefix show_ip n
        rurl rav rsurr rat rid ourl osurr oat oid oholds d tok auth conf sc pd pres x posts pre post opre opost,
      (* what happens at the rendezvous server until the device calls, and while it does *)
      until <= ends -> Forall (apart A ridt rv (of_others c chk k until) rid (dir_until (item_codec c chk) k it until)) between ->
      y_world (rat []) = y_world (fst (sys_run A ridt rv (tat (s_hist s')) (sequential between))) -> y_pend (rat []) = [] ->
      reached A ridt rv rav owo rurl rsurr rat ->
      (forall h, undisturbed A ridt rv (of_others c chk k until) rid (dir_until (item_codec c chk) k it until) (su_before (rsurr h))) ->
      (forall h, rv_ready ridt until (rsurr h)) -> (forall h, su_id (rsurr h) = rid) ->
      (* the owner's server, with the same key *)
      pk_key owner = c_pub c (oc_sk ocf) ->
      c_alg c (c_pub c (oc_sk ocf)) <> None /\ c_alg c (c_pub c (oc_sk2 ocf)) <> None -> writable c (oc_pub ocf) /\ writable c (oc_pub2 ocf) ->
      served A oidt (ow_server c chk ko ocf obe) (oc_kdf_avail ocf) owo ourl osurr oat ->
      (forall h, OnboardSpec.quiet oidt oid oholds (an_before (osurr h))) -> (forall h, owner_ready ko oidt (osurr h)) -> (forall h, an_id (osurr h) = oid) ->
      keeper obe k v oholds -> mark_laws obe marked -> oholds (y_world (oat [])) -> y_pend (oat []) = [] ->
      info_auth tok auth = true -> from_settings c conf = Some sc -> (forall h mods, an_api (osurr h) k mods = ask_api tok auth sc pd g mods) ->
      let user := match pd g with Some u => u | None => st_user conf end in
      config_fine conf -> (forall u, user = Some u -> user_fine u) ->
      (forall mods l, list_of_reply (make_reply sc (pd g) mods) = Some l -> nlen (enc (silist_val l)) < 2 ^ 64) ->
      (* the device: the manufacturer's directives lead it to the rendezvous server, and the owner's addresses to the owner *)
      avail || allow = true -> dd_marker d = false -> dd_cred d = Cred dc ->
      to_interpreted (mf_rv cf) Device = Ok (pres ++ x :: posts) -> Forall (fun y => forall us, get_client_list show_ip y = Some us -> Forall (dead owo) us) pres ->
      get_client_list show_ip x = Some (pre ++ rurl :: post) -> Forall (dead owo) pre -> ~ dead owo rurl ->
      get_to2_urls show_ip (tc_addrs tcf) = opre ++ ourl :: opost -> Forall (dead owo) opre -> ~ dead owo ourl -> ourl <> rurl ->
      device_ready ko owo -> fits (fst (main A c chk ko avail show_ip prefix owo allow d (S n))) ->
      exists h l1 w30 w32 l2 l es, main A c chk ko avail show_ip prefix owo allow d (S n) = (h, Onboarded (match st_reboot conf with Some b => b | None => false end)) /\
        h = l1 ++ TWire rurl w30 :: TWire rurl w32 :: l2 ++ l /\ Forall (to_dead owo) l1 /\ wr_type w30 = 30 /\ wr_type w32 = 32 /\ Forall (to_dead owo) l2 /\
        session_of ourl 1 es (dd_method d) l /\ configured prefix conf user (offered owo) es /\ marked (y_world (oat h)) k.
Proof.
  intros A idt c chk ko kf mkcert cf W be free stored avail to_der wo newkey url surr at_ id g k pubs present su mi info sk owner AR SLG SDV HO HS HZ HSZ CL KW HK HC SD QU MR IDS PE CI SH GT GOK FREE WI SU GI ND FT MO.
  destruct (C80_initialised A idt c chk ko kf mkcert cf W be free stored avail to_der wo newkey url surr at_ id g k pubs present su mi info AR SLG SDV HO HS HZ CL KW HK HC SD QU MR IDS PE CI SH GT GOK FREE WI SU GI ND FT)
    as (h & data & dc & v & E & FS & CR & AC & VE & DG & RV & KF & IV & IS & OW & AO & ST).
  exists h, data, dc, v. do 4 (split; [assumption|]).
  clear CI IDS PE QU SD MR FREE SH ST FT E FS WI SU.
  intros ridt okf rcf tcf vdata tavail tav two turl tsurr tat tid tuntil sh s il us rest VD RD TK TL HKO KT TT TD TM rv TRE TUN TRY TID TB TYP TIL TUS TDU TND TFT.
  destruct (kf_type okf (c_pub c (ks_sk (dc_keys dc)))) as [t|] eqn:KTY; [|congruence]. clear KT.
  pose proof (ordered_registrable c chk mkcert cf info dc v okf rcf tcf vdata sk owner t AO IS OW MO VD RD TK TL TD TM KTY) as RG.
  assert (GV : guid_text (hd_guid (ov_header v)) = Some k) by (rewrite <- (iv_guid _ _ _ _ IV), DG; exact GT).
  assert (RP : reportable c tcf v).
  { split; [exact (ao_version _ _ _ _ _ _ AO)|]. destruct (ao_chain _ _ _ _ _ _ AO) as (leaf & CH & _ & FA). exists (leaf :: mf_ca cf), leaf. split; [exact CH|]. exact (TT _ _ FA). }
  rewrite <- (ao_rv _ _ _ _ _ _ AO) in TIL.
  destruct (C85_registered_directory A ridt c chk okf rcf tcf vdata v _ k tavail tav two turl tsurr tat tid tuntil sh s il us rest AR SLG HO HS HKO RG RP GV TRE TUN TRY TID TB TYP TIL TUS TDU TND TFT)
    as (s' & l & w20 & w22 & it & TE & TH & TF & T20 & T22 & (IK & SND & SG & hh & GP) & DU & YP').
  exists s', l, w20, w22, it. do 5 (split; [assumption|]).
  intros ends between until oidt ocf WO obe marked owo allow prefix show_ip n rurl rav rsurr rat rid ourl osurr oat oid oholds d tok auth conf sc pd pres x posts pre post opre opost
    LE BT RW RHP RSD RQU RRY RID OPK AL WR' OSD OQU OR OID KP ML OHW OHP AUTH FST API user CF UF SZ AV MK DC TI DPS GC DP NDR GU DO NDO NE DR FT2.
  pose proof (C78_directory (item_codec c chk) k it until (guid_text_plain _ _ (proj1 GOK) GT)) as FI.
  destruct (ServeProofs.quiet_run A ridt rv (of_others c chk k until) (dir_until (item_codec c chk) k it until) (rv_handle_holds c chk okf rcf dir (rv_dir c chk) k it until _ FI) rid between
     (tat (s_hist s')) YP' (until_less _ _ _ _ _ _ LE DU) BT) as (_ & RHW & _).
  rewrite <- RW in RHW.
  assert (ONE : nlen (entries_raw v) = 1) by (unfold owned_as_configured in OW; rewrite MO in OW; apply OW). rewrite <- ONE.
  assert (SG' : signed_by c (c_pub c (oc_sk ocf)) (si_to1d it)) by (rewrite <- OPK, TK; exact SG).
  pose proof (named_owner c chk cf ocf sk owner v (si_to1d it) MO IS OW OPK SG' AL WR') as IO.
  subst user. subst g. rewrite <- RV in TI.
  assert (PK : pk_key (si_key it) = c_pub c (ks_sk (dc_keys dc))) by (rewrite IK; reflexivity).
  assert (ITS : its_record c dc it) by (split; [exact GOK|]; split; [exact PK|exact (iv_alg _ _ _ _ IV)]).
  eapply (C79_onboards A oidt ridt c chk ko okf rcf ocf dir WO (rv_dir c chk) obe marked owo avail allow prefix show_ip n rurl rav rsurr rat rid it until (dir_until (item_codec c chk) k it until)
    ourl osurr oat oid k v oholds dc d tok auth conf sc pd pres x posts pre post opre opost (To1p (tc_addrs tcf) hh)); eauto.
Qed.
Print Assumptions C87_life.

(** ** A case: the device of P_Factory.v, made with DIUN.  The owner was given the manufacturer's directory; after five minutes, in
    which somebody has asked the rendezvous server for another device and the server has been restarted, the device calls. *)
From Verif Require Import ToyCrypto ToySession P_Voucher P_Rv P_Kex P_RvServer P_Si P_SiApi OwnerProofs P_Owner P_To0 ClientToy P_Honest P_Mfg P_MfgClient OnboardSpec P_Onboard.
Definition lf_rcf : rvconf := RvConf 1000 (Some [[9; 9]]) (Some [[43; 43]]).
Definition lf_tcf : to0conf := To0Conf (Some [[43; 43]]) [Addr None (Some (txt "gone")) 8043 3; Addr None (Some (txt "owner")) 8043 3] [7] 600 61.
Definition lf_rv := rv_server toy true kf_toy lf_rcf (rv_dir toy true).
Definition lf_data : bytes := match aget (get_path key_toy) fa_dir with Some f => f_data f | None => [] end.
Definition lf_voucher : voucher := of_ok ex_voucher (voucher_deserialize toy true lf_data).
Section lf_server.
Context (w0 : dir) (now : N).
Definition lf_surr (h : list devent) : surround dir rvenv := Surround [STick (5 * SES_SEC); SMaint] (fun _ => RvEnv now n4 IoOk) [6] [6] [].
Definition lf_step (y : sys (W:=dir) (D:=rvdata)) (w : HttpClientModel.wire) :=
  sys_run toy_aead toy_idt lf_rv (fst (sys_run toy_aead toy_idt lf_rv y (sequential (su_before (lf_surr []))))) (one_request (su_request (lf_surr []) w) NoFault).
Fixpoint lf_back (r : list devent) : sys (W:=dir) (D:=rvdata) :=
  match r with
  | [] => sys_init now w0
  | TWire u w :: r => if bytes_eqb u fd_rurl then fst (lf_step (lf_back r) w) else lf_back r
  | _ :: r => lf_back r
  end.
Definition lf_at (h : list devent) := lf_back (rev h).
(** the rendezvous server, and the owner's server where [ow] *)
Definition lf_resp (ow : bool) (h : list devent) : option hresponse :=
  match rev h with
  | TWire u w :: r => if bytes_eqb u fd_rurl then to_hresponse true (last (replies_of (snd (lf_step (lf_back r) w))) Dropped) []
                      else if ow && bytes_eqb u ob_url then to_hresponse true (last (responses (snd (ob_step (fo_back r) w))) Dropped) [] else None
  | _ => None
  end.
Definition lf_world (ow : bool) : world := World (lf_resp ow) (wo_fx ob_world) (wo_io ob_world) (wo_rand ob_world) (wo_kex ob_world) (wo_release ob_world) (wo_arch ob_world) (wo_mods ob_world).
Lemma lf_reached ow : reached toy_aead toy_idt lf_rv true (lf_world ow) fd_rurl lf_surr lf_at.
Proof.
  constructor.
  - intros h w. unfold lf_at. rewrite rev_unit. cbn [lf_back]. rewrite bytes_eqb_refl. split; [reflexivity|]. cbn [wo_resp lf_world]. unfold lf_resp. rewrite rev_unit, bytes_eqb_refl. reflexivity.
  - intros h e N. unfold lf_at. rewrite rev_unit. cbn [lf_back]. destruct e as [u w| | | | |]; try reflexivity. destruct (bytes_eqb u fd_rurl) eqn:E; [|reflexivity].
    apply bytes_eqb_spec in E. subst u. exfalso. exact (N w eq_refl).
Qed.
Lemma lf_undisturbed fair holds h : undisturbed toy_aead toy_idt lf_rv fair [6] holds (su_before (lf_surr h)).
Proof. split; [vm_compute; discriminate|]. repeat constructor. Qed.
Lemma lf_ready until h : now <= until -> rv_ready toy_idt until (lf_surr h).
Proof.
  intros LE. constructor; cbn [lf_surr su_env su_token su_id e_now].
  - intros _. exists n4. split; [reflexivity|]. apply b16; reflexivity.
  - intros _. exact LE.
  - reflexivity.
  - split; [|reflexivity]. intros [H|[]]. discriminate.
Qed.
Lemma lf_served : served toy_aead toy_idt ob_server (oc_kdf_avail ocf) (lf_world true) ob_url ob_around fo_at.
Proof.
  constructor.
  - intros h w. unfold fo_at. rewrite rev_unit. cbn [fo_back]. rewrite bytes_eqb_refl. split; [reflexivity|]. cbn [wo_resp lf_world]. unfold lf_resp. rewrite rev_unit.
    change (bytes_eqb ob_url fd_rurl) with false. rewrite bytes_eqb_refl. reflexivity.
  - apply (sd_rest _ _ _ _ _ _ _ _ fo_served).
Qed.
Lemma lf_device_ready : device_ready toy_kex (lf_world true).
Proof. destruct ob_device_ready. constructor; assumption. Qed.
Lemma lf_dead1 ow : dead (lf_world ow) (txt "http://rv1:80").
Proof. intros h w. cbn [wo_resp lf_world]. unfold lf_resp. rewrite rev_unit. change (bytes_eqb (txt "http://rv1:80") fd_rurl) with false. change (bytes_eqb (txt "http://rv1:80") ob_url) with false. rewrite andb_false_r. reflexivity. Qed.
Lemma lf_dead2 ow : dead (lf_world ow) (txt "http://gone:8043").
Proof. intros h w. cbn [wo_resp lf_world]. unfold lf_resp. rewrite rev_unit. change (bytes_eqb (txt "http://gone:8043") fd_rurl) with false. change (bytes_eqb (txt "http://gone:8043") ob_url) with false. rewrite andb_false_r. reflexivity. Qed.
End lf_server.
Definition lf_report := to0_report toy_aead toy true true to_sh (lf_world [] t100 false) lf_tcf lf_voucher tc_start.
Definition lf_asks : sevent dir rvenv := SReq (Req 30 true None (enc (VArr [bstr_val (repeat 3 16); VArr [VInt (-7); VBytes []]])) (RvEnv (300 * second) n3 IoOk) [9] [9] [] true) NoFault.
Definition lf_between : list (sevent dir rvenv) := [STick (300 * SES_SEC); SMaint; lf_asks].
Definition lf_dir : dir := y_world (fst (sys_run toy_aead toy_idt lf_rv (lf_at [] t100 (s_hist (fst lf_report))) (sequential lf_between))).
Definition lf_now : N := 400 * second.
Definition lf_until : N := 700 * second.
Definition lf_main := main toy_aead toy true toy_kex true to_sh None (lf_world lf_dir lf_now true) false (fo_disk fa_dc) 1.
Definition lf_body : bytes := enc (VArr [bstr_val (repeat 3 16); VArr [VInt (-7); VBytes []]]).
Lemma lf_not_sign o : rv_parse true TO0OwnerSign lf_body <> Ok (MOwnerSign o).
Proof. vm_compute. discriminate. Qed.
Lemma lf_apart holds : Forall (apart toy_aead toy_idt lf_rv (of_others toy true key_toy lf_until) [6] holds) lf_between.
Proof.
  repeat constructor; cbn [lf_asks rq_new_id rq_auth rq_env e_now].
  - discriminate.
  - discriminate.
  - vm_compute. discriminate.
  - destruct m as [|o|o|t]; try exact Logic.I. exfalso. revert H. unfold parse_request. cbn [lf_asks rq_body]. change (enc _) with lf_body. destruct (negb _); [discriminate|].
    destruct (enc_violated (enc_req im) (ek_is_some (keys_of s))) eqn:EV; [discriminate|]. unfold ek_decrypt. cbn [lf_rv rv_server sv_parse].
    destruct im; try (destruct (match ek_suite (keys_of s) with Some _ => _ | None => _ end); [|discriminate|discriminate]; unfold rv_parse; cbn [map_err]; try discriminate;
      match goal with |- context [map_err _ (let! _ := ?x in _)] => destruct x; discriminate end).
    cbn [enc_req enc_violated] in EV. unfold ek_is_some in EV. destruct (ek_suite (keys_of s)).
    + destruct (ek_keys (keys_of s)); discriminate.
    + assert (RP : forall o, rv_parse true TO0OwnerSign lf_body <> Ok (MOwnerSign o)) by exact lf_not_sign. destruct (rv_parse true TO0OwnerSign lf_body) as [m| |]; intros X; inversion X; subst. exact (RP _ eq_refl).
Qed.
Lemma lf_trust bag : bag = Some [[43; 43]] -> trusts_authority toy mk_toy (fa_conf false) bag.
Proof.
  intros -> leaf key (signer & rest & info & rnd & CA & MK). cbn [fa_conf mf_ca mf_ca_sk] in *. inversion CA; subst signer rest. unfold mk_toy in MK.
  destruct key as [|k [|? ?]]; try discriminate. destruct ((k <? 256) && (43 <? 256)); [|discriminate]. inversion MK; subst. reflexivity.
Qed.
Lemma lf_allows : allows_manufacturer toy (fa_conf false) lf_rcf.
Proof. intros key K. vm_compute in K. inversion K; subst. vm_compute. reflexivity. Qed.
Lemma lf_bytes : bytes_ok lf_data /\ nlen lf_data < 2 ^ 32.
Proof. split; [apply bytes_okb; vm_compute; reflexivity|vm_compute; reflexivity]. Qed.
Lemma lf_tells : tellable toy lf_tcf.
Proof.
  split; [|split; [|split]]; [|vm_compute; discriminate|reflexivity|discriminate].
  repeat constructor; try (vm_compute; discriminate); reflexivity.
Qed.
Lemma lf_kf : kf_type kf_toy (c_pub toy (ks_sk (dc_keys fa_dc))) <> None. Proof. vm_compute. discriminate. Qed.
Definition lf_il := of_ok [] (to_interpreted [ex_d1] RvModel.Owner).
Lemma lf_directives : to_interpreted (mf_rv (fa_conf false)) RvModel.Owner = Ok lf_il. Proof. vm_compute. reflexivity. Qed.
Lemma lf_urls : flat_map (get_urls to_sh) lf_il = [txt "http://rv1:80"] ++ fd_rurl :: []. Proof. vm_compute. reflexivity. Qed.
Lemma lf_alive : ~ dead (lf_world [] t100 false) fd_rurl.
Proof. intros D. specialize (D [] (Wire 20 None false [128])). vm_compute in D. discriminate. Qed.
Lemma lf_alive1 : ~ dead (lf_world lf_dir lf_now true) fd_rurl.
Proof. intros D. specialize (D [] (Wire 20 None false [128])). vm_compute in D. discriminate. Qed.
Lemma lf_alive2 : ~ dead (lf_world lf_dir lf_now true) ob_url.
Proof. intros D. specialize (D [] (Wire 60 None false [])). vm_compute in D. discriminate. Qed.
Lemma lf_fits1 : fits (s_hist (fst lf_report)). Proof. apply ob_fits_b. vm_compute. reflexivity. Qed.
Lemma lf_fits2 : fits (fst lf_main). Proof. apply ob_fits_b. vm_compute. reflexivity. Qed.
Lemma lf_addresses : get_to2_urls to_sh (tc_addrs lf_tcf) = [txt "http://gone:8043"] ++ ob_url :: []. Proof. vm_compute. reflexivity. Qed.
Lemma lf_bound : lf_now / second + N.min (tc_period lf_tcf) (cf_max lf_rcf) < 2 ^ 63. Proof. vm_compute. reflexivity. Qed.
Lemma lf_in_time : lf_now <= lf_until. Proof. vm_compute. discriminate. Qed.
Lemma lf_before : t100 <= lf_now. Proof. vm_compute. discriminate. Qed.
Lemma lf_reads v : dir_holds (voucher_codec toy true) key_toy v fa_dir -> voucher_deserialize toy true lf_data = Ok v /\ v = lf_voucher.
Proof.
  intros (f & AG & DE & _). assert (X : voucher_deserialize toy true lf_data = Ok v).
  { unfold lf_data. rewrite AG. cbn [voucher_codec de] in DE. destruct (voucher_deserialize toy true (f_data f)); cbn in DE; congruence. }
  split; [exact X|]. unfold lf_voucher. rewrite X. reflexivity.
Qed.
Lemma lf_after s' o : lf_report = (s', o) -> y_world (lf_at lf_dir lf_now []) = y_world (fst (sys_run toy_aead toy_idt lf_rv (lf_at [] t100 (s_hist s')) (sequential lf_between))).
Proof. intros E. cbn [lf_at rev lf_back sys_init y_world]. unfold lf_dir. rewrite E. reflexivity. Qed.
Example C87_case : snd lf_report = Ok 600 /\
  exists h l1 w30 w32 l2 l es, lf_main = (h, Onboarded true) /\
  h = l1 ++ TWire fd_rurl w30 :: TWire fd_rurl w32 :: l2 ++ l /\ Forall (to_dead (lf_world lf_dir lf_now true)) l1 /\ wr_type w30 = 30 /\ wr_type w32 = 32 /\ Forall (to_dead (lf_world lf_dir lf_now true)) l2 /\
  session_of ob_url 1 es DeactivateIt l /\ configured None full_conf (st_user full_conf) [DevMod; SSHKey; BinaryFile; Command; Reboot; DiskEncryption] es /\ dir_marked (y_world (fo_at h)) key_toy.
Proof.
  destruct (fa_set_up false) as (info & SU & GI).
  destruct (C87_life toy_aead toy_idt toy true toy_kex kf_toy mk_toy (fa_conf false) dir (mf_dir toy true) dir_free (fun d k v => dir_holds (voucher_codec toy true) k v d) true mcl_der (fa_world (mf_dir toy true) [] false) mcl_newkey mcl_url
    fa_surr (fa_at (mf_dir toy true) [] false) [5] ex_guid key_toy fa_pubs NoCred (fa_setup false) mcl_info info [9] (ex_key 7)
    toy_roundtrip ob_seals (P_Servers.toy_seals_derived toy_kex) toy_outputs_ok toy_sign_correct fa_hmac toy_sizes toy_curve_laws ob_kex_works kf_toy_ok mk_toy_ok
    (fa_reached _ _ _) (fun h => fa_undisturbed _ _ _ h) fa_ready (fun h => eq_refl) eq_refl (fa_issues false) (C80_directory toy true) fa_guid fa_guid_ok (fa_free _ dir_free [] eq_refl false) (or_introl eq_refl) SU GI (fa_new _ _ _) (fa_fits_dir false) eq_refl)
    as (h & data & dc & v & E & FS & CR & ST & ON).
  change (fa_run = (h, Initialised)) in E. assert (H : fst fa_run = h) by (rewrite E; reflexivity).
  pose proof (fa_data_is h data mcl_url H FS) as DA.
  assert (DC : dc = fa_dc) by (unfold fa_dc; rewrite DA, CR; reflexivity). clear E FS CR DA. rewrite DC in ON. clear DC.
  rewrite <- H in ST. clear H. destruct (lf_reads v ST) as [RD VV]. rewrite VV in *. clear VV.
  destruct (ON toy_idt kf_toy lf_rcf lf_tcf lf_data true true (lf_world [] t100 false) fd_rurl (lf_surr t100) (lf_at [] t100) [6] lf_now to_sh tc_start lf_il [txt "http://rv1:80"] [] lf_bytes RD eq_refl lf_tells kf_toy_ok lf_kf
    (lf_trust _ eq_refl) (lf_trust _ eq_refl) lf_allows (lf_reached _ _ _) (lf_undisturbed _ _ _) (fun h => lf_ready t100 lf_now h lf_before) (fun h => eq_refl) lf_bound eq_refl lf_directives lf_urls (Forall_cons _ (lf_dead1 _ _ _) (Forall_nil _)) lf_alive lf_fits1)
    as (s' & l & w20 & w22 & it & TE & TH & TF & T20 & T22 & GO). clear ON.
  change (lf_report = (s', Ok 600)) in TE. split; [rewrite TE; reflexivity|].
  exact (GO lf_between lf_until toy_idt ocf dir (ow_dir toy true) dir_marked (lf_world lf_dir lf_now true) false None to_sh 0%nat
    fd_rurl true (lf_surr lf_now) (lf_at lf_dir lf_now) [6] ob_url ob_around fo_at [5] (dir_holds (voucher_codec toy true) key_toy lf_voucher)
    (fo_disk fa_dc) ob_tok (txt "Bearer tok") full_conf ob_sc no_pd [] ex_x1 [] [txt "http://rv1:80"] [] [txt "http://gone:8043"] []
    (N.le_refl _) (lf_apart _) (lf_after s' _ TE) eq_refl (lf_reached _ _ _) (fun h => lf_undisturbed _ _ _ h) (fun h => lf_ready lf_now lf_until h lf_in_time) (fun h => eq_refl)
    eq_refl fo_alg fo_writable (lf_served _ _) (fun h => ob_quiet _ h) ob_owner_ready (fun h => eq_refl) (C69_directory _ _ _) (dir_mark_laws _) (fo_at_start lf_voucher ST) eq_refl fd_auth ob_settings (fun h mods => eq_refl)
    full_conf_fine full_user_fine ob_sizes eq_refl eq_refl eq_refl fd_directives (Forall_nil _) fd_urls (Forall_cons _ (lf_dead1 _ _ _) (Forall_nil _)) lf_alive1
    lf_addresses (Forall_cons _ (lf_dead2 _ _ _) (Forall_nil _)) lf_alive2 ltac:(discriminate) (lf_device_ready _ _) lf_fits2).
Qed.
