(** * C100: from the all-in-one's manufacturing server to its owner's server
    What C94 gives is all that C87 asks of the servers' set-up. *)
From Verif Require Import Base BaseFacts CborModel CborSpec ValueModel Text Assoc Hex TypesModel CryptoSpec VoucherModel VoucherSpec VoucherProofs KexModel KexSpec RvModel StoreModel StoreSpec StoreProofs Backend
  MsgModel SessionModel SessionSpec HttpClientModel HttpClientSpec RvServerModel RvServerSpec RvServerRuns SiModel DevSiModel SiSpec SiProofs2 SiApiModel SiApiSpec OwnerModel MfgModel MfgSpec ClientModel ClientSpec
  MfgClientModel MfgClientSpec OwnerSpec To0Model To0Spec To0ClientModel OnboardSpec ServeSpec FindSpec FindProofs To0ClientSpec FactorySpec LifeSpec P_Onboard P_Find P_To0Client P_Factory P_Life.
From Verif Require P_Servers ServeProofs P_Mfg P_Owner.
From Verif Require Import RvYamlModel AioModel AioSpec AioProofs AioProofs2 P_Aio.
From Coq Require Import ZifyBool ZifyNat ZifyN.
Local Open Scope N_scope.
Local Opaque dec_top from_slice any_value.

Lemma digits_only u : ~ In 58 (uint_str u).
Proof. induction u; cbn [uint_str In]; try tauto; intros [H|H]; try discriminate; tauto. Qed.
Lemma last_colon (x y a b : str) : ~ In 58 a -> ~ In 58 b -> x ++ 58 :: a = y ++ 58 :: b -> a = b.
Proof.
  revert y. induction x as [|h x IH]; intros [|h' y] A B E; cbn [app] in E.
  - injection E as E. exact E.
  - injection E as <- E. exfalso. apply A. rewrite E. apply in_or_app. right. left. reflexivity.
  - injection E as -> E. exfalso. apply B. rewrite <- E. apply in_or_app. right. left. reflexivity.
  - injection E as -> E. exact (IH y A B E).
Qed.
Lemma url_port show_ip p q a b : AioSpec.url show_ip p a = AioSpec.url show_ip q b -> p = q.
Proof.
  unfold AioSpec.url. intros E. apply app_inv_head in E. apply dec_str_inj. change (txt ":" ++ dec_str p) with (58 :: dec_str p) in E. change (txt ":" ++ dec_str q) with (58 :: dec_str q) in E.
  exact (last_colon _ _ _ _ (digits_only _) (digits_only _) E).
Qed.
Lemma map_split {X Y} (f : X -> Y) l pre a post : l = pre ++ a :: post -> map f l = map f pre ++ f a :: map f post.
Proof. intros ->. rewrite map_app. reflexivity. Qed.

Lemma built c kf parse_ip kdf sk2 pub2 d u : start_all c kf parse_ip kdf sk2 pub2 d = Some u ->
  mf_kdf_avail (mu_conf (sv_mfg u)) = kdf /\ oc_kdf_avail (ou_conf (sv_own u)) = kdf /\ oc_sk2 (ou_conf (sv_own u)) = sk2 /\ oc_pub2 (ou_conf (sv_own u)) = pub2.
Proof.
  unfold start_all. intros E. destruct (start_mfg c kf parse_ip kdf d) as [m|] eqn:EM; [|discriminate]. destruct (start_own c kf parse_ip kdf sk2 pub2 d) as [o|] eqn:EO; [|discriminate].
  cbn [opt] in E. destruct (start_rv d) as [r|]; [|discriminate]. destruct (start_api c d) as [ap|]; [|discriminate]. cbn [opt] in E. destruct (distinct _); [|discriminate]. injection E as <-. cbn [sv_mfg sv_own].
  unfold start_mfg in EM. unfold start_own in EO.
  repeat match type of EM with context [opt ?x _] => destruct x; [cbn [opt] in EM|discriminate] end. injection EM as <-.
  repeat match type of EO with context [opt ?x _] => destruct x; [cbn [opt] in EO|discriminate] end. injection EO as <-.
  repeat split; reflexivity.
Qed.

(** The all-in-one, after whatever history of commands, starts its servers.  Then its configuration is enough: a device that is new
    and runs its program at the manufacturing server is initialised; the owner's server registers it, at whichever of the
    all-in-one's addresses answers first; and while the registration lasts the device, started with what it wrote, comes by the
    addresses it was given to the rendezvous server and to the owner's server, gets from there what the service info server has
    for it, and is onboarded. *)
Theorem C100_life : forall c kf show_ip parse_ip mk_key mkcert cmds d0 dr e files a kdf sk2 pub2 u,
  ip_texts show_ip parse_ip -> makes_keys c kf mk_key -> issues c mkcert -> keyfns_ok c kf -> outputs_ok c ->
  d0 = None \/ d0 = Some [] -> Forall cmd_ok cmds -> draws_ok dr ->
  (* whatever was done before, the all-in-one starts its servers *)
  run show_ip mk_key (commands show_ip mk_key cmds d0) dr e = (Some files, Some a) -> start_all c kf parse_ip kdf sk2 pub2 files = Some u ->
  c_alg c (c_pub c sk2) <> None -> writable c pub2 ->
  exists command o dr' e' contacts, In command (cmds ++ [Run dr e]) /\ configures command o dr' e' /\ contacts_for o dr' contacts /\
  let cf := mu_conf (sv_mfg u) in let ocf := ou_conf (sv_own u) in let tcf := ou_to0 (sv_own u) in let rcf := ru_conf (sv_rv u) in
  let rv_at := AioSpec.url show_ip (ls_port (ru_bind (sv_rv u))) in let owner_at := AioSpec.url show_ip (ls_port (ou_bind (sv_own u))) in
  forall A idt chk ko avail to_der wo newkey url surr at_ id g k pubs present su mi info,
  aead_roundtrip A -> seal_longer A -> P_Servers.seals_derived ko A -> sign_correct c -> hmac_sizes c -> hash_sizes c -> curve_laws ko -> kex_works ko -> certifies c mkcert ->
  (* a new device at the manufacturing server, as in C80 *)
  let mfg := mf_server c chk ko kf mkcert cf (P_Mfg.mf_dir c chk) in
  reached A idt mfg kdf wo url surr at_ -> (forall h, undisturbed A idt mfg (fun _ _ => True) id (fun _ => True) (su_before (surr h))) ->
  (forall h, mf_ready ko idt g pubs (surr h)) -> (forall h, su_id (surr h) = id) -> y_pend (at_ []) = [] ->
  guid_text g = Some k -> nonce_ok g -> (forall h, unsent h -> dir_free (y_world (fst (sys_run A idt mfg (at_ h) (sequential (su_before (surr h)))))) k) ->
  will_initialise present -> set_up_for c to_der mkcert cf newkey pubs mi info su -> good_info info -> new_device ko wo ->
  fits (fst (mfg_main A c chk ko avail to_der wo newkey present su mi url)) ->
  exists h data dc v, mfg_main A c chk ko avail to_der wo newkey present su mi url = (h, Initialised) /\ factory_session url su data h /\
    from_slice as_cred data = Ok (trim info, dc) /\ dir_holds (voucher_codec c chk) k v (y_world (at_ h)) /\
    forall ridt vdata tavail tav two tsurr tat tid tuntil s pre1 a1 post1,
    (* the owner's server reads the voucher, and comes to the rendezvous server at one of the addresses *)
    bytes_ok vdata /\ nlen vdata < 2 ^ 32 -> voucher_deserialize c chk vdata = Ok v -> kf_type kf (c_pub c (ks_sk (dc_keys dc))) <> None ->
    let rv := rv_server c chk kf rcf (rv_dir c chk) in
    reached A ridt rv tav two (rv_at a1) tsurr tat -> (forall h, undisturbed A ridt rv (fun _ _ => True) tid (fun _ => True) (su_before (tsurr h))) ->
    (forall h, rv_ready ridt tuntil (tsurr h)) -> (forall h, su_id (tsurr h) = tid) -> tuntil / second + N.min (tc_period tcf) (cf_max rcf) < 2 ^ 63 -> y_pend (tat (s_hist s)) = [] ->
    contacts = pre1 ++ a1 :: post1 -> Forall (dead two) (map rv_at pre1) -> ~ dead two (rv_at a1) ->
    fits (s_hist (fst (to0_report A c chk tavail show_ip two tcf v s))) ->
    exists s' l w20 w22 it, to0_report A c chk tavail show_ip two tcf v s = (s', Ok (N.min (tc_period tcf) (cf_max rcf))) /\
      s_hist s' = s_hist s ++ l ++ [TWire (rv_at a1) w20; TWire (rv_at a1) w22] /\ Forall (to_dead two) l /\ wr_type w20 = 20 /\ wr_type w22 = 22 /\
      let ends := registered_to tcf rcf (e_now (su_env (tsurr (s_hist s ++ l ++ [TWire (rv_at a1) w20])) w22)) in
      forall between until oidt owo allow prefix n rav rsurr rat rid osurr oat oid d pd pre2 a2 post2 pre3 a3 post3,
      (* what happens at the rendezvous server until the device calls, and while it does *)
      until <= ends -> Forall (apart A ridt rv (of_others c chk k until) rid (dir_until (item_codec c chk) k it until)) between ->
      y_world (rat []) = y_world (fst (sys_run A ridt rv (tat (s_hist s')) (sequential between))) -> y_pend (rat []) = [] ->
      reached A ridt rv rav owo (rv_at a2) rsurr rat ->
      (forall h, undisturbed A ridt rv (of_others c chk k until) rid (dir_until (item_codec c chk) k it until) (su_before (rsurr h))) ->
      (forall h, rv_ready ridt until (rsurr h)) -> (forall h, su_id (rsurr h) = rid) ->
      (* the owner's server; the voucher is still there *)
      served A oidt (ow_server c chk ko ocf (P_Owner.ow_dir c chk)) kdf owo (owner_at a3) osurr oat ->
      (forall h, OnboardSpec.quiet oidt oid (dir_holds (voucher_codec c chk) k v) (an_before (osurr h))) -> (forall h, owner_ready ko oidt (osurr h)) -> (forall h, an_id (osurr h) = oid) ->
      dir_holds (voucher_codec c chk) k v (y_world (oat [])) -> y_pend (oat []) = [] ->
      (* its requests go to the service info server, which may have settings for this device *)
      (forall h mods, an_api (osurr h) k mods = ask_api (au_tokens (sv_api u)) (ou_auth (sv_own u)) (au_info (sv_api u)) pd g mods) ->
      let user := match pd g with Some x => x | None => None end in
      (forall x, user = Some x -> user_fine x) ->
      (forall mods l, list_of_reply (make_reply (au_info (sv_api u)) (pd g) mods) = Some l -> nlen (enc (silist_val l)) < 2 ^ 64) ->
      (* the device *)
      avail || allow = true -> dd_marker d = false -> dd_cred d = Cred dc ->
      contacts = pre2 ++ a2 :: post2 -> Forall (dead owo) (map rv_at pre2) -> ~ dead owo (rv_at a2) ->
      contacts = pre3 ++ a3 :: post3 -> Forall (dead owo) (map owner_at pre3) -> ~ dead owo (owner_at a3) ->
      device_ready ko owo -> fits (fst (main A c chk ko avail show_ip prefix owo allow d (S n))) ->
      exists h l1 w30 w32 l2 l es, main A c chk ko avail show_ip prefix owo allow d (S n) = (h, Onboarded false) /\
        h = l1 ++ TWire (rv_at a2) w30 :: TWire (rv_at a2) w32 :: l2 ++ l /\ Forall (to_dead owo) l1 /\ wr_type w30 = 30 /\ wr_type w32 = 32 /\ Forall (to_dead owo) l2 /\
        session_of (owner_at a3) 1 es (dd_method d) l /\ configured prefix (Settings None None None None None (Some false)) user (offered owo) es /\ dir_marked (y_world (oat h)) k.
Proof.
  intros c kf show_ip parse_ip mk_key mkcert cmds d0 dr e files a kdf sk2 pub2 u IT MK IS KF HO F FC DO R ST AL2 WR2.
  destruct (built c kf parse_ip kdf sk2 pub2 files u ST) as (KM & KO & ES & EP).
  destruct (C94_together c kf show_ip parse_ip mk_key mkcert cmds d0 dr e files a kdf sk2 pub2 u IT MK IS KF HO F FC DO R ST) as (command & o & dr' & e' & contacts & I' & CO & CT & TG & _).
  clear R ST MK IS F FC DO.
  exists command, o, dr', e', contacts. split; [exact I'|]. split; [exact CO|]. split; [exact CT|]. clear I' CO CT command dr' e'.
  destruct TG as [_ TGN TGD TGO TG2 TGT TGE TGTO TGTR TGA TGI TGK _ _ _ _ _ _ TGAU TGIN].
  destruct TGE as (sk & owner & MO & _ & PK1 & PK2 & _). destruct TGTO as (_ & TT). destruct TGTR as (_ & TD). destruct TGA as (_ & TM).
  destruct TGD as (ild & ILD & GCD). destruct TGO as (ilo & ILO & GUO). destruct TGK as (AL1 & WR1).
  intros cf ocf tcf rcf rv_at owner_at A idt chk ko avail to_der wo newkey url surr at_ id g k pubs present su mi info AR SLG SDV HS HZ HSZ CL KW HC mfg SD QU MR IDS PE GT GOK FREE WI SU GI ND FT.
  rewrite <- KM in SD.
  destruct (C87_life A idt c chk ko kf mkcert cf dir (P_Mfg.mf_dir c chk) dir_free (fun d k v => dir_holds (voucher_codec c chk) k v d) avail to_der wo newkey url surr at_ id g k pubs present su mi info sk owner
    AR SLG SDV HO HS HZ HSZ CL KW KF HC SD QU MR IDS PE TGI (C80_directory c chk) GT GOK FREE WI SU GI ND FT MO) as (h & data & dc & v & E & FS & CR & STO & NX).
  exists h, data, dc, v. do 4 (split; [assumption|]).
  intros ridt vdata tavail tav two tsurr tat tid tuntil s pre1 a1 post1 VD RD KT rv TRE TUN TRY TID TB TYP CS1 DP1 NA1 TFT.
  assert (US : flat_map (get_urls show_ip) ilo = map rv_at pre1 ++ rv_at a1 :: map rv_at post1) by (rewrite GUO; apply map_split, CS1).
  destruct (NX ridt kf rcf tcf vdata tavail tav two (rv_at a1) tsurr tat tid tuntil show_ip s ilo (map rv_at pre1) (map rv_at post1)
    VD RD PK2 TGT KF KT TT TD TM TRE TUN TRY TID TB TYP ILO US DP1 NA1 TFT) as (s' & l & w20 & w22 & it & TE & TH & TF & T20 & T22 & NY).
  exists s', l, w20, w22, it. do 5 (split; [assumption|]). clear NX.
  intros ends between until oidt owo allow prefix n rav rsurr rat rid osurr oat oid d pd pre2 a2 post2 pre3 a3 post3
    LE BT RW RHP RSD RQU RRY RID OSD OQU OR OID OHW OHP API user UF SZ AV MKR DC CS2 DP2 NA2 CS3 DP3 NA3 DR FT2.
  assert (SP : exists pres x posts, ild = pres ++ x :: posts /\ map (get_client_list show_ip) pres = map (fun a => Some [rv_at a]) pre2 /\ get_client_list show_ip x = Some ([] ++ rv_at a2 :: [])).
  { rewrite CS2, map_app in GCD. apply map_eq_app in GCD. destruct GCD as (p & q & -> & GP & GQ). apply map_eq_cons in GQ. destruct GQ as (x & r & -> & GX & _). exists p, x, r. auto. }
  destruct SP as (pres & x & posts & EIL & GP & GX). rewrite EIL in ILD.
  assert (DPS : Forall (fun y => forall us, get_client_list show_ip y = Some us -> Forall (dead owo) us) pres).
  { clear - GP DP2. revert pres GP. induction pre2 as [|b pre2 IH]; intros pres GP; destruct pres as [|y pres]; try discriminate; constructor.
    - intros us EU. cbn [map] in GP. injection GP as G1 _. rewrite G1 in EU. injection EU as <-. cbn [map] in DP2. inversion DP2; subst. constructor; [assumption|constructor].
    - cbn [map] in GP, DP2. injection GP as _ G2. inversion DP2; subst. apply IH; assumption. }
  assert (NE : owner_at a3 <> rv_at a2).
  { intros X. apply url_port in X. cbn [map] in TGN. inversion TGN as [|? ? _ N1]; subst. inversion N1 as [|? ? N2 _]; subst. apply N2. rewrite X. left. reflexivity. }
  assert (T2 : get_to2_urls show_ip (tc_addrs tcf) = map owner_at pre3 ++ owner_at a3 :: map owner_at post3) by (unfold tcf; rewrite TG2; apply map_split, CS3).
  assert (AUTH : info_auth (au_tokens (sv_api u)) (ou_auth (sv_own u)) = true) by (apply TGAU; reflexivity).
  rewrite <- KO in OSD. rewrite <- ES in AL2. rewrite <- EP in WR2.
  assert (CFI : config_fine (Settings None None None None None (Some false))) by (unfold config_fine; cbn [st_files st_commands st_disks st_extra listed]; repeat split; constructor).
  assert (FST : from_settings c (Settings None None None None None (Some false)) = Some (au_info (sv_api u))) by (rewrite TGIN; reflexivity).
  exact (NY between until oidt ocf dir (P_Owner.ow_dir c chk) dir_marked owo allow prefix show_ip n (rv_at a2) rav rsurr rat rid (owner_at a3) osurr oat oid (dir_holds (voucher_codec c chk) k v) d
    (au_tokens (sv_api u)) (ou_auth (sv_own u)) (Settings None None None None None (Some false)) (au_info (sv_api u)) pd pres x posts [] [] (map owner_at pre3) (map owner_at post3)
    LE BT RW RHP RSD RQU RRY RID PK1 (conj AL1 AL2) (conj WR1 WR2) OSD OQU OR OID (C69_directory _ _ _) (OwnerProofs.dir_mark_laws _) OHW OHP AUTH FST API CFI UF SZ AV MKR DC ILD DPS GX (Forall_nil _) NA2 T2 DP3 NA3 NE DR FT2).
Qed.
Print Assumptions C100_life.

(** ** A case: the all-in-one was configured without DIUN only; it has two addresses, and the first one does not answer.  Somebody
    asks the rendezvous server for another device, and it is restarted, before the device calls. *)
From Verif Require Import ToyCrypto ToySession P_Voucher P_Rv P_Kex P_RvServer P_Si P_SiApi OwnerProofs P_Owner P_To0 ClientToy P_Honest P_Mfg P_MfgClient OnboardSpec P_Onboard P_Find P_Factory P_Life.
Definition al_opts : aopts := AOpts (txt "Org") (txt "US") (txt "::") 8080 8081 8082 8083 false true false false true (Some 600) (Some 61) None.
Definition al_history : list cmd := [Generate al_opts ai_draws Complete].
Definition al_run := run ai_show ai_key (commands ai_show ai_key al_history None) ai_draws Complete.
Definition al_files : adir := match fst al_run with Some d => d | None => [] end.
Definition al_read : aconf := match snd al_run with Some a => a | None => AConf al_opts [] [] [] end.
Definition al_pub2 : pubkey := ex_key 8.
Definition al_first : contact := CIp [192; 168; 1; 2].
Definition al_second : contact := CIp (254 :: 128 :: repeat 0 13 ++ [5]).
Definition al_rv : list (list (N * bytes)) :=
  [[(3, [25; 31; 146]); (2, [68; 192; 168; 1; 2]); (4, [25; 31; 146]); (12, [1])]; [(3, [25; 31; 146]); (2, 80 :: 254 :: 128 :: repeat 0 13 ++ [5]); (4, [25; 31; 146]); (12, [1])]].
Definition al_conf : mfconf := MfConf [9; 9] (Some ([9], ex_key 7)) [43] [[43; 43]] al_rv true (Some (DiunConf 0 10 [1; 0] [41] (Pubkey 10 2 [129; 66; 41; 41] [41] (Some [[41; 41]])))) true.
Definition al_ocf : owconf := OwConf [7] (ex_key 7) [8] al_pub2 true.
Definition al_tcf : to0conf := To0Conf (Some [[43; 43]]) [Addr (Some [192; 168; 1; 2]) None 8081 3; Addr (Some (254 :: 128 :: repeat 0 13 ++ [5])) None 8081 3] [7] 600 61.
Definition al_rcf : rvconf := RvConf 2592000 (Some [[9; 9]]) (Some [[43; 43]]).
Definition al_tok : tokens := tokens_of (Some (txt "tok")) (Some (txt "adm")).
Definition al_sc : settings sifile := Settings None None None None None (Some false).
Definition al_at (port : N) : listen := Listen (txt "0.0.0.0") port.
Definition al_up : servers := Servers
  (MfgUp (al_at 8080) al_conf (txt "stores/owner_vouchers") (txt "stores/manufacturing_sessions") (Some (txt "stores/manufacturer_keys")))
  (OwnUp (al_at 8081) al_ocf al_tcf (txt "http://localhost:8083/device_info") (txt "Bearer tok") (txt "stores/owner_vouchers") (txt "stores/owner_onboarding_sessions"))
  (RvUp (al_at 8082) al_rcf (txt "stores/rendezvous_registered") (txt "stores/rendezvous_sessions"))
  (ApiUp (al_at 8083) al_tok al_sc (txt "stores/serviceinfo_api_devices")).
Lemma al_runs : run ai_show ai_key (commands ai_show ai_key al_history None) ai_draws Complete = (Some al_files, Some al_read).
Proof. vm_compute. reflexivity. Qed.
Lemma al_started : start_all toy kf_toy ai_parse true [8] al_pub2 al_files = Some al_up.
Proof. vm_compute. reflexivity. Qed.
Lemma al_history_ok : Forall cmd_ok al_history.
Proof.
  constructor; [|constructor]. split; [|apply ai_draws_ok]. constructor; cbn [al_opts ao_mfg_port ao_own_port ao_rv_port ao_api_port ao_period ao_window ao_hostname]; [lia| |discriminate].
  split; intros n E; injection E as <-; reflexivity.
Qed.
Lemma reachable_fun l r r' : reachable_of l r -> reachable_of l r' -> r = r'.
Proof. intros H. revert r'. induction H as [|ip l r A H IH|ip l r A H IH]; intros r' H'; inversion H'; subst; try contradiction; [reflexivity|f_equal; apply IH; assumption|apply IH; assumption]. Qed.
Lemma al_contacts command o dr e contacts : In command (al_history ++ [Run ai_draws Complete]) -> configures command o dr e -> contacts_for o dr contacts -> contacts = [al_first; al_second].
Proof.
  intros I' C CF. assert (X : ao_hostname o = None /\ dr = ai_draws).
  { destruct I' as [<-|[<-|[]]]; destruct C as [E|(E & ->)]; try discriminate; injection E; intros; subst; split; reflexivity. }
  destruct X as (H & ->). unfold contacts_for in CF. rewrite H in CF. apply (reachable_fun _ _ _ CF). exact (contacts_are default_opts ai_draws ai_draws_ok).
Qed.

(** The manufacturing server, and a new device *)
Definition al_murl : str := txt "http://aio:8080".
Definition al_surr (h : list devent) : surround dir mfenv :=
  Surround [STick (5 * SES_SEC); SMaint] (fun w => MfEnv t100 ex_guid (fun _ => Some kex384) [] [] (if wr_kdf w then Some (txt "true") else None) fa_pubs IoOk) [5] [5] [].
Definition al_mfg := mf_server toy true toy_kex kf_toy mk_toy al_conf (mf_dir toy true).
Definition al_mstep (y : sys (W:=dir) (D:=mfdata)) (w : HttpClientModel.wire) :=
  sys_run toy_aead toy_idt al_mfg (fst (sys_run toy_aead toy_idt al_mfg y (sequential (su_before (al_surr []))))) (one_request (su_request (al_surr []) w) NoFault).
Fixpoint al_mback (r : list devent) : sys (W:=dir) (D:=mfdata) :=
  match r with
  | [] => sys_init t100 []
  | TWire u w :: r => if bytes_eqb u al_murl then fst (al_mstep (al_mback r) w) else al_mback r
  | _ :: r => al_mback r
  end.
Definition al_mat (h : list devent) := al_mback (rev h).
Definition al_mresp (h : list devent) : option hresponse :=
  match rev h with TWire u w :: r => if bytes_eqb u al_murl then to_hresponse true (last (replies_of (snd (al_mstep (al_mback r) w))) Dropped) [] else None | _ => None end.
Definition al_mworld : world := World al_mresp (fun _ => Fine) (fun _ => true) (fun h n => repeat (N.of_nat (length h) mod 256) 16) (fun h s => Some (Ecdh s [3; 4] (repeat 7 48))) None [] [].
Definition al_made := mfg_main toy_aead toy true toy_kex true mcl_der al_mworld mcl_newkey NoCred mcl_plain mcl_info al_murl.
Lemma al_mreached : reached toy_aead toy_idt al_mfg true al_mworld al_murl al_surr al_mat.
Proof.
  constructor.
  - intros h w. unfold al_mat. rewrite rev_unit. cbn [al_mback]. rewrite bytes_eqb_refl. split; [reflexivity|]. cbn [wo_resp al_mworld]. unfold al_mresp. rewrite rev_unit, bytes_eqb_refl. reflexivity.
  - intros h e N. unfold al_mat. rewrite rev_unit. cbn [al_mback]. destruct e as [u w| | | | |]; try reflexivity. destruct (bytes_eqb u al_murl) eqn:E; [|reflexivity].
    apply bytes_eqb_spec in E. subst u. exfalso. exact (N w eq_refl).
Qed.
Lemma al_mundisturbed holds h : undisturbed toy_aead toy_idt al_mfg (fun _ _ => True) [5] holds (su_before (al_surr h)).
Proof. split; [vm_compute; discriminate|]. repeat constructor. Qed.
Lemma al_mready h : mf_ready toy_kex toy_idt ex_guid fa_pubs (al_surr h).
Proof.
  constructor; cbn [al_surr su_env su_token su_id].
  - exists t100, (fun _ => Some kex384), [], []. split; [apply ob_kex_ok; reflexivity|]. intros w. reflexivity.
  - split; [|reflexivity]. intros [H|[]]. discriminate.
Qed.
Lemma al_mbefore (y : sys (W:=dir) (D:=mfdata)) : let y' := fst (sys_run toy_aead toy_idt al_mfg y (sequential (su_before (al_surr [])))) in y_world y' = y_world y /\ y_pend y' = y_pend y.
Proof. destruct y. split; reflexivity. Qed.
Lemma al_mkept h : unsent h -> y_world (al_mat h) = [] /\ y_pend (al_mat h) = [].
Proof.
  induction h as [|e h IH] using rev_ind; intros U; [split; reflexivity|]. specialize (IH (fun u w H => U u w (in_or_app _ _ _ (or_introl H)))).
  unfold al_mat in *. rewrite rev_unit. cbn [al_mback]. destruct e as [u w| | | | |]; try exact IH. destruct (bytes_eqb u al_murl); [|exact IH].
  unfold al_mstep. destruct (al_mbefore (al_mback (rev h))) as [B1 B2]. destruct (fst (sys_run _ _ _ (al_mback (rev h)) _)) as [now w' st ps]. cbn [y_world y_pend] in B1, B2.
  destruct IH as [I1 I2]. rewrite I1 in B1. rewrite I2 in B2. subst w' ps. apply others_keep. cbn [su_request rq_type]. apply (U u w). apply in_or_app. right. left. reflexivity.
Qed.
Lemma al_mfree h : unsent h -> dir_free (y_world (fst (sys_run toy_aead toy_idt al_mfg (al_mat h) (sequential (su_before (al_surr h)))))) key_toy.
Proof. intros U. change (su_before (al_surr h)) with (su_before (al_surr [])). destruct (al_mbefore (al_mat h)) as [-> _]. destruct (al_mkept h U) as [-> _]. reflexivity. Qed.
Lemma al_set_up : set_up_for toy mcl_der mk_toy al_conf mcl_newkey fa_pubs mcl_info (txt "serial") mcl_plain.
Proof.
  eapply for_plain with (der := [42]); [reflexivity|vm_compute; reflexivity|reflexivity|reflexivity|]. constructor.
  - split; (split; [apply bytes_okb; vm_compute; reflexivity|vm_compute; reflexivity]).
  - discriminate.
  - intros signer rest rnd E. inversion E; subst. vm_compute. discriminate.
Qed.
Lemma al_info : good_info (txt "serial").
Proof. split; [vm_compute; reflexivity|]. split; [vm_compute; discriminate|]. repeat constructor; vm_compute; try discriminate; reflexivity. Qed.
Lemma al_new : new_device toy_kex al_mworld.
Proof.
  constructor; cbn [al_mworld wo_rand wo_kex wo_fx].
  - intros h. split; [|reflexivity]. apply Forall_forall. intros x H. apply repeat_spec in H. subst x. pose proof (N.mod_upper_bound (N.of_nat (length h)) 256). lia.
  - intros h. apply ob_kex_ok; reflexivity.
  - reflexivity.
Qed.
Lemma al_mfits : fits (fst al_made). Proof. apply ob_fits_b. vm_compute. reflexivity. Qed.

(** The directory both servers have, the credential, the voucher *)
Definition al_dir : dir := y_world (al_mat (fst al_made)).
Definition al_cred_data : bytes := match nth_error (rev (fst al_made)) 1 with Some (TFx (EWrite _ data _)) => data | _ => [] end.
Definition al_dc : devcred := match from_slice as_cred al_cred_data with Ok (_, dc) => dc | _ => cl_cred end.
Definition al_data : bytes := match aget (get_path key_toy) al_dir with Some f => f_data f | None => [] end.
Definition al_voucher : voucher := of_ok ex_voucher (voucher_deserialize toy true al_data).
Lemma al_data_is h data : fst al_made = h -> factory_session al_murl mcl_plain data h -> al_cred_data = data.
Proof. intros <- (pre & e10 & e12 & L & _). unfold al_cred_data. rewrite L, rev_app_distr. reflexivity. Qed.
Lemma al_reads v : dir_holds (voucher_codec toy true) key_toy v al_dir -> voucher_deserialize toy true al_data = Ok v /\ v = al_voucher.
Proof.
  intros (f & AG & DE & _). assert (X : voucher_deserialize toy true al_data = Ok v).
  { unfold al_data. rewrite AG. cbn [voucher_codec de] in DE. destruct (voucher_deserialize toy true (f_data f)); cbn in DE; congruence. }
  split; [exact X|]. unfold al_voucher. rewrite X. reflexivity.
Qed.

(** The rendezvous server and the owner's server *)
Definition al_rurl : str := AioSpec.url ai_show 8082 al_second.
Definition al_ourl : str := AioSpec.url ai_show 8081 al_second.
Definition al_rvs := rv_server toy true kf_toy al_rcf (rv_dir toy true).
Definition al_own := ow_server toy true toy_kex al_ocf (ow_dir toy true).
Definition al_around (h : list devent) : OnboardSpec.around dir :=
  OnboardSpec.Around [STick (5 * SES_SEC); SMaint] t1000 n6 (fun _ => Some kex384) ex_guid [] (fun _ mods => ask_api al_tok (txt "Bearer tok") al_sc no_pd ex_guid mods) [5] [5] [].
Definition al_ostep (y : sys (W:=dir) (D:=owdata)) (w : HttpClientModel.wire) :=
  sys_run toy_aead toy_idt al_own (fst (sys_run toy_aead toy_idt al_own y (sequential (OnboardSpec.an_before (al_around []))))) (one_request (owner_request (al_around []) w) NoFault).
Fixpoint al_oback (r : list devent) : sys (W:=dir) (D:=owdata) :=
  match r with
  | [] => sys_init t1000 al_dir
  | TWire u w :: r => if bytes_eqb u al_ourl then fst (al_ostep (al_oback r) w) else al_oback r
  | _ :: r => al_oback r
  end.
Definition al_oat (h : list devent) := al_oback (rev h).
Section al_server.
Context (w0 : dir) (now : N).
Definition al_rsurr (h : list devent) : surround dir rvenv := Surround [STick (5 * SES_SEC); SMaint] (fun _ => RvEnv now n4 IoOk) [6] [6] [].
Definition al_rstep (y : sys (W:=dir) (D:=rvdata)) (w : HttpClientModel.wire) :=
  sys_run toy_aead toy_idt al_rvs (fst (sys_run toy_aead toy_idt al_rvs y (sequential (su_before (al_rsurr []))))) (one_request (su_request (al_rsurr []) w) NoFault).
Fixpoint al_rback (r : list devent) : sys (W:=dir) (D:=rvdata) :=
  match r with
  | [] => sys_init now w0
  | TWire u w :: r => if bytes_eqb u al_rurl then fst (al_rstep (al_rback r) w) else al_rback r
  | _ :: r => al_rback r
  end.
Definition al_rat (h : list devent) := al_rback (rev h).
Definition al_resp (ow : bool) (h : list devent) : option hresponse :=
  match rev h with
  | TWire u w :: r => if bytes_eqb u al_rurl then to_hresponse true (last (replies_of (snd (al_rstep (al_rback r) w))) Dropped) []
                      else if ow && bytes_eqb u al_ourl then to_hresponse true (last (responses (snd (al_ostep (al_oback r) w))) Dropped) [] else None
  | _ => None
  end.
Definition al_world (ow : bool) : world := World (al_resp ow) (wo_fx ob_world) (wo_io ob_world) (wo_rand ob_world) (wo_kex ob_world) (wo_release ob_world) (wo_arch ob_world) (wo_mods ob_world).
Lemma al_reached ow : reached toy_aead toy_idt al_rvs true (al_world ow) al_rurl al_rsurr al_rat.
Proof.
  constructor.
  - intros h w. unfold al_rat. rewrite rev_unit. cbn [al_rback]. rewrite bytes_eqb_refl. split; [reflexivity|]. cbn [wo_resp al_world]. unfold al_resp. rewrite rev_unit, bytes_eqb_refl. reflexivity.
  - intros h e N. unfold al_rat. rewrite rev_unit. cbn [al_rback]. destruct e as [u w| | | | |]; try reflexivity. destruct (bytes_eqb u al_rurl) eqn:E; [|reflexivity].
    apply bytes_eqb_spec in E. subst u. exfalso. exact (N w eq_refl).
Qed.
Lemma al_undisturbed fair holds h : undisturbed toy_aead toy_idt al_rvs fair [6] holds (su_before (al_rsurr h)).
Proof. split; [vm_compute; discriminate|]. repeat constructor. Qed.
Lemma al_ready until h : now <= until -> rv_ready toy_idt until (al_rsurr h).
Proof.
  intros LE. constructor; cbn [al_rsurr su_env su_token su_id e_now].
  - intros _. exists n4. split; [reflexivity|]. apply b16; reflexivity.
  - intros _. exact LE.
  - reflexivity.
  - split; [|reflexivity]. intros [H|[]]. discriminate.
Qed.
Lemma al_served : served toy_aead toy_idt al_own true (al_world true) al_ourl al_around al_oat.
Proof.
  constructor.
  - intros h w. unfold al_oat. rewrite rev_unit. cbn [al_oback]. rewrite bytes_eqb_refl. split; [reflexivity|]. cbn [wo_resp al_world]. unfold al_resp. rewrite rev_unit.
    change (bytes_eqb al_ourl al_rurl) with false. rewrite bytes_eqb_refl. reflexivity.
  - intros h e N. unfold al_oat. rewrite rev_unit. cbn [al_oback]. destruct e as [u w| | | | |]; try reflexivity. destruct (bytes_eqb u al_ourl) eqn:E; [|reflexivity].
    apply bytes_eqb_spec in E. subst u. exfalso. exact (N w eq_refl).
Qed.
Lemma al_device_ready : device_ready toy_kex (al_world true).
Proof. destruct ob_device_ready. constructor; assumption. Qed.
Lemma al_dead ow port : port = 8081 \/ port = 8082 -> dead (al_world ow) (AioSpec.url ai_show port al_first).
Proof.
  intros P h w. cbn [wo_resp al_world]. unfold al_resp. rewrite rev_unit.
  assert (E : bytes_eqb (AioSpec.url ai_show port al_first) al_rurl = false /\ bytes_eqb (AioSpec.url ai_show port al_first) al_ourl = false) by (destruct P as [-> | ->]; split; reflexivity).
  destruct E as (-> & ->). rewrite andb_false_r. reflexivity.
Qed.
End al_server.
Lemma al_quiet holds h : OnboardSpec.quiet toy_idt [5] holds (OnboardSpec.an_before (al_around h)).
Proof. split; [vm_compute; discriminate|]. repeat constructor. Qed.
Lemma al_owner_ready h : owner_ready toy_kex toy_idt (al_around h).
Proof.
  constructor; cbn [al_around an_nonce an_kex an_guid an_token an_id]; [apply b16; reflexivity|apply ob_kex_ok; reflexivity|apply b16; reflexivity|].
  split; [|reflexivity]. intros [H|[]]. discriminate.
Qed.
Definition al_report := to0_report toy_aead toy true true ai_show (al_world [] t100 false) al_tcf al_voucher tc_start.
Definition al_rdir : dir := y_world (fst (sys_run toy_aead toy_idt al_rvs (al_rat [] t100 (s_hist (fst al_report))) (sequential lf_between))).
Definition al_main := main toy_aead toy true toy_kex true ai_show None (al_world al_rdir lf_now true) false (fo_disk al_dc) 1.
Lemma al_apart holds : Forall (apart toy_aead toy_idt al_rvs (of_others toy true key_toy lf_until) [6] holds) lf_between.
Proof.
  repeat constructor; cbn [lf_asks rq_new_id rq_auth rq_env e_now].
  - discriminate.
  - discriminate.
  - vm_compute. discriminate.
  - destruct m as [|o|o|t]; try exact Logic.I. exfalso. revert H. unfold parse_request. cbn [lf_asks rq_body]. change (enc _) with lf_body. destruct (negb _); [discriminate|].
    destruct (enc_violated (enc_req im) (ek_is_some (SessionModel.keys_of s))) eqn:EV; [discriminate|]. unfold ek_decrypt. cbn [al_rvs rv_server sv_parse].
    destruct im; try (destruct (match ek_suite (SessionModel.keys_of s) with Some _ => _ | None => _ end); [|discriminate|discriminate]; unfold rv_parse; cbn [map_err]; try discriminate;
      match goal with |- context [map_err _ (let! _ := ?x in _)] => destruct x; discriminate end).
    cbn [enc_req enc_violated] in EV. unfold ek_is_some in EV. destruct (ek_suite (SessionModel.keys_of s)).
    + destruct (ek_keys (SessionModel.keys_of s)); discriminate.
    + assert (RP : forall o, rv_parse true TO0OwnerSign lf_body <> Ok (MOwnerSign o)) by exact lf_not_sign. destruct (rv_parse true TO0OwnerSign lf_body) as [m| |]; intros X; inversion X; subst. exact (RP _ eq_refl).
Qed.
Lemma al_bytes : bytes_ok al_data /\ nlen al_data < 2 ^ 32.
Proof. split; [apply bytes_okb; vm_compute; reflexivity|vm_compute; reflexivity]. Qed.
Lemma al_kf : kf_type kf_toy (c_pub toy (ks_sk (dc_keys al_dc))) <> None. Proof. vm_compute. discriminate. Qed.
Lemma al_alive : ~ dead (al_world [] t100 false) al_rurl.
Proof. intros D. specialize (D [] (Wire 20 None false [128])). vm_compute in D. discriminate. Qed.
Lemma al_alive1 : ~ dead (al_world al_rdir lf_now true) al_rurl.
Proof. intros D. specialize (D [] (Wire 20 None false [128])). vm_compute in D. discriminate. Qed.
Lemma al_alive2 : ~ dead (al_world al_rdir lf_now true) al_ourl.
Proof. intros D. specialize (D [] (Wire 60 None false [])). vm_compute in D. discriminate. Qed.
Lemma al_fits1 : fits (s_hist (fst al_report)). Proof. apply ob_fits_b. vm_compute. reflexivity. Qed.
Lemma al_fits2 : fits (fst al_main). Proof. apply ob_fits_b. vm_compute. reflexivity. Qed.
Lemma al_bound : lf_now / second + N.min (tc_period al_tcf) (cf_max al_rcf) < 2 ^ 63. Proof. vm_compute. reflexivity. Qed.
Lemma al_after s' o : al_report = (s', o) -> y_world (al_rat al_rdir lf_now []) = y_world (fst (sys_run toy_aead toy_idt al_rvs (al_rat [] t100 (s_hist s')) (sequential lf_between))).
Proof. intros E. cbn [al_rat rev al_rback sys_init y_world]. unfold al_rdir. rewrite E. reflexivity. Qed.
Lemma al_sizes mods l : list_of_reply (make_reply al_sc (no_pd ex_guid) mods) = Some l -> nlen (enc (silist_val l)) < 2 ^ 64.
Proof.
  unfold make_reply, when. destruct (existsb (simod_eqb SSHKey) mods), (existsb (simod_eqb BinaryFile) mods), (existsb (simod_eqb Command) mods), (existsb (simod_eqb DiskEncryption) mods), (existsb (simod_eqb Reboot) mods);
    intros E; vm_compute in E; injection E as <-; vm_compute; reflexivity.
Qed.
Lemma al_writable : writable toy al_pub2. Proof. split; [apply ex_key_valid; lia|vm_compute; reflexivity]. Qed.
Lemma al_before : t100 <= lf_now. Proof. vm_compute. discriminate. Qed.
Lemma al_no_user x : match no_pd ex_guid with Some x => x | None => None end = Some x -> user_fine x. Proof. discriminate. Qed.
Lemma al_at_start v : dir_holds (voucher_codec toy true) key_toy v al_dir -> dir_holds (voucher_codec toy true) key_toy v (y_world (al_oat [])).
Proof. exact (fun H => H). Qed.
Example C100_case : snd al_made = Initialised /\ snd al_report = Ok 600 /\
  exists h l1 w30 w32 l2 l es, al_main = (h, Onboarded false) /\
  h = l1 ++ TWire al_rurl w30 :: TWire al_rurl w32 :: l2 ++ l /\ Forall (to_dead (al_world al_rdir lf_now true)) l1 /\ wr_type w30 = 30 /\ wr_type w32 = 32 /\ Forall (to_dead (al_world al_rdir lf_now true)) l2 /\
  session_of al_ourl 1 es DeactivateIt l /\ configured None (Settings None None None None None (Some false)) None [DevMod; SSHKey; BinaryFile; Command; Reboot; DiskEncryption] es /\ dir_marked (y_world (al_oat h)) key_toy.
Proof.
  destruct (C100_life toy kf_toy ai_show ai_parse ai_key mk_toy al_history None ai_draws Complete al_files al_read true [8] al_pub2 al_up
    ai_texts ai_keys ai_issues kf_toy_ok toy_outputs_ok (or_introl eq_refl) al_history_ok ai_draws_ok al_runs al_started ltac:(discriminate) al_writable)
    as (command & o & dr' & e' & contacts & I' & CO & CT & NX).
  pose proof (al_contacts _ _ _ _ _ I' CO CT) as EC. clear I' CO CT command o dr' e'. subst contacts. cbv zeta in NX.
  cbn [al_up sv_mfg sv_own sv_rv sv_api mu_conf ou_conf ou_to0 ru_conf ru_bind ou_bind au_tokens ou_auth au_info al_at ls_port] in NX.
  destruct (NX toy_aead toy_idt true toy_kex true mcl_der al_mworld mcl_newkey al_murl al_surr al_mat [5] ex_guid key_toy fa_pubs NoCred mcl_plain mcl_info (txt "serial")
    toy_roundtrip ob_seals (P_Servers.toy_seals_derived toy_kex) toy_sign_correct fa_hmac toy_sizes toy_curve_laws ob_kex_works mk_toy_ok
    al_mreached (fun h => al_mundisturbed _ h) al_mready (fun h => eq_refl) eq_refl fa_guid fa_guid_ok al_mfree (or_introl eq_refl) al_set_up al_info al_new al_mfits)
    as (h & data & dc & v & E & FS & CR & ST & ON). clear NX.
  change (al_made = (h, Initialised)) in E. split; [rewrite E; reflexivity|]. assert (H : fst al_made = h) by (rewrite E; reflexivity).
  pose proof (al_data_is h data H FS) as DA.
  assert (DC : dc = al_dc) by (unfold al_dc; rewrite DA, CR; reflexivity). clear E FS CR DA. rewrite DC in ON. clear DC.
  rewrite <- H in ST. clear H. destruct (al_reads v ST) as [RD VV]. rewrite VV in *. clear VV.
  destruct (ON toy_idt al_data true true (al_world [] t100 false) (al_rsurr t100) (al_rat [] t100) [6] lf_now tc_start [al_first] al_second [] al_bytes RD al_kf
    (al_reached _ _ _) (al_undisturbed _ _ _) (fun h => al_ready t100 lf_now h al_before) (fun h => eq_refl) al_bound eq_refl eq_refl (Forall_cons _ (al_dead _ _ _ _ (or_intror eq_refl)) (Forall_nil _)) al_alive al_fits1)
    as (s' & l & w20 & w22 & it & TE & TH & TF & T20 & T22 & GO). clear ON.
  change (al_report = (s', Ok 600)) in TE. split; [rewrite TE; reflexivity|].
  exact (GO lf_between lf_until toy_idt (al_world al_rdir lf_now true) false None 0%nat true (al_rsurr lf_now) (al_rat al_rdir lf_now) [6] al_around al_oat [5] (fo_disk al_dc) no_pd
    [al_first] al_second [] [al_first] al_second []
    (N.le_refl _) (al_apart _) (al_after s' _ TE) eq_refl (al_reached _ _ _) (fun h => al_undisturbed _ _ _ h) (fun h => al_ready lf_now lf_until h lf_in_time) (fun h => eq_refl)
    (al_served _ _) (fun h => al_quiet _ h) al_owner_ready (fun h => eq_refl) (al_at_start al_voucher ST) eq_refl (fun h mods => eq_refl) al_no_user al_sizes eq_refl eq_refl eq_refl
    eq_refl (Forall_cons _ (al_dead _ _ _ _ (or_intror eq_refl)) (Forall_nil _)) al_alive1 eq_refl (Forall_cons _ (al_dead _ _ _ _ (or_introl eq_refl)) (Forall_nil _)) al_alive2 (al_device_ready _ _) al_fits2).
Qed.
