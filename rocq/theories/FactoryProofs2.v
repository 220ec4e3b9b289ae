(** Lemmas: the phases of an initialisation. *)
From Verif Require Import Base BaseFacts CborModel CborProofs ValueModel ValueProofs Text Assoc Hex TypesModel CryptoSpec TypesProofs VoucherModel VoucherSpec VoucherProofs VoucherProofs2 KexModel KexSpec KexProofs RvModel StoreModel StoreSpec StoreProofs Backend
  MsgModel SessionModel SessionSpec HttpClientModel HttpClientSpec RvServerModel RvServerSpec SiModel DevSiModel OwnerModel MfgModel MfgSpec MfgProofs ClientModel ClientSpec ClientProofs MfgClientModel MfgClientSpec MfgClientProofs MfgClientProofs2
  To0Accept OnboardSpec OnboardProofs2 OnboardProofs3 ServeSpec ServeProofs FactorySpec FactoryProofs.
From Verif Require P_Servers P_Types P_Honest CoseFacts.
From Coq Require Import ZifyBool ZifyNat ZifyN.
Local Open Scope N_scope.
Set Default Proof Using "Type".
Local Opaque dec_top from_slice any_value.

(** * DIUN *)
Lemma accept_read pub : bytes_ok pub -> nlen pub <= 65536 ->
  bytes_ok (enc (VArr [vecu8_val pub])) /\ nlen (enc (VArr [vecu8_val pub])) < 2305843009213693952 /\ from_slice as_acceptpayload (enc (VArr [vecu8_val pub])) = Ok pub.
Proof.
  intros B L. assert (V : vok 3 (VArr [vecu8_val pub])).
  { apply vok_arr; [unfold two64, nlen; cbn [length]; lia|]. constructor; [|constructor]. apply vok_vecu8; [exact B|unfold two64; lia]. }
  split; [eapply enc_bytes_ok; exact V|]. split.
  - unfold vecu8_val. cbn [enc map concat]. rewrite app_nil_r, nlen_app. pose proof (enc_head_nlen 4 (nlen [VArr (map (fun x => VInt (Z.of_N x)) pub)])). rewrite nlen_app.
    pose proof (enc_head_nlen 4 (nlen (map (fun x => VInt (Z.of_N x)) pub))).
    assert (nlen (concat (map enc (map (fun x => VInt (Z.of_N x)) pub))) <= 9 * nlen pub); [|lia].
    clear. induction pub as [|x l IH]; [vm_compute; discriminate|]. cbn [map concat]. rewrite nlen_app. pose proof (enc_int_nlen (Z.of_N x)) as X. cbn [enc] in *. assert (nlen (x :: l) = 1 + nlen l) as -> by (unfold nlen; cbn [length]; lia). lia.
  - rewrite from_slice_enc by (eapply vok_mono; [exact V|unfold MAX_DEPTH; lia]). unfold as_acceptpayload. cbn [as_fields untag]. rewrite as_vecu8_val by exact B. reflexivity.
Qed.
Lemma connect_progress c chk ko cf dn m e nonce kD pubD avD :
  outputs_ok c -> sign_correct c -> curve_laws ko -> kex_works ko -> good_diun c m dn -> kex_ok ko (me_kex e Ecdh384) -> kex_ok ko (Some kD) -> get_public ko kD = Ok pubD ->
  nonce_ok nonce -> me_kdf e = kdf_header avD ->
  exists raw b tok pubO, connect_reply c chk ko cf dn (DiunConnect nonce Ecdh384 A256Gcm pubD) e = Ok (from_derived 3 (Combined raw), b) /\
    cose_deserialize chk b = Ok tok /\ check_accept c m nonce tok = Ok pubO /\ derive_key ko avD KDevice A256Gcm kD pubO (negb (mf_kdf_avail cf)) = Ok raw.
Proof.
  intros HO HS CL KW [(ch & leaf & PC & TR & CK & LN) AL WP _ _ _] KO KD GD NB KH. pose proof KO as (key & r & EK & _). set (kO := Ecdh Ecdh384 key r) in *. rewrite EK in KO.
  destruct (public_ok ko kO CL KO) as (pubO & GO & PB & PL). destruct (derives ko kD kO pubD pubO avD (mf_kdf_avail cf) CL KW KD KO GD GO) as (raw & D1 & D2).
  destruct (accept_read pubO PB PL) as (AB & AS & AV).
  set (u := [(VInt CUPH_OWNERPUBKEY, pubkey_val (dn_pub dn))]). destruct (pubkey_vok c 2 _ WP) as (VP & PP & LP).
  assert (VU : vok (S D99) (VMap u)).
  { apply vok_mono with (d := 5%nat); [|]. 2:{ apply Nat.leb_le. vm_compute. reflexivity. }
    apply vok_map; [unfold two64, nlen, u; cbn [length]; lia|]. constructor; [|constructor]. cbn [fst snd]. split; [vint|exact VP]. }
  destruct (cose_new_prot c chk (enc (VArr [vecu8_val pubO])) nonce u (dn_sk dn) (me_rnd e) HO HS AL NB AB AS VU) as (tok & b & CN & CS & CD & CP & CU & SG & GP).
  { unfold u. cbn [plain]. reflexivity. }
  { unfold u. cbn [enc map concat fst snd]. rewrite app_nil_r, !nlen_app. pose proof (enc_head_nlen 5 (nlen [(VInt CUPH_OWNERPUBKEY, pubkey_val (dn_pub dn))])). pose proof (enc_int_nlen CUPH_OWNERPUBKEY). cbn [enc] in *. unfold bytes in *. lia. }
  exists raw, b, tok, pubO. split; [|split; [exact CD|split; [|exact D1]]].
  - unfold connect_reply. cbn [dc_kex dc_cipher dc_exchange dc_nonce]. rewrite EK. cbn [of_option bind]. rewrite KH, D2. cbn [bind]. rewrite GO. cbn [bind]. fold u. rewrite CN. cbn [bind]. rewrite CS. reflexivity.
  - unfold check_accept, cose_get_unprotected. rewrite CU. change (hdr_get CUPH_OWNERPUBKEY u) with (Some (pubkey_val (dn_pub dn))). cbv beta iota. rewrite as_pubkey_val by apply WP. cbn [of_option bind].
    rewrite PC. cbn [of_option bind]. rewrite (trusted_verifies c m ch leaf TR LN). cbn [bind]. rewrite CK. cbn [of_option bind]. rewrite GP. cbn [bind of_option].
    rewrite (proj2 (CoseFacts.nonce_eq_ok nonce nonce) eq_refl). cbn [bind negb]. apply P_Honest.signed_get; [exact SG|]. rewrite CP. exact AV.
Qed.
Lemma first_new_progress newkey kt s stg : kt = 10 \/ kt = 11 -> forall l, In stg l -> newkey (s_hist s) kt stg <> None ->
  exists stg secret sk, In stg l /\ newkey (s_hist s) kt stg = Some (secret, sk) /\
    first_new newkey kt l s = (s, Ok (if stg =? 0 then Plain secret sk else Tpm (if kt =? 10 then Sha256 else Sha384) secret sk)).
Proof.
  intros K. induction l as [|x l IH]; [intros []|]. intros I N. cbn [first_new]. unfold dbind at 1, new_in at 1.
  assert ((kt =? 10) || (kt =? 11) = true) as -> by lia.
  destruct (newkey (s_hist s) kt x) as [[a b]|] eqn:NK.
  - exists x, a, b. split; [left; reflexivity|]. split; [exact NK|]. reflexivity.
  - destruct I as [-> | I]; [congruence|]. destruct (IH I N) as (g & a & b & I' & N' & E). exists g, a, b. split; [right; exact I'|]. split; [exact N'|exact E].
Qed.
Definition allowed_of (l : list N) : option (list N) := match l with [] => None | _ => Some l end.
Lemma new_key_progress newkey kt stgs s : kt = 10 \/ kt = 11 -> (exists stg, In stg (where_to stgs) /\ forall h, newkey h kt stg <> None) ->
  exists stg secret sk, In stg (where_to stgs) /\ newkey (s_hist s) kt stg = Some (secret, sk) /\
    get_new_key newkey kt (allowed_of stgs) s = (s, Ok (if stg =? 0 then Plain secret sk else Tpm (if kt =? 10 then Sha256 else Sha384) secret sk)).
Proof.
  intros K (stg & I & N). destruct (first_new_progress newkey kt s stg K _ I (N _)) as (g & a & b & R). exists g, a, b. destruct stgs; exact R.
Qed.

(** * DI *)
Lemma make_hmac_progress c k data : hmac_sizes c -> keys_ok k -> exists hmac, make_hmac c k data = Ok hmac /\ perform_hmac c k data (h_type hmac) = Ok hmac /\ bytes_ok (h_value hmac) /\ nlen (h_value hmac) <= 512.
Proof.
  intros HZ KO. destruct k as [s sk|t s sk]; unfold make_hmac, perform_hmac.
  - destruct (HZ Sha384 s data (or_intror eq_refl)) as [B L]. exists (Hash HmacSha384 (c_hmac c Sha384 s data)). unfold hash_from_digest. cbn [h_type inner_hash]. rewrite L. cbn [digest_size]. change (negb (48 =? 48)) with false.
    cbv iota. split; [reflexivity|]. split; [reflexivity|]. cbn [h_value]. rewrite L. split; [exact B|]. vm_compute. discriminate.
  - destruct KO as [DG _]. rewrite DG. assert (T : t = Sha256 \/ t = Sha384) by (destruct t; auto; discriminate DG). destruct (HZ t s data T) as [B L]. exists (Hash t (c_hmac c t s data)).
    unfold hash_from_digest. rewrite L, N.eqb_refl. cbn [negb h_type h_value]. split; [reflexivity|]. split; [reflexivity|]. rewrite L. split; [exact B|]. destruct t; vm_compute; discriminate.
Qed.
Lemma key_hash c chk hb h : bytes_ok hb -> nlen hb < 4294967296 -> header_deserialize c chk hb = Ok h -> outputs_ok c ->
  exists kraw kh, mfg_key_hash c h Sha384 = Ok kh /\ nth_error (pa_items (hd_contents h)) 4 = Some kraw /\ digest_of c kh kraw /\ bytes_ok (h_value kh) /\ nlen (h_value kh) < two64.
Proof.
  intros B L H (OH & _). apply header_deserialize_ok in H. destruct H as (P & _ & _ & _ & _ & _ & G4 & _). apply get_ok in G4. destruct G4 as (kraw & N4 & _).
  unfold mfg_key_hash, get_hash, get_raw. rewrite N4. cbn [of_option map_err bind]. unfold hash_from_data. cbn [digestible]. exists kraw, (Hash Sha384 (c_hash c Sha384 kraw)). split; [reflexivity|]. split; [reflexivity|].
  destruct (OH Sha384 kraw) as [O1 O2]. split; [split; [right; reflexivity|reflexivity]|]. cbn [h_value]. split; [exact O1|]. unfold two64. lia.
Qed.

Section factory.
Context (A : aead) (AR : aead_roundtrip A) (SLG : seal_longer A) (idt : str -> option str) (c : crypto) (HO : outputs_ok c) (HS : sign_correct c) (HZ : hmac_sizes c) (chk : bool)
  (ko : kex_ops) (CL : curve_laws ko) (KW : kex_works ko) (SDV : P_Servers.seals_derived ko A) (kf : keyfns) (HK : keyfns_ok c kf)
  (mkcert : bytes -> bytes -> str -> bytes -> bytes -> option bytes) (HC : certifies c mkcert) (cf : mfconf) (CI : can_issue c kf cf)
  {W : Type} (be : backend voucher W) (free : W -> str -> Prop) (stored : W -> str -> voucher -> Prop) (SH : shelf be (voucher_codec c chk) free stored)
  (avail : bool) (to_der : bytes -> bytes) (wo : world) (newkey : list devent -> N -> N -> option (bytes * bytes)) (url : str)
  (surr : list devent -> surround W mfenv) (at_ : list devent -> sys (W:=W) (D:=mfdata))
  (SD : reached A idt (mf_server c chk ko kf mkcert cf be) (mf_kdf_avail cf) wo url surr at_)
  (id : str) (QU : forall h, undisturbed A idt (mf_server c chk ko kf mkcert cf be) (fun _ _ => True) id (fun _ => True) (su_before (surr h)))
  (g : bytes) (k : str) (pubs : str -> outcome unit (option bytes)) (MR : forall h, mf_ready ko idt g pubs (surr h)) (GT : guid_text g = Some k) (GOK : nonce_ok g)
  (FREE : forall h, unsent h -> free (y_world (fst (sys_run A idt (mf_server c chk ko kf mkcert cf be) (at_ h) (sequential (su_before (surr h)))))) k)
  (ND : new_device ko wo).
Notation sv := (mf_server c chk ko kf mkcert cf be).
Notation syn := (ServeProofs.synced A idt (fun _ => True) (mf_kdf_avail cf) url at_ id).
Notation start := (ServeProofs.starting idt (fun _ => True) url surr at_ id).
Notation askW := (ask A avail wo).
Definition KPT : forall im w (s : session mfdata) m e (w' : W) r, (fun (_ : mfmsg) (_ : mfenv) => True) m e -> (fun _ : W => True) w -> sv_handle sv im w s m e = (w', r) -> (fun _ : W => True) w' := fun _ _ _ _ _ _ _ _ _ _ => Logic.I.
Lemma env_of h : exists e, me_guid e = g /\ me_pubkeys e = pubs /\ me_fault e = IoOk /\ me_kdf e = kdf_header avail /\ kex_ok ko (me_kex e Ecdh384) /\ forall wm, wr_kdf wm = negb avail -> su_env (surr h) wm = e.
Proof using MR.
  destruct (MR h) as [(now & kx & rnd & cert & KX & E) _]. exists (MfEnv now g kx rnd cert (kdf_header avail) pubs IoOk). cbn [me_guid me_pubkeys me_fault me_kdf me_kex]. do 4 (split; [reflexivity|]). split; [exact KX|].
  intros wm K. rewrite E, K. reflexivity.
Qed.
Lemma syn_rest' s ses e : syn s ses -> (forall w, e <> TWire url w) -> syn (St (s_hist s ++ [e]) (s_url s) (s_hc s)) ses.
Proof using SD.
  intros SY N. pose proof (rc_rest _ _ _ _ _ _ _ _ SD (s_hist s) e N) as E.
  destruct SY as [S1 S2 S3 S4 S5 S6 S7 S8 S9]. constructor; cbn [s_hist s_url s_hc]; rewrite ?E; assumption.
Qed.
(** One exchange whose answer does not depend on the store *)
Lemma step_served om sm pt new s ses m d reply : syn s ses \/ start s /\ ses = Ses None None mf_new ->
  valid_prev om (hc_last (s_hc s)) = true -> valid_prev sm (Some om) = true ->
  enc_violated (enc_req om) (ek_is_some (hc_keys (s_hc s))) = false ->
  enc_violated (enc_req sm) (ek_is_some (hc_keys (s_hc s)) || match new with Some _ => true | None => false end) = false ->
  route sv (mtype_num om) = Some (om, sm) -> mf_parse om pt = Ok m ->
  (forall e w, me_guid e = g -> me_pubkeys e = pubs -> (forall wm, wr_kdf wm = negb avail -> su_env (surr (s_hist s)) wm = e) -> mf_handle c chk ko kf mkcert cf be om w ses m e = (w, HReply d new reply)) ->
  match new with Some k => usable A k | None => True end ->
  fits (s_hist (fst (askW om sm (Ok pt) new s))) ->
  exists s' w, askW om sm (Ok pt) new s = (s', Ok reply) /\ s_hist s' = s_hist s ++ [TWire url w] /\ wr_type w = mtype_num om /\
    hc_keys (s_hc s') = match new with Some k => k | None => hc_keys (s_hc s) end /\ hc_last (s_hc s') = Some sm /\
    syn s' (Ses (Some sm) (match new with Some _ => new | None => ses_keys ses end) d).
Proof using AR SLG SD QU MR.
  intros SRC V1 V2 E1 E2 RT PA HD NK FT. destruct (env_of (s_hist s)) as (e & EG & EP & _ & _ & _ & EE).
  destruct (ServeProofs.ask_served A AR SLG idt sv (fun _ _ => True) (fun _ => True) KPT avail (mf_kdf_avail cf) wo url surr at_ SD id QU om sm pt new s ses m d reply (fun _ => True)) as (s1 & w & R1 & R2 & R3 & R4 & R5 & R6 & _); auto.
  - intros wm w KW' _. exists w. rewrite (EE wm KW'). split; [exact (HD e w EG EP EE)|auto].
  - exists s1, w. auto 10.
Qed.

(** ** DIUN *)
Lemma diun_phase m dn mi info s : start s -> mf_diun cf = Some dn -> good_diun c m dn -> get_info mi (dn_string dn) = Ok info ->
  (exists stg, In stg (where_to (dn_storage dn)) /\ forall h, newkey h (dn_key_type dn) stg <> None) ->
  (forall h stg secret sk, newkey h (dn_key_type dn) stg = Some (secret, sk) ->
     good_key c mkcert cf info secret sk /\ key_bytes (to_der (c_pub c sk)) /\ c_key_of_der c (to_der (c_pub c sk)) = Some (c_pub c sk)) ->
  fits (s_hist (fst (perform_diun A c chk ko avail to_der wo newkey m s))) ->
  exists s' w210 w212 w214 h stg secret sk keys ks,
    In stg (where_to (dn_storage dn)) /\ newkey h (dn_key_type dn) stg = Some (secret, sk) /\
    ks = (if stg =? 0 then Plain secret sk else Tpm (if dn_key_type dn =? 10 then Sha256 else Sha384) secret sk) /\
    perform_diun A c chk ko avail to_der wo newkey m s = (s', Ok (ks, dn_string dn)) /\
    s_hist s' = s_hist s ++ [TWire url w210; TWire url w212; TWire url w214] /\ wr_type w210 = 210 /\ wr_type w212 = 212 /\ wr_type w214 = 214 /\
    ek_is_some (hc_keys (s_hc s')) = true /\ hc_last (s_hc s') = Some DIUNDone /\ syn s' (Ses (Some DIUNDone) keys (MfData None (Some (to_der (c_pub c sk))) true None None)).
Proof using AR SLG HO HS CL KW SDV SD QU MR ND.
  intros ST DN GD GI NK GK FT. pose proof (ServeProofs.sg_new _ _ _ _ _ _ _ ST) as HCN. unfold perform_diun in *.
  set (nonce := wo_rand wo (s_hist s) 0) in *. pose proof (nd_rand _ _ ND (s_hist s) : nonce_ok nonce) as NB.
  pose proof (nd_kex _ _ ND (s_hist s)) as KD. destruct (wo_kex wo (s_hist s) Ecdh384) as [kD|] eqn:EK; [|destruct KD as (? & ? & X & _); discriminate X].
  destruct (public_ok ko kD CL KD) as (pubD & PD & PB & PL).
  rewrite (dbind_step (draw wo 0) _ s s nonce) in FT |- * by reflexivity.
  match type of FT with context [dbind (fun s0 => lift _ s0) ?f s] => rewrite (dbind_step _ f s s kD) in FT |- * by (rewrite EK; reflexivity) end.
  rewrite (dbind_step (lift (get_public ko kD)) _ s s pubD) in FT |- * by (unfold lift; rewrite PD; reflexivity).
  destruct (env_of (s_hist s)) as (e & EG & EP & EF & EKD & KX & EE).
  destruct (connect_progress c chk ko cf dn m e nonce kD pubD avail HO HS CL KW GD KX KD PD NB EKD) as (raw & b & tok & pubO & CR & CD & CA & DK).
  pose proof (P_Servers.connect_reply_keys _ _ _ _ _ _ _ _ _ A SDV CR) as US. set (keys := from_derived 3 (Combined raw)) in *.
  assert (GR : forall (b : bytes), growing (do! tok := lift (cose_deserialize chk b) in do! nonint := (fun s => lift (of_option tt (hc_kdf (s_hc s))) s) in do! other := lift (check_accept c m nonce tok) in
    do! raw := lift (derive_key ko avail KDevice A256Gcm kD other nonint) in do! b := askW DIUNRequestKeyParameters DIUNProvideKeyParameters (Ok (enc (VArr [VNull]))) (Some (from_derived (Z.to_N (cipher_num A256Gcm)) (Combined raw))) in
    do! (kt, allowed) := lift (from_slice as_keyparams b) in do! key := get_new_key newkey kt allowed in do! b := askW DIUNProvideKey DIUNDone (Ok (enc (VArr [vecu8_val (public_der c to_der key); VInt (Z.of_N (storage_of key))]))) None in
    do! stype := lift (from_slice as_diundone b) in ret (key, stype))).
  { intros b0. apply growing_dbind; [apply growing_lift|]. intros t. apply growing_dbind; [intros x; exists []; rewrite app_nil_r; reflexivity|]. intros ni. apply growing_dbind; [apply growing_lift|]. intros o.
    apply growing_dbind; [apply growing_lift|]. intros rw. apply growing_dbind; [apply growing_ask|]. intros b1. apply growing_dbind; [apply growing_lift|]. intros [kt al]. apply growing_dbind; [eapply emits_growing; apply (emits_new_key newkey (fun _ => True))|].
    intros key. apply growing_dbind; [apply growing_ask|]. intros b2. apply growing_dbind; [apply growing_lift|]. intros sty. apply growing_ret. }
  match type of FT with context [dbind ?m ?f s] => pose proof (fits_first m f s GR FT) as F1 end.
  destruct (step_served DIUNConnect DIUNAccept (enc (VArr [bstr_val nonce; text_val (kexsuite_name Ecdh384); VInt (cipher_num A256Gcm); vecu8_val pubD])) None s (Ses None None mf_new)
    (MConnect (DiunConnect nonce Ecdh384 A256Gcm pubD)) (MfData (Some keys) None false None None) b) as (s1 & w1 & A1 & H1 & T1 & K1 & L1 & Y1).
  { right. split; [exact ST|reflexivity]. } { rewrite HCN. reflexivity. } { reflexivity. } { rewrite HCN. reflexivity. } { rewrite HCN. reflexivity. } { reflexivity. }
  { unfold mf_parse. rewrite (connect_read nonce pubD NB PB PL). reflexivity. }
  { intros e' w _ _ E'. assert (e' = e) as ->. { rewrite <- (E' (Wire 0 None (negb avail) []) eq_refl). apply EE. reflexivity. }
    cbn [mf_handle]. unfold h_connect. rewrite DN, CR. reflexivity. }
  { exact Logic.I. } { exact F1. }
  pose proof (fits_then _ _ _ _ _ A1 FT) as FT2. rewrite (dbind_step _ _ _ _ _ A1). clear FT F1. cbv beta in FT2 |- *.
  rewrite (dbind_step (lift (cose_deserialize chk b)) _ s1 s1 tok) in FT2 |- * by (unfold lift; rewrite CD; reflexivity).
  match type of FT2 with context [dbind (fun s0 => lift _ s0) ?f s1] => rewrite (dbind_step _ f s1 s1 (negb (mf_kdf_avail cf))) in FT2 |- * by (rewrite (ServeProofs.sy_kdf _ _ _ _ _ _ _ _ _ Y1); reflexivity) end.
  rewrite (dbind_step (lift (check_accept c m nonce tok)) _ s1 s1 pubO) in FT2 |- * by (unfold lift; rewrite CA; reflexivity).
  rewrite (dbind_step (lift (derive_key ko avail KDevice A256Gcm kD pubO (negb (mf_kdf_avail cf)))) _ s1 s1 raw) in FT2 |- * by (unfold lift; rewrite DK; reflexivity).
  change (from_derived (Z.to_N (cipher_num A256Gcm)) (Combined raw)) with keys in FT2 |- *.
  rewrite HCN in K1. cbn [hc_keys client_new] in K1.
  set (st := dn_storage dn) in *. set (kt := dn_key_type dn) in *.
  match type of FT2 with context [dbind ?m ?f s1] => assert (GR2 : forall a, growing (f a)) end.
  { intros b1. apply growing_dbind; [apply growing_lift|]. intros [kt' al]. apply growing_dbind; [eapply emits_growing; apply (emits_new_key newkey (fun _ => True))|].
    intros key. apply growing_dbind; [apply growing_ask|]. intros b2. apply growing_dbind; [apply growing_lift|]. intros sty. apply growing_ret. }
  pose proof (fits_first _ _ s1 GR2 FT2) as F2.
  destruct (step_served DIUNRequestKeyParameters DIUNProvideKeyParameters (enc (VArr [VNull])) (Some keys) s1 (Ses (Some DIUNAccept) None (MfData (Some keys) None false None None))
    (MRequestParams None) (MfData None None false None None) (enc (VArr [VInt (Z.of_N kt); storages st]))) as (s2 & w2 & A2 & H2 & T2 & K2 & L2 & Y2).
  { left. exact Y1. } { rewrite L1. reflexivity. } { reflexivity. } { rewrite K1. reflexivity. } { rewrite K1. reflexivity. } { reflexivity. }
  { unfold mf_parse. rewrite requestparams_read. reflexivity. }
  { intros e' w _ _ _. cbn [mf_handle]. unfold h_requestparams. rewrite DN. cbn [md_keys md_devkey md_diun md_header md_chain ses_data]. unfold st, kt, storages. destruct (dn_storage dn); reflexivity. }
  { exact US. } { exact F2. }
  pose proof (fits_then _ _ _ _ _ A2 FT2) as FT3. rewrite (dbind_step _ _ _ _ _ A2). clear FT2 F2 GR2. cbv beta in FT3 |- *.
  assert (KR : from_slice as_keyparams (enc (VArr [VInt (Z.of_N kt); storages st])) = Ok (kt, allowed_of st)).
  { rewrite (keyparams_read kt st (gd_type _ _ _ GD) (proj1 (gd_storage _ _ _ GD)) (proj2 (gd_storage _ _ _ GD))). destruct st; reflexivity. }
  rewrite (dbind_step (lift (from_slice as_keyparams (enc (VArr [VInt (Z.of_N kt); storages st])))) _ s2 s2 (kt, allowed_of st)) in FT3 |- * by (unfold lift; rewrite KR; reflexivity).
  destruct (new_key_progress newkey kt st s2 (gd_type _ _ _ GD) NK) as (stg & secret & sk & IN & NKE & GNK). cbv iota beta in FT3 |- *.
  set (ks := if stg =? 0 then Plain secret sk else Tpm (if kt =? 10 then Sha256 else Sha384) secret sk) in *.
  rewrite (dbind_step _ _ _ _ _ GNK) in FT3 |- *. destruct (GK _ _ _ _ NKE) as (GKEY & KB & KDER).
  assert (KSK : ks_sk ks = sk) by (unfold ks; destruct (stg =? 0); reflexivity). assert (KSS : storage_of ks <= 1) by (unfold ks; destruct (stg =? 0); cbn [storage_of]; lia).
  match type of FT3 with context [dbind ?m ?f s2] => assert (GR3 : forall a, growing (f a)) end.
  { intros b2. apply growing_dbind; [apply growing_lift|]. intros sty. apply growing_ret. }
  pose proof (fits_first _ _ s2 GR3 FT3) as F3. unfold public_der in *. rewrite KSK in FT3, F3 |- *.
  assert (EKS : ek_is_some keys = true) by (apply (P_Servers.usable_some A); exact US).
  destruct (step_served DIUNProvideKey DIUNDone (enc (VArr [vecu8_val (to_der (c_pub c sk)); VInt (Z.of_N (storage_of ks))])) None s2 (Ses (Some DIUNProvideKeyParameters) (Some keys) (MfData None None false None None))
    (MProvideKey (to_der (c_pub c sk)) (storage_of ks)) (MfData None (Some (to_der (c_pub c sk))) true None None) (enc (VArr [VInt (Z.of_N (dn_string dn))]))) as (s3 & w3 & A3 & H3 & T3 & K3 & L3 & Y3).
  { left. exact Y2. } { rewrite L2. reflexivity. } { reflexivity. } { rewrite K2, EKS. reflexivity. } { rewrite K2, EKS. reflexivity. } { reflexivity. }
  { unfold mf_parse. rewrite (providekey_read _ _ KB KSS). reflexivity. }
  { intros e' w _ _ _. cbn [mf_handle]. unfold h_providekey. rewrite DN. reflexivity. }
  { exact Logic.I. } { exact F3. }
  exists s3, w1, w2, w3, (s_hist s2), stg, secret, sk, (Some keys), ks. split; [exact IN|]. split; [exact NKE|]. split; [reflexivity|]. split.
  { rewrite (dbind_step _ _ _ _ _ A3). unfold dbind, lift. rewrite (diundone_read _ (gd_string _ _ _ GD)). reflexivity. }
  split; [rewrite H3, H2, H1, <- !app_assoc; reflexivity|]. split; [exact T1|]. split; [exact T2|]. split; [exact T3|]. split; [rewrite K3, K2; exact EKS|]. split; [exact L3|exact Y3].
Qed.

(** ** DI *)
Lemma growing_save ks h kh : growing (save wo ks h kh).
Proof. intros s. unfold save. cbn [fst s_hist]. eexists. reflexivity. Qed.
Lemma di_phase s ses d mi stype info ks secret sk : unsent (s_hist s) -> syn s ses \/ start s /\ ses = Ses None None mf_new -> ses_data ses = d ->
  valid_prev DIAppStart (hc_last (s_hc s)) = true -> di_refused cf d = false -> (forall e, me_pubkeys e = pubs -> device_key c d info e = Ok (c_pub c sk)) ->
  get_info mi stype = Ok info -> good_info info -> good_key c mkcert cf info secret sk -> keys_ok ks -> ks_sk ks = sk ->
  fits (s_hist (fst (perform_di A c chk avail wo mi ks stype s))) ->
  exists s' w10 w12 data dc v, perform_di A c chk avail wo mi ks stype s = (s', Ok tt) /\
    s_hist s' = s_hist s ++ [TWire url w10; TFx (EWrite CRED_PATH data 438); TWire url w12] /\ wr_type w10 = 10 /\ wr_type w12 = 12 /\
    from_slice as_cred data = Ok (trim info, dc) /\ dc_active dc = true /\ dc_version dc = V1_1 /\ dc_guid dc = g /\ dc_rv dc = mf_rv cf /\ dc_keys dc = ks /\
    its_voucher c chk dc v /\ issued c chk v /\ owned_as_configured c chk cf v /\ as_ordered c mkcert cf info dc v /\ stored (y_world (at_ (s_hist s'))) k v.
Proof using AR SLG HO HS HZ HK HC CI SH SD QU MR GT GOK FREE ND to_der newkey.
  intros UNS SRC SES V RF DEV GI GINFO GKEY KOK KSK FT. unfold perform_di in *.
  rewrite (dbind_step (lift (get_info mi stype)) _ s s info) in FT |- * by (unfold lift; rewrite GI; reflexivity).
  destruct (env_of (s_hist s)) as (e & EG & EP & EF & EKD & KX & EE).
  assert (NG : nonce_ok (me_guid e)) by (rewrite EG; exact GOK).
  destruct (credentials_progress c chk kf mkcert cf info secret sk e HO HK HC CI NG GINFO GKEY) as (hb & signer & rest & leaf & NC & CA & MK & GH & LH). rewrite EG in GH.
  set (d1 := MfData (md_keys d) (md_devkey d) (md_diun d) (Some (hex_enc hb)) (Some (leaf :: mf_ca cf))).
  match type of FT with context [dbind ?m ?f s] => assert (GR : forall a, growing (f a)) end.
  { intros b. do 4 (apply growing_dbind; [apply growing_lift|]; intros ?). apply growing_dbind; [apply growing_save|]. intros _. apply growing_dbind; [apply growing_ask|]. intros b2. apply growing_dbind; [apply growing_lift|]. intros _. apply growing_ret. }
  pose proof (fits_first _ _ s GR FT) as F1.
  destruct (step_served DIAppStart DISetCredentials (enc (VArr [VBytes (enc (text_val info))])) None s ses (MAppStart (enc (text_val info))) d1 hb) as (s1 & w1 & A1 & H1 & T1 & K1 & L1 & Y1).
  { exact SRC. } { exact V. } { reflexivity. } { reflexivity. } { reflexivity. } { reflexivity. }
  { unfold mf_parse. rewrite (appstart_read info GINFO). reflexivity. }
  { intros e' w _ PB E'. assert (e' = e) as ->. { rewrite <- (E' (Wire 0 None (negb avail) []) eq_refl). apply EE. reflexivity. }
    cbn [mf_handle]. unfold h_appstart. rewrite SES, RF, (mfginfo_read info GINFO). cbn [code map_err bind]. rewrite (DEV e EP). cbn [bind]. rewrite NC. reflexivity. }
  { exact Logic.I. } { exact F1. }
  pose proof (fits_then _ _ _ _ _ A1 FT) as FT2. rewrite (dbind_step _ _ _ _ _ A1). clear FT F1 GR. cbv beta in FT2 |- *.
  pose proof GH as (h & HS1 & HD1 & BH & _ & HF). pose proof HF as (HV & HG & HRV & HI & HMK & _).
  destruct (make_hmac_progress c ks hb HZ KOK) as (hmac & MH & PH & HB & HL). destruct (key_hash c chk hb h BH LH HD1 HO) as (kraw & kh & KH & N4 & DG & KB & KL).
  rewrite (dbind_step (lift (header_deserialize c chk hb)) _ s1 s1 h) in FT2 |- * by (unfold lift; rewrite HD1; reflexivity).
  rewrite (dbind_step (lift (header_serialize h)) _ s1 s1 hb) in FT2 |- * by (unfold lift; rewrite HS1; reflexivity).
  rewrite (dbind_step (lift (make_hmac c ks hb)) _ s1 s1 hmac) in FT2 |- * by (unfold lift; rewrite MH; reflexivity).
  rewrite (dbind_step (lift (mfg_key_hash c h Sha384)) _ s1 s1 kh) in FT2 |- * by (unfold lift; rewrite KH; reflexivity).
  set (dc := new_cred ks h kh). set (data := enc (cred_val (hd_devinfo h) dc)). set (ev := TFx (EWrite CRED_PATH data 438)).
  set (s2 := St (s_hist s1 ++ [ev]) (s_url s1) (s_hc s1)).
  assert (SV : save wo ks h kh s1 = (s2, Ok tt)).
  { unfold save. fold dc. fold data. fold ev. unfold s2. unfold ev at 2. rewrite (nd_write _ _ ND). reflexivity. }
  rewrite (dbind_step _ _ _ _ _ SV) in FT2 |- *.
  assert (Y2 : syn s2 (Ses (Some DISetCredentials) (ses_keys ses) d1)) by (apply syn_rest'; [exact Y1|discriminate]).
  destruct (env_of (s_hist s2)) as (e2 & EG2 & EP2 & EF2 & EKD2 & KX2 & EE2).
  assert (UNS2 : unsent (s_hist s2)).
  { intros u w I. unfold s2 in I. cbn [s_hist] in I. apply in_app_or in I. destruct I as [I|[I|[]]]; [|discriminate I]. rewrite H1 in I. apply in_app_or in I. destruct I as [I|[I|[]]]; [exact (UNS u w I)|].
    inversion I; subst. rewrite T1. discriminate. }
  assert (HMS : nlen (h_value hmac) <= 65536) by lia.
  destruct (voucher_progress c chk cf kf d1 hmac e2 hb info g leaf mkcert (c_pub c sk) signer (me_cert e) HO HS HC CI MK eq_refl eq_refl GH HB HMS) as (v & NV & IS & OW).
  destruct (voucher_made c chk cf d1 hmac e2 g v hb info g leaf mkcert (c_pub c sk) signer (me_cert e) HO HS HC (ci_conf _ _ _ CI) MK eq_refl eq_refl GH HB HMS NV)
    as (h' & vdata & _ & HR & HD' & OVH & _ & OVM & OVC & LK & _ & SER & DE).
  assert (EQH : h' = h) by (rewrite HD1 in HD'; inversion HD'; reflexivity). rewrite EQH in OVH. clear EQH HD'.
  match type of FT2 with context [dbind ?m ?f s2] => assert (GR : forall a, growing (f a)) end.
  { intros b. apply growing_dbind; [apply growing_lift|]. intros _. apply growing_ret. }
  pose proof (fits_first _ _ s2 GR FT2) as F2.
  destruct (ServeProofs.ask_served_at A AR SLG idt sv (fun _ _ => True) (fun _ => True) KPT avail (mf_kdf_avail cf) wo url surr at_ SD id QU DISetHMAC DIDone (enc (VArr [hash_val hmac])) None s2
    (Ses (Some DISetCredentials) (ses_keys ses) d1) (MSetHmac hmac) d1 (enc (VArr [])) (fun w => stored w k v)) as (s3 & w3 & A3 & H3 & T3 & K3 & L3 & Y3 & STO).
  { left. exact Y2. } { unfold s2. cbn [s_hc]. rewrite L1. reflexivity. } { reflexivity. } { reflexivity. } { reflexivity. } { reflexivity. }
  { intros _. cbn [mf_server sv_parse]. unfold mf_parse. rewrite (sethmac_read hmac HB HL). reflexivity. }
  { intros wm KM. cbv zeta. intros _. rewrite (EE2 wm KM). cbn [mf_server sv_handle mf_handle]. unfold h_sethmac. cbn [ses_data].
    assert (di_refused cf d1 = false) as -> by exact RF. rewrite NV, GT, EF2.
    assert (GV : guid_text (hd_guid (ov_header v)) = Some k) by (rewrite OVH, HG; exact GT). destruct (sf_store _ _ _ _ SH _ k v vdata GV SER DE (FREE (s_hist s2) UNS2)) as (w' & BS & SW).
    exists w'. rewrite BS. auto. }
  { exact Logic.I. } { exact F2. }
  destruct (header_parts c chk hb h BH LH HD1) as (PG & PGL & PRV & PSC & PSL).
  exists s3, w1, w3, data, dc, v. split.
  { rewrite (dbind_step _ _ _ _ _ A3). unfold dbind, lift. rewrite unit_read. reflexivity. }
  split; [rewrite H3; unfold s2; cbn [s_hist]; rewrite H1, <- !app_assoc; reflexivity|]. split; [exact T1|]. split; [exact T3|]. split.
  { rewrite <- HI. apply cred_reads; auto; right; reflexivity. }
  split; [reflexivity|]. split; [reflexivity|]. split; [exact HG|]. split; [exact HRV|]. split; [reflexivity|]. split.
  { constructor; cbn [dc new_cred dc_guid dc_keys dc_mfg].
    - rewrite OVH. reflexivity.
    - rewrite HG. exact GOK.
    - exists hb. rewrite OVH, OVM. auto.
    - exists kraw. rewrite OVH. auto.
    - exists leaf, (mf_ca cf). rewrite KSK. auto.
    - rewrite KSK. apply (gk_alg _ _ _ _ _ _ GKEY). }
  split; [exact IS|]. split; [exact OW|]. split; [|exact STO].
  constructor; cbn [dc new_cred dc_keys]; rewrite ?OVH; auto. exists leaf. rewrite KSK. split; [exact OVC|]. split; [exact LK|]. exists signer, rest, info, (me_cert e). auto.
Qed.

(** ** All of it *)
Lemma factory_ok present su mi info : (forall h, su_id (surr h) = id) -> y_pend (at_ []) = [] -> will_initialise present -> set_up_for c to_der mkcert cf newkey pubs mi info su -> good_info info ->
  fits (fst (mfg_main A c chk ko avail to_der wo newkey present su mi url)) ->
  exists h data dc v, mfg_main A c chk ko avail to_der wo newkey present su mi url = (h, Initialised) /\ factory_session url su data h /\
    from_slice as_cred data = Ok (trim info, dc) /\ dc_active dc = true /\ dc_version dc = V1_1 /\ dc_guid dc = g /\ dc_rv dc = mf_rv cf /\ keys_from newkey cf su (dc_keys dc) /\
    its_voucher c chk dc v /\ issued c chk v /\ owned_as_configured c chk cf v /\ as_ordered c mkcert cf info dc v /\ stored (y_world (at_ h)) k v.
Proof using AR SLG HO HS HZ CL KW SDV HK HC CI SH SD QU MR GT GOK FREE ND.
  intros IDS PE WI SU GINFO FT.
  set (prog := match su with
       | PlainDI stype keys => do! (secret, sk) := lift (of_option tt keys) in perform_di A c chk avail wo mi (Plain secret sk) stype
       | WithDiun m => do! (ks, stype) := perform_diun A c chk ko avail to_der wo newkey m in perform_di A c chk avail wo mi ks stype
       end).
  set (s0 := St [] url client_new).
  assert (RUN : mfg_main A c chk ko avail to_der wo newkey present su mi url = match prog s0 with (s, Ok _) => (s_hist s, Initialised) | (s, Err _) => (s_hist s, Failed) | (s, Panic p) => (s_hist s, MCrashed p) end).
  { unfold mfg_main. destruct WI as [-> | (dc & -> & AC)]; [reflexivity|]. rewrite AC. reflexivity. }
  rewrite RUN in FT |- *.
  assert (FT' : fits (s_hist (fst (prog s0)))) by (destruct (prog s0) as [s [| |]]; exact FT). clear FT RUN.
  assert (ST : start s0).
  { constructor; try reflexivity; try exact Logic.I.
    - exact PE.
    - apply IDS.
    - destruct (MR []) as [_ [T1 T2]]. split; [exact T1|]. cbn [s_hist s0]. rewrite T2, (IDS []). reflexivity. }
  inversion SU as [stype secret sk der DI GI PUB DER GK EQ|m dn DN GD GI NK GK EQ]; subst su.
  - unfold prog in *. rewrite (dbind_step (lift (of_option tt (Some (secret, sk)))) _ s0 s0 (secret, sk)) in FT' |- * by reflexivity. cbv iota beta in FT' |- *.
    destruct (di_phase s0 (Ses None None mf_new) mf_new mi stype info (Plain secret sk) secret sk) as (s' & w10 & w12 & data & dc & v & E & H & T10 & T12 & CR & R1 & R2 & R3 & R4 & R5 & R6 & R7 & R8 & R9 & R10); auto.
    + intros u w [].
    + unfold di_refused. rewrite DI. reflexivity.
    + intros e EP. unfold device_key. cbn [md_devkey mf_new]. rewrite EP, PUB. cbn [code map_err bind]. rewrite DER. reflexivity.
    + exact (gk_bytes _ _ _ _ _ _ GK).
    + rewrite E. exists (s_hist s'), data, dc, v. split; [reflexivity|]. split; [|split; [exact CR|]].
      { exists [], (TWire url w10), (TWire url w12). split; [exact H|]. split; [exists w10; auto|]. split; [exists w12; auto|reflexivity]. }
      do 4 (split; [assumption|]). split; [exists secret, sk; auto|]. auto.
  - unfold prog in *.
    match type of FT' with context [dbind ?m0 ?f s0] => assert (GR : forall a, growing (f a)) end.
    { intros [ks sty]. unfold perform_di. apply growing_dbind; [apply growing_lift|]. intros i. apply growing_dbind; [apply growing_ask|]. intros b.
      do 4 (apply growing_dbind; [apply growing_lift|]; intros ?). apply growing_dbind; [apply growing_save|]. intros _. apply growing_dbind; [apply growing_ask|]. intros b2. apply growing_dbind; [apply growing_lift|]. intros _. apply growing_ret. }
    pose proof (fits_first _ _ s0 GR FT') as F1.
    destruct (diun_phase m dn mi info s0 ST DN GD GI NK GK F1) as (s1 & w210 & w212 & w214 & h & stg & secret & sk & keys & ks & IN & NKE & KS & E1 & H1 & T210 & T212 & T214 & EK & L1 & Y1).
    pose proof (fits_then _ _ _ _ _ E1 FT') as F2. rewrite (dbind_step _ _ _ _ _ E1). cbv iota beta in F2 |- *.
    destruct (GK _ _ _ _ NKE) as (GKEY & KB & KDER).
    destruct (di_phase s1 (Ses (Some DIUNDone) keys (MfData None (Some (to_der (c_pub c sk))) true None None)) (MfData None (Some (to_der (c_pub c sk))) true None None) mi (dn_string dn) info ks secret sk)
      as (s' & w10 & w12 & data & dc & v & E & H & T10 & T12 & CR & R1 & R2 & R3 & R4 & R5 & R6 & R7 & R8 & R9 & R10); auto.
    + rewrite H1. cbn [s_hist s0 app]. intros u w [I|[I|[I|[]]]]; inversion I; subst; lia.
    + rewrite L1. reflexivity.
    + unfold di_refused. cbn [md_diun negb]. apply andb_false_r.
    + intros e EP. unfold device_key. cbn [md_devkey bind]. rewrite KDER. reflexivity.
    + rewrite KS. destruct (gk_bytes _ _ _ _ _ _ GKEY). destruct (stg =? 0); [split; assumption|]. split; [destruct (dn_key_type dn =? 10); reflexivity|split; assumption].
    + rewrite KS. destruct (stg =? 0); reflexivity.
    + rewrite E. exists (s_hist s'), data, dc, v. split; [reflexivity|]. split; [|split; [exact CR|]].
      { exists [TWire url w210; TWire url w212; TWire url w214], (TWire url w10), (TWire url w12). split; [rewrite H, H1; reflexivity|]. split; [exists w10; auto|]. split; [exists w12; auto|].
        exists (TWire url w210), (TWire url w212), (TWire url w214). split; [reflexivity|]. split; [exists w210; auto|]. split; [exists w212; auto|exists w214; auto]. }
      do 4 (split; [assumption|]). split; [|auto]. unfold keys_from. rewrite DN. exists h, stg, secret, sk. split; [exact IN|]. split; [exact NKE|]. rewrite R5. exact KS.
Qed.
End factory.
