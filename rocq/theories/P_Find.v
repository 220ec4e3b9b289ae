(** * C78, C79: a device finds its owner, and onboards
    TO1 on both sides (client-linuxapp/src/main.rs:158-335, rendezvous-server/src/handlers_to1.rs) and the device's program
    from its start to its end (client-linuxapp/src/main.rs:1085-1238), with the rendezvous server and the owner's server it meets. *)
From Verif Require Import Base BaseFacts CborModel ValueModel ValueProofs Text Assoc Hex TypesModel CryptoSpec TypesProofs VoucherModel VoucherSpec VoucherProofs KexModel KexSpec RvModel StoreModel StoreSpec StoreProofs Backend
  MsgModel SessionModel SessionSpec HttpClientModel HttpClientSpec RvServerModel RvServerSpec RvServerProofs RvServerRuns SiModel DevSiModel SiSpec SiProofs2 SiApiModel SiApiSpec OwnerModel OwnerSpec OwnerProofs To0Model To0Spec To0Accept P_To0
  ClientModel ClientSpec ClientProofs ClientHonest OnboardSpec OnboardProofs3 P_Onboard ServeSpec ServeProofs FindSpec FindProofs.
From Verif Require P_Servers CoseFacts.
From Coq Require Import ZifyBool ZifyNat ZifyN.
Local Open Scope N_scope.
Local Opaque dec_top from_slice any_value.

(** The history only grows. *)
Section growth.
Context (A : aead) (c : crypto) (chk : bool) (ko : kex_ops) (avail : bool) (show_ip : bytes -> str) (prefix : option str) (wo : world).
Lemma growing_to2 m dc u to1d : growing (perform_to2 A c chk ko avail prefix wo m dc u to1d).
Proof.
  enough (growing (to2 A c chk ko avail prefix wo m dc to1d)) as G by (intros s; exact (G (St (s_hist s) u client_new))).
  unfold to2. apply growing_dbind; [apply growing_draw|intros n5]. apply growing_dbind; [apply growing_reporting; eapply emits_growing; apply emits_hellodevice|intros [tk p]].
  apply growing_dbind; [apply growing_reporting; eapply emits_growing; apply (emits_nonce6 (fun _ => True))|intros n6].
  apply growing_dbind; [apply growing_reporting; eapply emits_growing; apply emits_verify|intros p'].
  apply growing_dbind; [apply growing_reporting; eapply emits_growing; apply (emits_kd ko avail wo (fun _ => True))|intros [k ks]].
  apply growing_dbind; [apply growing_draw|intros n7]. apply growing_dbind; [apply growing_reporting; eapply emits_growing; apply emits_prove|intros _].
  apply growing_dbind; [apply growing_reporting; eapply emits_growing; apply emits_siready|intros _].
  apply growing_dbind; [apply growing_reporting; apply growing_perform_info|intros rb].
  apply growing_dbind; [apply growing_reporting; apply growing_io|intros _]. apply growing_dbind; [apply growing_reporting; apply growing_deactivate|intros _].
  apply growing_dbind; [apply growing_reporting; eapply emits_growing; apply emits_done|intros _]. apply growing_ret.
Qed.
Lemma growing_owners m dc to1d us : growing (try_owners A c chk ko avail prefix wo m dc to1d us).
Proof.
  induction us as [|u us IH]; cbn [try_owners]; [apply growing_ret|]. intros s. destruct (growing_to2 m dc u to1d s) as (l & E). destruct (perform_to2 A c chk ko avail prefix wo m dc u to1d s) as [s1 o]. cbn [fst] in E.
  destruct o as [b|e|p]; cbn [fst]; [eauto| |eauto]. destruct (IH s1) as (l2 & E2). rewrite E2, E, <- app_assoc. eauto.
Qed.
Lemma growing_to1d dc us : growing (get_to1d A c chk avail wo dc us).
Proof. eapply emits_growing. apply emits_get_to1d. Qed.
Lemma growing_directives m dc l : growing (try_directives A c chk ko avail show_ip prefix wo m dc l).
Proof.
  induction l as [|x l IH]; cbn [try_directives]; [apply growing_ret|]. destruct (get_client_list show_ip x) as [us|]; [|exact IH]. intros s.
  destruct (growing_to1d dc us s) as (l1 & E1). destruct (get_to1d A c chk avail wo dc us s) as [s1 [t|e|p]]; cbn [fst] in *; [| |eauto].
  - destruct (cose_get_payload_unverified _ t) as [pl|e|p]; cbn [fst]; [| |eauto].
    + destruct (growing_owners m dc t (get_to2_urls show_ip (t1_addrs pl)) s1) as (l2 & E2). destruct (try_owners A c chk ko avail prefix wo m dc t _ s1) as [s2 [[b|]|e|p]]; cbn [fst] in *;
        [rewrite E2, E1, <- app_assoc; eauto| |rewrite E2, E1, <- app_assoc; eauto|rewrite E2, E1, <- app_assoc; eauto].
      destruct (IH s2) as (l3 & E3). rewrite E3, E2, E1, <- !app_assoc. eauto.
    + destruct (IH s1) as (l3 & E3). rewrite E3, E1, <- app_assoc. eauto.
  - destruct (IH s1) as (l3 & E3). rewrite E3, E1, <- app_assoc. eauto.
Qed.
Lemma growing_rounds m dc l n : growing (try_rounds A c chk ko avail show_ip prefix wo m dc l n).
Proof.
  induction n as [|n IH]; cbn [try_rounds]; [apply growing_ret|]. intros s. destruct (growing_directives m dc l s) as (l1 & E1). destruct (try_directives A c chk ko avail show_ip prefix wo m dc l s) as [s1 [[b|]|e|p]]; cbn [fst] in *; eauto.
  destruct (IH s1) as (l2 & E2). rewrite E2, E1, <- app_assoc. eauto.
Qed.
End growth.
Lemma fits_grow {B} (m : dm B) s : growing m -> fits (s_hist (fst (m s))) -> fits (s_hist s).
Proof. intros G F. destruct (G s) as (l & E). rewrite E in F. exact (fits_app _ _ F). Qed.

(** What is sent where nobody answers does not concern a server that does. *)
Lemma rv_untouched {W} A idt (sv : server W rvdata rvmsg rvenv) av wo url surr at_ : reached A idt sv av wo url surr at_ -> ~ dead wo url ->
  forall l h, Forall (to_dead wo) l -> at_ (h ++ l) = at_ h.
Proof.
  intros R ND l. induction l as [|e l IH] using rev_ind; intros h F; [rewrite app_nil_r; reflexivity|]. apply Forall_app in F. destruct F as [F1 F2]. inversion F2 as [|? ? (u & w & -> & D) _]; subst.
  rewrite app_assoc, (rc_rest _ _ _ _ _ _ _ _ R); [apply IH; exact F1|]. intros w' E. inversion E; subst. exact (ND D).
Qed.
Lemma ow_untouched {W} A idt (sv : server W owdata owmsg owenv) av wo url surr at_ : served A idt sv av wo url surr at_ ->
  forall l h, Forall (fun e => forall w, e <> TWire url w) l -> at_ (h ++ l) = at_ h.
Proof.
  intros R l. induction l as [|e l IH] using rev_ind; intros h F; [rewrite app_nil_r; reflexivity|]. apply Forall_app in F. destruct F as [F1 F2]. inversion F2; subst.
  rewrite app_assoc, (sd_rest _ _ _ _ _ _ _ _ R) by assumption. apply IH. exact F1.
Qed.

(** [pre]: addresses of the directive that come first and where nobody answers.  [until]: the time until which the device is
    registered. *)
Theorem C78_found : forall A idt c chk kf cf W (be : backend item W) k it until holds avail av wo url surr at_ id dc pre post s,
  aead_roundtrip A -> seal_longer A -> outputs_ok c -> sign_correct c ->
  (* the rendezvous server is behind the address; what happens there otherwise does not concern the device *)
  reached A idt (rv_server c chk kf cf be) av wo url surr at_ ->
  (forall h, undisturbed A idt (rv_server c chk kf cf be) (of_others c chk k until) id holds (su_before (surr h))) ->
  (forall h, rv_ready idt until (surr h)) -> (forall h, su_id (surr h) = id) ->
  (* its store holds the device's registration *)
  guid_text (dc_guid dc) = Some k -> finder be k it until holds -> holds (y_world (at_ (s_hist s))) -> y_pend (at_ (s_hist s)) = [] ->
  its_record c dc it -> sends chk (si_to1d it) ->
  Forall (dead wo) pre -> ~ dead wo url -> fits (s_hist (fst (get_to1d A c chk avail wo dc (pre ++ url :: post) s))) ->
  exists s' l w30 w32, get_to1d A c chk avail wo dc (pre ++ url :: post) s = (s', Ok (si_to1d it)) /\
    s_hist s' = s_hist s ++ l ++ [TWire url w30; TWire url w32] /\ Forall (to_dead wo) l /\ wr_type w30 = 30 /\ wr_type w32 = 32.
Proof.
  intros A idt c chk kf cf W be k it until holds avail av wo url surr at_ id dc pre post s AR SLG HO HS SD QU RR ID KEY FI HW HP ITS SND DP ND FT.
  destruct (get_to1d_vain A c chk avail wo dc pre (url :: post) s DP) as (s1 & l & E1 & H1 & F1). rewrite E1 in *.
  assert (AT : at_ (s_hist s1) = at_ (s_hist s)) by (rewrite H1; eapply rv_untouched; eassumption).
  set (s2 := St (s_hist s1) url client_new).
  assert (ST : ServeProofs.starting idt holds url surr at_ id s2).
  { constructor; cbn [s2 s_url s_hist s_hc]; rewrite ?AT; try assumption; try reflexivity; [apply ID|]. destruct (ry_token _ _ _ (RR (s_hist s1))) as [T1 T2]. rewrite ID in T2. auto. }
  assert (FP : fits (s_hist (fst (perform_to1 A c chk avail wo dc s2)))).
  { cbn [get_to1d] in FT. unfold with_client in FT. fold s2 in FT. destruct (perform_to1 A c chk avail wo dc s2) as [s3 o]. cbn [fst]. destruct o; cbn [fst] in FT; try exact FT.
    destruct (emits_growing _ _ (emits_get_to1d A c chk avail wo dc post) s3) as (l3 & G). rewrite G in FT. exact (fits_app _ _ FT). }
  destruct (to1_ok A AR SLG idt c HO HS chk kf cf be k it until holds FI avail av wo url surr at_ SD id QU RR dc ITS KEY SND s2 ST FP) as (s' & w30 & w32 & E & H & T1 & T2).
  exists s', l, w30, w32. cbn [get_to1d]. unfold with_client. fold s2. rewrite E. split; [reflexivity|]. rewrite H. cbn [s2 s_hist]. rewrite H1, <- app_assoc. auto.
Qed.

(** Both stores hold what is registered until it expires, whatever others register. *)
Theorem C78_directory : forall cd k it until, plain_key k -> finder (dir_backend cd) k it until (dir_until cd k it until).
Proof. exact dir_finder. Qed.
Theorem C78_database : forall cd guid_of k it until, finder (db_backend cd guid_of Rendezvous) k it until (row_of cd k it).
Proof. exact db_finder. Qed.
(** A rightful registration (C58) leaves such a record there: with the device's key and, signed by the owner, the owner's
    addresses. *)
Definition registration (c : crypto) (chk : bool) (cf : to0conf) (key : pubkey) (it : item) : Prop :=
  si_key it = key /\ sends chk (si_to1d it) /\ signed_by c (c_pub c (tc_sk cf)) (si_to1d it) /\
  exists h, cose_get_payload_unverified (from_slice as_to1payload) (si_to1d it) = Ok (To1p (tc_addrs cf) h).
Theorem C78_registered : forall c chk kf rcf cf data v key nonce rnd d s e k, outputs_ok c -> sign_correct c -> keyfns_ok c kf ->
  rightful_request c chk kf rcf cf data v key nonce s e -> guid_text (hd_guid (ov_header v)) = Some k ->
  exists m msg d' r it, sign_msg c chk cf v nonce rnd = Ok m /\ rv_parse chk TO0OwnerSign m = Ok msg /\
    rv_handle c chk kf rcf (rv_dir c chk) TO0OwnerSign d s msg e = (d', HReply (ses_data s) None r) /\ registration c chk cf key it /\
    dir_until (item_codec c chk) k it ((e_now e / second + N.min (tc_period cf) (cf_max rcf)) * second) d'.
Proof.
  intros c chk kf rcf cf data v key nonce rnd d s e k HO HS KF RR G.
  pose proof (rightful_checked c chk kf rcf cf data v key nonce rnd s e HO HS KF RR) as (m & o & SM & RP & OC & GP & _ & ib & IW & IR).
  destruct RR as (B & L & D & TS & (ps & VE & PN & OW) & (FA & LA & LP & AL) & (MF & ch & leaf & CH & LF & PK) & NB & NL & N3 & EF & TB).
  destruct (sign_msg_accepted c chk cf kf rcf HO HS data v ps nonce rnd ch leaf key B L D TS FA LA LP AL NB NL VE PN OW MF CH LF PK) as (m' & o' & SM' & RP' & _ & _ & raw & RB & RL & RD).
  assert (Some (Ok (E:=ferr) m) = Some (Ok m')) as X by congruence. inversion X; subst m'. clear X. rewrite RP in RP'. inversion RP'; subst o'. clear RP' SM'.
  exists m, (MOwnerSign o). eexists _, _, (Item key (os_to1d o)). split; [exact SM|]. split; [exact RP|]. cbn [rv_handle].
  split; [|split].
  - unfold h_ownersign. rewrite N3, OC, G, EF. unfold rv_dir. cbn [b_store dir_backend]. unfold dir_store. cbn [item_codec ser]. unfold to_serr. rewrite IW. cbn [map_err]. cbn [b_meta dir_backend]. unfold dir_set_meta. rewrite rename_write, aget_aset_eq. reflexivity.
  - split; [reflexivity|]. cbn [si_to1d]. split.
    + destruct (CoseFacts.cose_reread chk raw (os_to1d o) RB) as (b & SB & DB & _); [|exact RD|exists b; auto]. eapply N.lt_trans; [exact RL|]. vm_compute. reflexivity.
    + destruct GP as (h & GP). destruct (CoseFacts.cose_payload_signed _ _ _ _ _ GP) as [SG RP']. split; [exact SG|]. exists h. exact RP'.
  - eexists. split; [apply aget_aset_eq|]. cbn [f_data f_xattr item_codec de]. rewrite IR. split; [reflexivity|]. rewrite aget_aset_eq. cbn [to_stored]. rewrite deadline_eq.
    eexists. split; [apply ttl_disk; exact TB|]. apply N.le_refl.
Qed.

(** * C79 *)
(** The device's program: [rv]... is the rendezvous server of the device's directives, [url] the owner's.  Before the
    directive for it, there may be others that lead nowhere. *)
Theorem C79_onboards : forall A idt idt' c chk ko kf rcf cf WR W (rbe : backend item WR) (be : backend voucher W) marked wo avail allow prefix show_ip n
    rurl rav rsurr rat rid it until rholds url surr at_ id key v holds dc d tok auth conf sc pd pres x posts pre post opre opost pl,
  (* cryptography *)
  aead_roundtrip A -> seal_longer A -> P_Servers.seals_derived ko A -> outputs_ok c -> sign_correct c -> hash_sizes c -> curve_laws ko -> kex_works ko ->
  (* the rendezvous server, and the device's registration there *)
  reached A idt' (rv_server c chk kf rcf rbe) rav wo rurl rsurr rat ->
  (forall h, undisturbed A idt' (rv_server c chk kf rcf rbe) (of_others c chk key until) rid rholds (su_before (rsurr h))) ->
  (forall h, rv_ready idt' until (rsurr h)) -> (forall h, su_id (rsurr h) = rid) ->
  finder rbe key it until rholds -> rholds (y_world (rat [])) -> y_pend (rat []) = [] -> its_record c dc it -> sends chk (si_to1d it) ->
  (* the owner's server, with the device's voucher and a service info API server *)
  served A idt (ow_server c chk ko cf be) (oc_kdf_avail cf) wo url surr at_ ->
  (forall h, quiet idt id holds (an_before (surr h))) -> (forall h, owner_ready ko idt (surr h)) -> (forall h, an_id (surr h) = id) ->
  guid_text (dc_guid dc) = Some key -> keeper be key v holds -> mark_laws be marked -> holds (y_world (at_ [])) -> y_pend (at_ []) = [] ->
  its_voucher c chk dc v -> its_owner c chk cf v (si_to1d it) ->
  info_auth tok auth = true -> from_settings c conf = Some sc -> (forall h mods, an_api (surr h) key mods = ask_api tok auth sc pd (dc_guid dc) mods) ->
  let user := match pd (dc_guid dc) with Some u => u | None => st_user conf end in
  config_fine conf -> (forall u, user = Some u -> user_fine u) ->
  (forall mods l, list_of_reply (make_reply sc (pd (dc_guid dc)) mods) = Some l -> nlen (enc (silist_val l)) < 2 ^ 64) ->
  (* the device is new, and its directives lead to the rendezvous server; the registration leads to the owner *)
  avail || allow = true -> dd_marker d = false -> dd_cred d = Cred dc -> dc_active dc = true -> dc_version dc = V1_1 ->
  to_interpreted (dc_rv dc) Device = Ok (pres ++ x :: posts) -> Forall (fun y => forall us, get_client_list show_ip y = Some us -> Forall (dead wo) us) pres ->
  get_client_list show_ip x = Some (pre ++ rurl :: post) -> Forall (dead wo) pre -> ~ dead wo rurl ->
  cose_get_payload_unverified (from_slice as_to1payload) (si_to1d it) = Ok pl -> get_to2_urls show_ip (t1_addrs pl) = opre ++ url :: opost -> Forall (dead wo) opre -> ~ dead wo url -> url <> rurl ->
  (* its machine works, and no request is larger than the servers take *)
  device_ready ko wo -> fits (fst (main A c chk ko avail show_ip prefix wo allow d (S n))) ->
  exists h l1 w30 w32 l2 l es, main A c chk ko avail show_ip prefix wo allow d (S n) = (h, Onboarded (match st_reboot conf with Some b => b | None => false end)) /\
    h = l1 ++ TWire rurl w30 :: TWire rurl w32 :: l2 ++ l /\ Forall (to_dead wo) l1 /\ wr_type w30 = 30 /\ wr_type w32 = 32 /\ Forall (to_dead wo) l2 /\
    session_of url (nlen (entries_raw v)) es (dd_method d) l /\ configured prefix conf user (offered wo) es /\ marked (y_world (at_ h)) key.
Proof.
  intros A idt idt' c chk ko kf rcf cf WR W rbe be marked wo avail allow prefix show_ip n rurl rav rsurr rat rid it until rholds url surr at_ id key v holds dc d tok auth conf sc pd pres x posts pre post opre opost pl
    AR SLG SDV HO HS HSZ CL KW RSD RQU RRY RID FI RHW RHP ITS SND SD QU OR ID KEY KP ML HW HP IV IO AUTH FS API user CF UF SZ AV MK CR AC VE TI DPS GC DP NDR GP GU DO ND NE DR FT.
  unfold main in *. rewrite MK, CR, AC, VE in *. change (negb (V1_1 =? V1_1)) with false in *. cbn [negb] in *.
  assert (G0 : negb avail && negb allow = false) by (destruct avail, allow; auto; discriminate). rewrite G0 in *. cbv iota in *.
  rewrite TI in *.
  destruct (try_directives_vain A c chk ko avail prefix wo show_ip (dd_method d) dc pres (x :: posts) st0 DPS) as (s1 & l1 & E1 & H1 & F1).
  cbn [st0 s_hist app] in H1.
  assert (NNIL : exists y ys, pres ++ x :: posts = y :: ys) by (destruct pres; cbn [app]; eauto). destruct NNIL as (y & ys & NN). rewrite NN in FT |- *. rewrite <- NN in FT |- *. clear y ys NN.
  assert (FM : fits (s_hist (fst (try_directives A c chk ko avail show_ip prefix wo (dd_method d) dc (pres ++ x :: posts) st0)))).
  { assert (FM : fits (s_hist (fst (try_rounds A c chk ko avail show_ip prefix wo (dd_method d) dc (pres ++ x :: posts) (S n) st0)))).
    { destruct (try_rounds A c chk ko avail show_ip prefix wo (dd_method d) dc (pres ++ x :: posts) (S n) st0) as [s [[b|]|e|p]]; exact FT. }
    cbn [try_rounds] in FM. destruct (try_directives A c chk ko avail show_ip prefix wo (dd_method d) dc (pres ++ x :: posts) st0) as [s [[b|]|e|p]]; try exact FM. cbn [fst]. eapply fits_grow; [|exact FM]. apply growing_rounds. }
  clear FT. rename FM into FT.
  cbn [try_rounds]. rewrite E1 in *. cbn [try_directives] in *. rewrite GC in *.
  assert (RAT : rat (s_hist s1) = rat []) by (rewrite H1; exact (rv_untouched A idt' _ _ _ _ _ _ RSD NDR l1 [] F1)).
  (* the first step *)
  assert (FT1 : fits (s_hist (fst (get_to1d A c chk avail wo dc (pre ++ rurl :: post) s1)))).
  { destruct (get_to1d A c chk avail wo dc (pre ++ rurl :: post) s1) as [s2 [t|e|p]]; cbn [fst] in *; [| |exact FT].
    - destruct (cose_get_payload_unverified _ t) as [q|e|p]; cbn [fst] in *; [| |exact FT].
      + pose proof (growing_owners A c chk ko avail prefix wo (dd_method d) dc t (get_to2_urls show_ip (t1_addrs q)) s2) as (l2 & E2).
        destruct (try_owners A c chk ko avail prefix wo (dd_method d) dc t (get_to2_urls show_ip (t1_addrs q)) s2) as [s3 [[b|]|e|p]]; cbn [fst] in *; [rewrite E2 in FT; exact (fits_app _ _ FT)| |rewrite E2 in FT; exact (fits_app _ _ FT)|rewrite E2 in FT; exact (fits_app _ _ FT)].
        apply fits_grow in FT; [|apply growing_directives]. rewrite E2 in FT. exact (fits_app _ _ FT).
      + apply fits_grow in FT; [exact FT|apply growing_directives].
    - apply fits_grow in FT; [exact FT|apply growing_directives]. }
  destruct (C78_found A idt' c chk kf rcf WR rbe key it until rholds avail rav wo rurl rsurr rat rid dc pre post s1 AR SLG HO HS RSD RQU RRY RID KEY FI) as (s2 & l1' & w30 & w32 & E2 & H2 & F2 & T30 & T32);
    [rewrite RAT; exact RHW|rewrite RAT; exact RHP|exact ITS|exact SND|exact DP|exact NDR|exact FT1|].
  rewrite E2 in *. rewrite GP in *. rewrite GU in *.
  destruct (try_owners_vain A c chk ko avail prefix wo (dd_method d) dc (si_to1d it) opre (url :: opost) s2 DO) as (s3 & l2 & E3 & H3 & F3).
  rewrite E3 in *. cbn [try_owners] in *.
  assert (AT : at_ (s_hist s3) = at_ []).
  { rewrite H3, H2, H1. change (((l1 ++ l1' ++ [TWire rurl w30; TWire rurl w32]) ++ l2)) with ([] ++ ((l1 ++ l1' ++ [TWire rurl w30; TWire rurl w32]) ++ l2)). apply (ow_untouched A idt _ _ _ _ _ _ SD).
    assert (DD : forall e, to_dead wo e -> forall w, e <> TWire url w) by (intros e (u & w & -> & D) w' X; inversion X; subst; exact (ND D)).
    rewrite !Forall_app. repeat split; try (eapply Forall_impl; [|eassumption]; exact DD). repeat constructor; intros w X; inversion X; subst; exact (NE eq_refl). }
  assert (FT2 : fits (s_hist (fst (perform_to2 A c chk ko avail prefix wo (dd_method d) dc url (si_to1d it) s3)))).
  { destruct (perform_to2 A c chk ko avail prefix wo (dd_method d) dc url (si_to1d it) s3) as [s4 [b|e|p]]; cbn [fst] in *; [exact FT| |exact FT].
    pose proof (growing_owners A c chk ko avail prefix wo (dd_method d) dc (si_to1d it) opost s4) as (l4 & E4).
    destruct (try_owners A c chk ko avail prefix wo (dd_method d) dc (si_to1d it) opost s4) as [s5 [[b|]|e'|p]]; cbn [fst] in *; [rewrite E4 in FT; exact (fits_app _ _ FT)| |rewrite E4 in FT; exact (fits_app _ _ FT)|rewrite E4 in FT; exact (fits_app _ _ FT)].
    apply fits_grow in FT; [|apply growing_directives]. rewrite E4 in FT. exact (fits_app _ _ FT). }
  destruct (C69_onboards A idt c chk ko cf W be marked wo url surr at_ id key v holds dc (si_to1d it) avail prefix (dd_method d) tok auth conf sc pd s3 AR SLG SDV HO HS HSZ CL KW SD QU OR (ID _) KEY KP ML)
    as (s4 & l & es & E4 & H4 & S4 & C4 & M4); [rewrite AT; exact HW|rewrite AT; exact HP|exact IV|exact IO|exact AUTH|exact FS|exact API|exact CF|exact UF|exact SZ|exact DR|exact FT2|].
  rewrite E4. exists (s_hist s4), (l1 ++ l1'), w30, w32, l2, l, es. split; [reflexivity|].
  split; [rewrite H4, H3, H2, H1, <- !app_assoc; reflexivity|]. split; [apply Forall_app; auto|]. auto 10.
Qed.

(** ** A case: the first address of the rendezvous server and the first of the owner lead nowhere. *)
From Verif Require Import ToyCrypto ToySession P_Voucher P_Rv P_Kex P_RvServer P_Si P_SiApi P_Owner P_To0 ClientToy P_Honest OnboardSpec P_Onboard.
Definition fd_rurl : str := txt "http://192.168.1.2:80".
Definition fd_to1d : cose := of_ok no_cose (cose_new toy true (to1payload_bytes [Addr None (Some (txt "gone")) 8043 3; Addr None (Some (txt "owner")) 8043 3] (Hash Sha384 (repeat 1 48))) [] [7] []).
Definition fd_item : item := Item (Pubkey 10 1 [42] [42] None) fd_to1d.
Definition fd_until : N := 3600 * second.
Definition fd_surr (h : list devent) : surround dir rvenv := Surround [STick (5 * SES_SEC); SMaint] (fun _ => RvEnv t100 n4 IoOk) [6] [6] [].
Definition fd_server := toy_rv (rv_dir toy true).
Definition fd_step (y : sys (W:=dir) (D:=rvdata)) (w : HttpClientModel.wire) :=
  sys_run toy_aead toy_idt fd_server (fst (sys_run toy_aead toy_idt fd_server y (sequential (su_before (fd_surr []))))) (one_request (su_request (fd_surr []) w) NoFault).
Definition fd_file : file := File (of_ok [] (item_write fd_item)) [(xname Ttl, StoreModel.le_enc 8 3600)].
Fixpoint fd_back (r : list devent) : sys (W:=dir) (D:=rvdata) :=
  match r with
  | [] => sys_init t100 [(get_path key_toy, fd_file)]
  | TWire u w :: r => if bytes_eqb u fd_rurl then fst (fd_step (fd_back r) w) else fd_back r
  | _ :: r => fd_back r
  end.
Definition fd_at (h : list devent) := fd_back (rev h).
Definition fd_resp (h : list devent) : option hresponse :=
  match rev h with
  | TWire u w :: r => if bytes_eqb u ob_url then to_hresponse true (last (responses (snd (ob_step (ob_back r) w))) Dropped) []
                      else if bytes_eqb u fd_rurl then to_hresponse true (last (replies_of (snd (fd_step (fd_back r) w))) Dropped) [] else None
  | _ => None
  end.
Definition fd_world : world := World fd_resp (wo_fx ob_world) (wo_io ob_world) (wo_rand ob_world) (wo_kex ob_world) (wo_release ob_world) (wo_arch ob_world) (wo_mods ob_world).
Definition fd_disk : devdisk := DevDisk false (Cred cl_cred) DeactivateIt.
Definition fd_main := main toy_aead toy true toy_kex true to_sh None fd_world false fd_disk 1.
Lemma fd_reached : reached toy_aead toy_idt fd_server true fd_world fd_rurl fd_surr fd_at.
Proof.
  constructor.
  - intros h w. unfold fd_at. rewrite rev_unit. cbn [fd_back]. rewrite bytes_eqb_refl. split; [reflexivity|]. cbn [wo_resp fd_world]. unfold fd_resp. rewrite rev_unit, bytes_eqb_refl. reflexivity.
  - intros h e N. unfold fd_at. rewrite rev_unit. cbn [fd_back]. destruct e as [u w| | | | |]; try reflexivity. destruct (bytes_eqb u fd_rurl) eqn:E; [|reflexivity].
    apply bytes_eqb_spec in E. subst u. exfalso. exact (N w eq_refl).
Qed.
Lemma fd_served : served toy_aead toy_idt ob_server (oc_kdf_avail ocf) fd_world ob_url ob_around ob_at.
Proof.
  constructor.
  - intros h w. unfold ob_at. rewrite rev_unit. cbn [ob_back]. rewrite bytes_eqb_refl. split; [reflexivity|]. cbn [wo_resp fd_world]. unfold fd_resp. rewrite rev_unit, bytes_eqb_refl. reflexivity.
  - apply (sd_rest _ _ _ _ _ _ _ _ ob_served).
Qed.
Lemma fd_undisturbed fair holds h : undisturbed toy_aead toy_idt fd_server fair [6] holds (su_before (fd_surr h)).
Proof. split; [vm_compute; discriminate|]. repeat constructor. Qed.
Lemma fd_rv_ready h : rv_ready toy_idt fd_until (fd_surr h).
Proof.
  constructor; cbn [fd_surr su_env su_token su_id e_now].
  - intros _. exists n4. split; [reflexivity|]. apply b16; reflexivity.
  - intros _. vm_compute. discriminate.
  - reflexivity.
  - split; [|reflexivity]. intros [H|[]]. discriminate.
Qed.
Lemma fd_device_ready : device_ready toy_kex fd_world.
Proof. destruct ob_device_ready. constructor; assumption. Qed.
Lemma fd_rholds : dir_until (item_codec toy true) key_toy fd_item fd_until (y_world (fd_at [])).
Proof. exists fd_file. split; [vm_compute; reflexivity|]. split; [vm_compute; reflexivity|]. exists (3600 * SEC). split; [reflexivity|]. vm_compute. discriminate. Qed.
Lemma fd_record : its_record toy cl_cred fd_item.
Proof. split; [apply b16; reflexivity|]. split; [reflexivity|discriminate]. Qed.
Lemma fd_sends : sends true fd_to1d.
Proof. exists (of_ok [] (cose_serialize fd_to1d)). split; vm_compute; reflexivity. Qed.
Lemma fd_signed : signed_by toy [7] fd_to1d.
Proof. apply cose_check_ok. vm_compute. reflexivity. Qed.
Lemma fd_its_owner : its_owner toy true ocf ob_voucher fd_to1d.
Proof. destruct ob_its_owner. constructor; first [exact fd_signed|assumption]. Qed.
Lemma fd_dead1 : dead fd_world (txt "http://rv1:80").
Proof. intros h w. cbn [wo_resp fd_world]. unfold fd_resp. rewrite rev_unit. reflexivity. Qed.
Lemma fd_dead2 : dead fd_world (txt "http://gone:8043").
Proof. intros h w. cbn [wo_resp fd_world]. unfold fd_resp. rewrite rev_unit. reflexivity. Qed.
Lemma fd_alive1 : ~ dead fd_world fd_rurl.
Proof. intros D. specialize (D [] (Wire 30 None false [])). vm_compute in D. discriminate. Qed.
Lemma fd_alive2 : ~ dead fd_world ob_url.
Proof. intros D. specialize (D [] (Wire 60 None false [])). vm_compute in D. discriminate. Qed.
Lemma fd_directives : to_interpreted (dc_rv cl_cred) Device = Ok ([] ++ ex_x1 :: []).
Proof. vm_compute. reflexivity. Qed.
Lemma fd_urls : get_client_list to_sh ex_x1 = Some ([txt "http://rv1:80"] ++ fd_rurl :: []).
Proof. vm_compute. reflexivity. Qed.
Lemma fd_payload : exists pl, cose_get_payload_unverified (from_slice as_to1payload) fd_to1d = Ok pl /\ get_to2_urls to_sh (t1_addrs pl) = [txt "http://gone:8043"] ++ ob_url :: [].
Proof. exists (To1p [Addr None (Some (txt "gone")) 8043 3; Addr None (Some (txt "owner")) 8043 3] (Hash Sha384 (repeat 1 48))). split; vm_compute; reflexivity. Qed.
Lemma fd_fits : fits (fst fd_main). Proof. apply ob_fits_b. vm_compute. reflexivity. Qed.
Lemma fd_plain : plain_key key_toy. Proof. exact key_toy_plain. Qed.
Lemma fd_guid : guid_text (dc_guid cl_cred) = Some key_toy. Proof. vm_compute. reflexivity. Qed.
Lemma fd_auth : info_auth ob_tok (txt "Bearer tok") = true. Proof. vm_compute. reflexivity. Qed.
Example fd_case : exists h l1 w30 w32 l2 l es, fd_main = (h, Onboarded true) /\
  h = l1 ++ TWire fd_rurl w30 :: TWire fd_rurl w32 :: l2 ++ l /\ Forall (to_dead fd_world) l1 /\ wr_type w30 = 30 /\ wr_type w32 = 32 /\ Forall (to_dead fd_world) l2 /\
  session_of ob_url 3 es DeactivateIt l /\ configured None full_conf (st_user full_conf) [DevMod; SSHKey; BinaryFile; Command; Reboot; DiskEncryption] es /\ dir_marked (y_world (ob_at h)) key_toy.
Proof.
  destruct fd_payload as (pl & P1 & P2).
  exact (C79_onboards toy_aead toy_idt toy_idt toy true toy_kex kf_toy cf_toy ocf dir dir (rv_dir toy true) (ow_dir toy true) dir_marked fd_world true false None to_sh 0
    fd_rurl true fd_surr fd_at [6] fd_item fd_until (dir_until (item_codec toy true) key_toy fd_item fd_until) ob_url ob_around ob_at [5] key_toy ob_voucher (dir_holds (voucher_codec toy true) key_toy ob_voucher)
    cl_cred fd_disk ob_tok (txt "Bearer tok") full_conf ob_sc no_pd [] ex_x1 [] [txt "http://rv1:80"] [] [txt "http://gone:8043"] [] pl
    toy_roundtrip ob_seals (P_Servers.toy_seals_derived toy_kex) toy_outputs_ok toy_sign_correct toy_sizes toy_curve_laws ob_kex_works
    fd_reached (fun h => fd_undisturbed _ _ h) fd_rv_ready (fun h => eq_refl) (C78_directory _ _ _ _ fd_plain) fd_rholds eq_refl fd_record fd_sends
    fd_served (fun h => ob_quiet _ h) ob_owner_ready (fun h => eq_refl) fd_guid (C69_directory _ _ _) (dir_mark_laws _) ob_holds eq_refl ob_its_voucher fd_its_owner fd_auth ob_settings (fun h mods => eq_refl)
    full_conf_fine full_user_fine ob_sizes eq_refl eq_refl eq_refl eq_refl eq_refl fd_directives (Forall_nil _) fd_urls (Forall_cons _ fd_dead1 (Forall_nil _)) fd_alive1
    P1 P2 (Forall_cons _ fd_dead2 (Forall_nil _)) fd_alive2 ltac:(discriminate) fd_device_ready fd_fits).
Qed.

Print Assumptions C78_found.
Print Assumptions C78_directory.
Print Assumptions C78_database.
Print Assumptions C78_registered.
Print Assumptions C79_onboards.
