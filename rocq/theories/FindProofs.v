(** Lemmas: a device asks a rendezvous server for its owner. *)
From Verif Require Import Base BaseFacts CborModel ValueModel ValueProofs Text Assoc Hex TypesModel CryptoSpec TypesProofs VoucherModel VoucherSpec VoucherProofs VoucherProofs2 KexModel KexSpec RvModel StoreModel StoreSpec StoreProofs StoreProofs2 Backend
  MsgModel SessionModel SessionSpec HttpClientModel HttpClientSpec RvServerModel RvServerSpec SiModel DevSiModel SiSpec SiApiModel SiApiSpec OwnerModel OwnerSpec ClientModel ClientSpec ClientProofs ClientHonest OnboardSpec OnboardProofs OnboardProofs2 OnboardProofs3 ServeSpec ServeProofs FindSpec.
From Verif Require P_Honest CoseFacts.
From Coq Require Import ZifyBool ZifyNat ZifyN.
Local Open Scope N_scope.
Set Default Proof Using "Type".
Local Opaque dec_top from_slice any_value.

(** ** The stores *)
Lemma tmp_plain k' k : plain_key k -> tmp_of (get_path k') <> get_path k.
Proof.
  intros P E. pose proof (get_path_nodot k P) as F. rewrite <- E in F. inversion F as [|x l X]. apply X. reflexivity.
Qed.
Lemma dir_finder cd k it until : plain_key k -> finder (dir_backend cd) k it until (dir_until cd k it until).
Proof.
  intros PK. constructor; cbn [dir_backend b_load b_store b_meta].
  - intros now w LE (f & G & D & T). unfold dir_load. rewrite G, D. destruct (aget (xname Ttl) (f_xattr f)) as [t|]; [|reflexivity].
    destruct T as (x & -> & LX). destruct (N.ltb_spec x now); [lia|reflexivity].
  - intros now w k' w' r LE (f & G & D & T) L. unfold dir_load in L. destruct (aget (get_path k') w) as [f'|] eqn:G'; [|inversion L; subst; exists f; auto].
    destruct (aget (xname Ttl) (f_xattr f')) as [t|] eqn:X; [|inversion L; subst; exists f; auto].
    destruct (ttl_from_disk t) as [x| |] eqn:TD; [|inversion L; subst; exists f; auto|inversion L; subst; exists f; auto].
    destruct (x <? now) eqn:LT; inversion L; subst; exists f; [|auto]. split; [|auto]. rewrite aget_adel_ne; [exact G|]. intros E. rewrite E in G. rewrite G' in G. inversion G; subst f'.
    rewrite X in T. destruct T as (y & TY & LY). rewrite TD in TY. inversion TY; subst. lia.
  - intros w k' x w' r PK' NE (f & G & D & T) S. exists f. split; [|auto]. unfold dir_store in S.
    assert (N1 : get_path k <> tmp_of (get_path k')) by (intros E; exact (tmp_plain k' k PK (eq_sym E))).
    assert (N2 : get_path k <> get_path k') by (intros E; apply NE; symmetry; apply get_path_inj; assumption).
    destruct (ser cd x); [rewrite rename_write in S|unfold fs_create in S|unfold fs_create in S]; inversion S; subst; rewrite ?adel_aset, ?aget_aset_ne, ?aget_adel_ne by assumption; exact G.
  - intros now w k' s w' r PK' NE (f & G & D & T) S. exists f. split; [|auto]. unfold dir_set_meta in S.
    assert (N2 : get_path k <> get_path k') by (intros E; apply NE; symmetry; apply get_path_inj; assumption).
    destruct (aget (get_path k') w); inversion S; subst; rewrite ?aget_aset_ne by assumption; exact G.
Qed.
Lemma db_finder cd guid_of k it until : finder (db_backend cd guid_of Rendezvous) k it until (row_of cd k it).
Proof.
  constructor; cbn [db_backend b_load b_store b_meta].
  - intros now w _ (r & G & D). unfold db_load. rewrite G, D. reflexivity.
  - intros now w k' w' r _ H L. inversion L; subst. exact H.
  - intros w k' x w' r PK NE (f & G & D) S. exists f. split; [|exact D]. unfold db_store in S. destruct (ser cd x); [|inversion S; subst; exact G|inversion S; subst; exact G].
    destruct (aget k' w) eqn:E; inversion S; subst; [exact G|]. rewrite aget_app_new by exact E. rewrite aget_aset_ne by congruence. exact G.
  - intros now w k' s w' r PK NE (f & G & D) S. exists f. split; [|exact D]. unfold db_set_meta, update in S. destruct (aget k' w); inversion S; subst; [|exact G]. rewrite aget_aset_ne by congruence. exact G.
Qed.

(** ** What others do *)
Lemma check_guid c chk kf cf n m g it wait : ownersign_check c chk kf cf n m = Ok (g, it, wait) -> exists t, to0data_read c chk (os_to0d m) = Ok t /\ g = hd_guid (ov_header (t0_voucher t)).
Proof.
  unfold ownersign_check. destruct (to0data_read c chk (os_to0d m)) as [t| |]; cbn [RvServerModel.code map_err bind]; try discriminate. intros H. exists t. split; [reflexivity|].
  destruct (unwrap P_UNWRAP (nonce_parse n)); cbn [bind] in H; try discriminate. destruct (nonce_eq _ _) as [same| |]; cbn [bind] in H; try discriminate. destruct (negb same); [discriminate|].
  destruct (match cf_mfg cf with None => _ | Some _ => _ end) as [tr| |]; cbn [bind] in H; try discriminate. destruct (negb tr); [discriminate|].
  destruct (iter_last _ _ _ _ _ _) as [[o| |]|]; try discriminate.
  repeat match type of H with context [bind ?o _] => destruct o; cbn [bind] in H; try discriminate end.
  destruct (ov_chain (t0_voucher t)); try discriminate.
  repeat match type of H with context [bind ?o _] => destruct o; cbn [bind] in H; try discriminate end.
  inversion H. reflexivity.
Qed.
Lemma rv_handle_holds c chk kf cf W (be : backend item W) k it until (holds : W -> Prop) : finder be k it until holds ->
  forall im w s m e w' r, of_others c chk k until m e -> holds w -> sv_handle (rv_server c chk kf cf be) im w s m e = (w', r) -> holds w'.
Proof.
  intros FI im w s m e w' r [LE OF] HW H. cbn [rv_server sv_handle] in H. unfold rv_handle in H. destruct m as [|m|m|t].
  - unfold RvServerModel.h_hello in H. inversion H; subst. exact HW.
  - unfold h_ownersign in H. destruct (sd_nonce3 (ses_data s)) as [n|]; [|inversion H; subst; exact HW].
    destruct (ownersign_check c chk kf cf n m) as [[[g x] wait]| |] eqn:CK; [|inversion H; subst; exact HW|inversion H; subst; exact HW].
    destruct (check_guid _ _ _ _ _ _ _ _ _ CK) as (t & TR & ->). destruct (OF t TR) as [BG NG].
    destruct (guid_text (hd_guid (ov_header (t0_voucher t)))) as [k'|] eqn:GT; [|inversion H; subst; exact HW].
    assert (PK : plain_key k') by (eapply guid_text_plain; eauto). assert (NE : k' <> k) by congruence.
    assert (CORE : forall fl, (match b_store be w k' x with
          | (w1, Err _) => (w1, HReject InternalServerError) | (w1, Panic _) => (w1, HPanic)
          | (w1, Ok _) => match fl with MetaFails => (w1, HReject InternalServerError) | _ =>
              match b_meta be (e_now e) w1 k' Ttl (MDur wait) with
              | (w2, Err _) => (w2, HReject InternalServerError) | (w2, Panic _) => (w2, HPanic)
              | (w2, Ok _) => (w2, HReply (ses_data s) None (enc (VArr [VInt (Z.of_N wait)]))) end end end) = (w', r) -> holds w').
    { intros fl. destruct (b_store be w k' x) as [w1 o1] eqn:BS. pose proof (fi_stores _ _ _ _ _ FI _ _ _ _ _ PK NE HW BS) as H1.
      destruct o1; [|intros X; inversion X; subst; exact H1|intros X; inversion X; subst; exact H1].
      destruct (b_meta be (e_now e) w1 k' Ttl (MDur wait)) as [w2 o2] eqn:BM. pose proof (fi_metas _ _ _ _ _ FI _ _ _ _ _ _ PK NE H1 BM) as H2.
      destruct fl, o2; intros X; inversion X; subst; assumption. }
    destruct (e_fault e) eqn:EF; [exact (CORE IoOk H)|exact (CORE LoadFails H)|inversion H; subst; exact HW|exact (CORE MetaFails H)].
  - unfold h_hellorv in H. destruct (negb _); [inversion H; subst; exact HW|]. destruct (negb _); [inversion H; subst; exact HW|].
    destruct (guid_text (RvServerModel.hr_guid m)) as [k'|]; [|inversion H; subst; exact HW].
    destruct (b_load be (e_now e) w k') as [w1 o] eqn:BL. pose proof (fi_loads _ _ _ _ _ FI _ _ _ _ _ LE HW BL) as H1.
    destruct (e_fault e), o as [[]| |]; inversion H; subst; assumption.
  - unfold RvServerModel.h_prove in H. destruct (sd_nonce4 (ses_data s)); [|inversion H; subst; exact HW]. destruct (nonce_parse _); [|inversion H; subst; exact HW].
    destruct (sd_guid (ses_data s)); [|inversion H; subst; exact HW]. destruct (guid_parse _); [|inversion H; subst; exact HW]. destruct (guid_text _) as [k'|]; [|inversion H; subst; exact HW].
    destruct (b_load be (e_now e) w k') as [w1 o] eqn:BL. pose proof (fi_loads _ _ _ _ _ FI _ _ _ _ _ LE HW BL) as H1.
    destruct (e_fault e), o as [[x|]| |]; try (inversion H; subst; assumption);
      (destruct (get_eat c t (pk_key (si_key x))); [|inversion H; subst; assumption|inversion H; subst; assumption]);
      destruct (nonce_eq _ _) as [[]| |]; try (inversion H; subst; assumption); destruct (cose_serialize (si_to1d x)); inversion H; subst; assumption.
Qed.

(** ** The two messages *)
Lemma hellorv_read g : nonce_ok g -> from_slice as_hellorv (enc (VArr [bstr_val g; siginfo_val (ES384, [])])) = Ok (HelloRV g (ES384, [])).
Proof.
  intros G. rewrite from_slice_enc.
  - unfold as_hellorv. cbn [as_fields untag]. rewrite as_bstr16_val by apply G. reflexivity.
  - unfold MAX_DEPTH. apply vok_arr; [unfold two64, nlen; cbn [length]; lia|]. constructor; [apply vok_nonce; exact G|]. constructor; [|constructor].
    unfold siginfo_val. apply vok_arr; [unfold two64, nlen; cbn [length]; lia|]. constructor; [vint|]. constructor; [|constructor]. apply vok_bytes; [constructor|vm_compute; reflexivity].
Qed.
Lemma rvack_read n : nonce_ok n -> from_slice as_rvack (enc (VArr [bstr_val n; siginfo_val (ES384, [])])) = Ok (n, (ES384, [])).
Proof.
  intros G. rewrite from_slice_enc.
  - unfold as_rvack. cbn [as_fields untag]. rewrite as_bstr16_val by apply G. reflexivity.
  - unfold MAX_DEPTH. apply vok_arr; [unfold two64, nlen; cbn [length]; lia|]. constructor; [apply vok_nonce; exact G|]. constructor; [|constructor].
    unfold siginfo_val. apply vok_arr; [unfold two64, nlen; cbn [length]; lia|]. constructor; [vint|]. constructor; [|constructor]. apply vok_bytes; [constructor|vm_compute; reflexivity].
Qed.
Lemma claims1_read g n : nonce_ok g -> nonce_ok n -> let cv := claims_val None n g in
  bytes_ok (enc cv) /\ nlen (enc cv) < 2305843009213693952 /\ from_slice as_claims (enc cv) = Ok [(VInt EAT_NONCE, bstr_val n); (VInt EAT_UEID, VBytes (as_ueid g))].
Proof.
  intros [GB GL] N6 cv.
  assert (UB : bytes_ok (as_ueid g) /\ nlen (as_ueid g) = 17).
  { unfold as_ueid. split; [constructor; [vm_compute; reflexivity|exact GB]|]. unfold nlen in *. cbn [length]. lia. }
  assert (VK : vok 4 cv).
  { unfold cv, claims_val. cbn [app vok]. split; [unfold two64, nlen; cbn [length]; lia|]. 
    constructor; [|constructor; [|constructor]]; cbn [fst snd]; (split; [vint|]).
    - exact (vok_nonce 2 _ N6).
    - apply (vok_bytes 2); [apply UB|]. destruct UB as [_ ->]. unfold two64; lia. }
  split; [eapply enc_bytes_ok; exact VK|]. split.
  - unfold cv, claims_val, bstr_val. cbn [app enc map concat fst snd]. rewrite !nlen_app. pose proof (enc_head_nlen 5 (nlen [(VInt EAT_NONCE, VBytes n); (VInt EAT_UEID, VBytes (as_ueid g))])).
    pose proof (enc_int_nlen EAT_NONCE). pose proof (enc_int_nlen EAT_UEID). pose proof (enc_bytes_nlen n). pose proof (enc_bytes_nlen (as_ueid g)). destruct N6 as [_ N6]. destruct UB as [_ UB].
    cbn [enc] in *. rewrite !nlen_app in *. change (nlen (@nil N)) with 0. lia.
  - rewrite from_slice_enc; [reflexivity|]. eapply vok_mono; [exact VK|]. unfold MAX_DEPTH. lia.
Qed.

Section finding.
Context (A : aead) (AR : aead_roundtrip A) (SLG : seal_longer A) (idt : str -> option str) (c : crypto) (HO : outputs_ok c) (HS : sign_correct c) (chk : bool) (kf : keyfns) (cf : rvconf)
  {W : Type} (be : backend item W) (k : str) (it : item) (until : N) (holds : W -> Prop) (FI : finder be k it until holds)
  (avail av : bool) (wo : world) (url : str) (surr : list devent -> surround W rvenv) (at_ : list devent -> sys (W:=W) (D:=rvdata))
  (SD : reached A idt (rv_server c chk kf cf be) av wo url surr at_)
  (id : str) (QU : forall h, undisturbed A idt (rv_server c chk kf cf be) (of_others c chk k until) id holds (su_before (surr h)))
  (RR : forall h, rv_ready idt until (surr h)) (dc : devcred) (ITS : its_record c dc it) (KEY : guid_text (dc_guid dc) = Some k) (SND : sends chk (si_to1d it)).
Notation syn := (ServeProofs.synced A idt holds av url at_ id).
Notation start := (ServeProofs.starting idt holds url surr at_ id).
Notation sv := (rv_server c chk kf cf be).

Lemma hellorv_phase s : start s -> fits (s_hist (fst (perform_hellorv A c chk avail wo dc s))) ->
  exists s1 w n t raw, perform_hellorv A c chk avail wo dc s = (s1, Ok raw) /\ s_hist s1 = s_hist s ++ [TWire url w] /\ wr_type w = 30 /\
    hc_keys (s_hc s1) = unencrypted /\ hc_last (s_hc s1) = Some TO1HelloRVAck /\ syn s1 (Ses (Some TO1HelloRVAck) None (RvData None (Some (nonce_text n)) (Some k))) /\
    nonce_ok n /\ cose_deserialize chk raw = Ok t /\ cs_payload t = enc (claims_val None n (dc_guid dc)) /\ signed_by c (c_pub c (ks_sk (dc_keys dc))) t.
Proof using AR SLG HO HS FI SD QU RR ITS KEY SND.
  intros ST FT. destruct ITS as (GOK & PK & AL). destruct (RR (s_hist s)) as [RE RT RS RTK].
  pose proof (ServeProofs.sg_new _ _ _ _ _ _ _ ST) as HC.
  set (w0 := Wire 0 None false []). destruct (RE w0) as (n & EN & NOK).
  set (pt := enc (VArr [bstr_val (dc_guid dc); siginfo_val (ES384, [])])).
  destruct (ServeProofs.ask_served A AR SLG idt sv (of_others c chk k until) holds (rv_handle_holds c chk kf cf W be k it until holds FI) avail av wo url surr at_ SD id QU
     TO1HelloRV TO1HelloRVAck pt None s (Ses None None (RvData None None None)) (MHelloRV (HelloRV (dc_guid dc) (ES384, []))) (RvData None (Some (nonce_text n)) (Some k))
     (enc (VArr [bstr_val n; siginfo_val (ES384, [])])) (fun _ => True)) as (s1 & w & AK & HH & WT & HK & HL & SY & _).
  - right. split; [exact ST|reflexivity].
  - rewrite HC. reflexivity.
  - reflexivity.
  - rewrite HC. reflexivity.
  - rewrite HC. reflexivity.
  - reflexivity.
  - intros _. cbn [rv_server sv_parse]. unfold rv_parse, pt. rewrite (hellorv_read _ GOK). reflexivity.
  - intros wm w _ Hw. exists w. rewrite (RS wm w0). cbn [rv_server sv_handle rv_handle]. unfold h_hellorv. cbn [RvServerModel.hr_sig RvServerModel.hr_guid fst snd].
    change (negb ((ES384 =? ES256)%Z || (ES384 =? ES384)%Z)) with false. change (negb (nlen (@nil N) =? 0)) with false. cbv iota. rewrite KEY.
    rewrite EN at 1. cbn [e_fault]. rewrite (fi_load _ _ _ _ _ FI _ _ (RT w0) Hw). cbn [ses_data sd_nonce3]. rewrite EN. cbn [e_nonce]. split; [reflexivity|]. split; [exact Hw|exact Logic.I].
  - exact Logic.I.
  - eapply fits_first; [|exact FT]. intros b. apply growing_dbind; [apply growing_lift|]. intros [n4 sg]. destruct (negb _); [apply growing_fail|]. destruct (negb _); [apply growing_fail|].
    apply growing_dbind; [apply growing_draw|]. intros rnd. apply growing_dbind; [apply growing_lift|]. intros t. apply growing_lift.
  - destruct (claims1_read (dc_guid dc) n GOK NOK) as (CB & CS & _).
    destruct (cose_new_unprot c chk (enc (claims_val None n (dc_guid dc))) [] (ks_sk (dc_keys dc)) (wo_rand wo (s_hist s1) 2) HO HS AL CB CS) as (t & raw & CN & CSR & CD & CP & _ & SG).
    { apply vok_mono with (d := 4%nat); [|exact D99_ge]. cbn [vok]. split; [unfold two64, nlen; cbn [length]; lia|constructor]. }
    { reflexivity. }
    { vm_compute. reflexivity. }
    exists s1, w, n, t, raw. split; [|split; [exact HH|split; [exact WT|split; [rewrite HK, HC; reflexivity|split; [exact HL|split; [exact SY|split; [exact NOK|split; [exact CD|split; [exact CP|exact SG]]]]]]]]].
    unfold perform_hellorv. rewrite (dbind_step _ _ _ _ _ AK). unfold dbind at 1, lift at 1. rewrite (rvack_read n NOK). cbn [map_err fst snd].
    change (negb (ES384 =? ES384)%Z) with false. change (negb (nlen (@nil N) =? 0)) with false. cbv iota.
    unfold dbind at 1, draw. unfold dbind, lift. rewrite CN. cbn [map_err]. rewrite CSR. reflexivity.
Qed.

Lemma prove_phase s n t raw : syn s (Ses (Some TO1HelloRVAck) None (RvData None (Some (nonce_text n)) (Some k))) -> hc_keys (s_hc s) = unencrypted -> hc_last (s_hc s) = Some TO1HelloRVAck ->
  nonce_ok n -> cose_deserialize chk raw = Ok t -> cs_payload t = enc (claims_val None n (dc_guid dc)) -> signed_by c (c_pub c (ks_sk (dc_keys dc))) t ->
  fits (s_hist (fst (perform_provetorv A chk avail wo raw s))) ->
  exists s1 w, perform_provetorv A chk avail wo raw s = (s1, Ok (si_to1d it)) /\ s_hist s1 = s_hist s ++ [TWire url w] /\ wr_type w = 32.
Proof using AR SLG HO HS FI SD QU RR ITS KEY SND.
  intros SY HK HL NOK CD CP SG FT. destruct ITS as (GOK & PK & AL). destruct SND as (b & SB & RB). destruct (RR (s_hist s)) as [RE RT RS RTK].
  set (w0 := Wire 0 None false []). destruct (RE w0) as (n' & EN & _).
  destruct (ServeProofs.ask_served A AR SLG idt sv (of_others c chk k until) holds (rv_handle_holds c chk kf cf W be k it until holds FI) avail av wo url surr at_ SD id QU
     TO1ProveToRV TO1RVRedirect raw None s (Ses (Some TO1HelloRVAck) None (RvData None (Some (nonce_text n)) (Some k))) (MProveToRV t) (RvData None (Some (nonce_text n)) (Some k)) b (fun _ => True))
     as (s1 & w & AK & HH & WT & _).
  - left. exact SY.
  - rewrite HL. reflexivity.
  - reflexivity.
  - rewrite HK. reflexivity.
  - rewrite HK. reflexivity.
  - reflexivity.
  - intros _. cbn [rv_server sv_parse]. unfold rv_parse. rewrite CD. reflexivity.
  - intros wm w _ Hw. exists w. rewrite (RS wm w0). cbn [rv_server sv_handle rv_handle]. unfold RvServerModel.h_prove. cbn [ses_data sd_nonce4 sd_guid].
    rewrite nonce_round by apply NOK. rewrite (guid_round (dc_guid dc) k) by (apply GOK || exact KEY). rewrite KEY.
    rewrite EN at 1. cbn [e_fault]. rewrite (fi_load _ _ _ _ _ FI _ _ (RT w0) Hw). rewrite PK.
    destruct (claims1_read (dc_guid dc) n GOK NOK) as (_ & _ & CR). rewrite <- CP in CR. unfold get_eat. rewrite (P_Honest.signed_get _ _ _ (from_slice as_claims) _ SG CR). cbn [bind]. unfold eat_of_claims.
    change (hdr_get EAT_NONCE [(VInt EAT_NONCE, bstr_val n); (VInt EAT_UEID, VBytes (as_ueid (dc_guid dc)))]) with (Some (bstr_val n)). cbv beta iota. rewrite (as_bstr16_val n) by apply NOK. cbn [of_option bind].
    change (hdr_get EAT_UEID [(VInt EAT_NONCE, bstr_val n); (VInt EAT_UEID, VBytes (as_ueid (dc_guid dc)))]) with (Some (VBytes (as_ueid (dc_guid dc)))).
    cbn [as_bytebuf untag of_option bind]. unfold from_ueid, as_ueid. rewrite N.eqb_refl. cbn [negb eat_nonce].
    rewrite (proj2 (CoseFacts.nonce_eq_ok n n) eq_refl). rewrite SB. split; [reflexivity|]. split; [exact Hw|exact Logic.I].
  - exact Logic.I.
  - eapply fits_first; [|exact FT]. intros x. apply growing_lift.
  - exists s1, w. split; [|split; [exact HH|exact WT]]. unfold perform_provetorv. rewrite (dbind_step _ _ _ _ _ AK). unfold lift. rewrite RB. reflexivity.
Qed.

Lemma to1_ok s : start s -> fits (s_hist (fst (perform_to1 A c chk avail wo dc s))) ->
  exists s' w30 w32, perform_to1 A c chk avail wo dc s = (s', Ok (si_to1d it)) /\ s_hist s' = s_hist s ++ [TWire url w30; TWire url w32] /\ wr_type w30 = 30 /\ wr_type w32 = 32.
Proof using AR SLG HO HS FI SD QU RR ITS KEY SND.
  intros ST FT. unfold perform_to1 in *.
  assert (F1 : fits (s_hist (fst (perform_hellorv A c chk avail wo dc s)))).
  { eapply fits_reporting. eapply fits_first; [|exact FT]. intros b. apply growing_reporting. unfold perform_provetorv. apply growing_dbind; [apply growing_ask|]. intros x. apply growing_lift. }
  destruct (hellorv_phase s ST F1) as (s1 & w & n & t & raw & E1 & H1 & T1 & K1 & L1 & S1 & NOK & CD & CP & SG).
  pose proof (fits_then _ _ _ _ _ (reporting_step A avail wo _ _ _ _ E1) FT) as F2. apply fits_reporting in F2.
  destruct (prove_phase s1 n t raw S1 K1 L1 NOK CD CP SG F2) as (s2 & w2 & E2 & H2 & T2).
  exists s2, w, w2. split; [|split; [rewrite H2, H1, <- app_assoc; reflexivity|split; assumption]].
  rewrite (dbind_step _ _ _ _ _ (reporting_step A avail wo _ _ _ _ E1)). apply reporting_step. exact E2.
Qed.
End finding.

(** ** Where nobody answers *)
Section nobody.
Context (A : aead) (c : crypto) (chk : bool) (ko : kex_ops) (avail : bool) (prefix : option str) (wo : world).
(** The device's client is unencrypted and at [u]; so it remains *)
Definition idle (u : str) (s : st) : Prop := s_url s = u /\ hc_keys (s_hc s) = unencrypted.
Definition in_vain {B} (u : str) (m : dm B) : Prop := forall s, idle u s -> exists s' l, m s = (s', Err tt) /\ idle u s' /\ s_hist s' = s_hist s ++ l /\ Forall (to_dead wo) l.
Lemma ask_vain u om sm b : dead wo u -> in_vain u (ask A avail wo om sm b None).
Proof.
  intros D s [U K]. unfold ask. destruct (prepare A avail (s_hc s) om sm _ None _) as [hc o] eqn:P. unfold prepare in P. cbn [hc_keys] in P. rewrite K in P.
  assert (SAME : forall o', o = o' -> (match o' with Ok _ => False | Panic _ => False | _ => True end) -> hc_keys hc = unencrypted -> exists s' l,
    (match o with Ok w => let h := s_hist s ++ [TWire (s_url s) w] in let '(hc, r) := receive A raw_parse hc sm (wo_resp wo h) in (St h (s_url s) hc, map_err (fun _ => tt) r)
      | Err _ => (St (s_hist s) (s_url s) hc, Err tt) | Panic p => (St (s_hist s) (s_url s) hc, Panic p) end) = (s', Err tt) /\ idle u s' /\ s_hist s' = s_hist s ++ l /\ Forall (to_dead wo) l).
  { intros o' -> X HK. destruct o'; try contradiction. exists (St (s_hist s) (s_url s) hc), []. split; [reflexivity|]. split; [split; assumption|]. cbn [s_hist]. rewrite app_nil_r. split; [reflexivity|constructor]. }
  destruct (negb (valid_prev om (hc_last (s_hc s)))); [inversion P; subst o hc; eapply SAME; [reflexivity|exact Logic.I|exact K]|]. destruct (negb (valid_prev sm (Some om))); [inversion P; subst o hc; eapply SAME; [reflexivity|exact Logic.I|exact K]|].
  destruct (enc_violated _ _); [inversion P; subst o hc; eapply SAME; [reflexivity|exact Logic.I|reflexivity]|]. destruct (enc_violated _ _); [inversion P; subst o hc; eapply SAME; [reflexivity|exact Logic.I|reflexivity]|].
  destruct (match b with Ok b => Some b | _ => None end) as [bd|]; [|inversion P; subst o hc; eapply SAME; [reflexivity|exact Logic.I|reflexivity]].
  cbn [ek_encrypt unencrypted ek_suite] in P. inversion P; subst o hc. cbv zeta. rewrite U, D. cbn [receive map_err].
  eexists _, _. split; [reflexivity|]. split; [split; reflexivity|]. cbn [s_hist]. split; [reflexivity|]. constructor; [|constructor]. eexists _, _. split; [reflexivity|exact D].
Qed.
Lemma reporting_vain u {B} (m : dm B) : dead wo u -> in_vain u m -> in_vain u (reporting A avail wo m).
Proof.
  intros D M s I. destruct (M s I) as (s1 & l & E & I1 & H & F). unfold reporting. rewrite E.
  destruct (ask_vain u MError MError (Ok (wo_rand wo (s_hist s1) 3)) D s1 I1) as (s2 & l2 & E2 & I2 & H2 & F2).
  unfold complain, dbind, draw. rewrite E2. exists s2, (l ++ l2). split; [reflexivity|]. split; [exact I2|]. rewrite H2, H, <- app_assoc. split; [reflexivity|]. apply Forall_app. auto.
Qed.
Lemma dbind_vain u {B C} (m : dm B) (f : B -> dm C) : in_vain u m -> in_vain u (dbind m f).
Proof. intros M s I. destruct (M s I) as (s1 & l & E & R). unfold dbind. rewrite E. exists s1, l. auto. Qed.
Lemma to1_vain u dc : dead wo u -> in_vain u (perform_to1 A c chk avail wo dc).
Proof. intros D. unfold perform_to1. apply dbind_vain, reporting_vain; [exact D|]. unfold perform_hellorv. apply dbind_vain, ask_vain. exact D. Qed.
Lemma to2_vain u m dc to1d : dead wo u -> in_vain u (to2 A c chk ko avail prefix wo m dc to1d).
Proof.
  intros D s I. unfold to2. unfold dbind at 1, draw at 1. apply (dbind_vain u); [|exact I]. apply reporting_vain; [exact D|]. unfold perform_hellodevice. apply dbind_vain, ask_vain. exact D.
Qed.
Lemma get_to1d_vain dc us : forall rest s, Forall (dead wo) us -> exists s' l, get_to1d A c chk avail wo dc (us ++ rest) s = get_to1d A c chk avail wo dc rest s' /\ s_hist s' = s_hist s ++ l /\ Forall (to_dead wo) l.
Proof.
  induction us as [|u us IH]; intros rest s F; cbn [app]; [exists s, []; rewrite app_nil_r; auto|]. inversion F as [|? ? D F']; subst.
  destruct (to1_vain u dc D (St (s_hist s) u client_new) (conj eq_refl eq_refl)) as (s1 & l & E & _ & H & FL). cbn [s_hist] in H.
  destruct (IH rest s1 F') as (s2 & l2 & E2 & H2 & F2). exists s2, (l ++ l2). cbn [get_to1d]. unfold with_client at 1. rewrite E. split; [exact E2|]. rewrite H2, H, <- app_assoc. split; [reflexivity|apply Forall_app; auto].
Qed.
Lemma try_owners_vain m dc to1d us : forall rest s, Forall (dead wo) us -> exists s' l, try_owners A c chk ko avail prefix wo m dc to1d (us ++ rest) s = try_owners A c chk ko avail prefix wo m dc to1d rest s' /\ s_hist s' = s_hist s ++ l /\ Forall (to_dead wo) l.
Proof.
  induction us as [|u us IH]; intros rest s F; cbn [app]; [exists s, []; rewrite app_nil_r; auto|]. inversion F as [|? ? D F']; subst.
  destruct (to2_vain u m dc to1d D (St (s_hist s) u client_new) (conj eq_refl eq_refl)) as (s1 & l & E & _ & H & FL). cbn [s_hist] in H.
  destruct (IH rest s1 F') as (s2 & l2 & E2 & H2 & F2). exists s2, (l ++ l2). cbn [try_owners]. unfold perform_to2 at 1, with_client at 1. rewrite E. split; [exact E2|]. rewrite H2, H, <- app_assoc. split; [reflexivity|apply Forall_app; auto].
Qed.
Lemma try_directives_vain show_ip m dc ds : forall rest s, Forall (fun x => forall us, get_client_list show_ip x = Some us -> Forall (dead wo) us) ds ->
  exists s' l, try_directives A c chk ko avail show_ip prefix wo m dc (ds ++ rest) s = try_directives A c chk ko avail show_ip prefix wo m dc rest s' /\ s_hist s' = s_hist s ++ l /\ Forall (to_dead wo) l.
Proof.
  induction ds as [|x ds IH]; intros rest s F; cbn [app]; [exists s, []; rewrite app_nil_r; auto|]. inversion F as [|? ? D F']; subst. cbn [try_directives].
  destruct (get_client_list show_ip x) as [us|]; [|apply IH; exact F'].
  destruct (get_to1d_vain dc us [] s (D us eq_refl)) as (s1 & l & E & H & FL). rewrite app_nil_r in E. cbn [get_to1d] in E. rewrite E. unfold fail.
  destruct (IH rest s1 F') as (s2 & l2 & E2 & H2 & F2). exists s2, (l ++ l2). split; [exact E2|]. rewrite H2, H, <- app_assoc. split; [reflexivity|apply Forall_app; auto].
Qed.
End nobody.
