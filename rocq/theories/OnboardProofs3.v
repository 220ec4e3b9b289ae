(** Lemmas: the phases of an onboarding between a device and its owner. *)
From Verif Require Import Base BaseFacts CborModel ValueModel ValueProofs Text Assoc Hex TypesModel CryptoSpec TypesProofs VoucherModel VoucherSpec VoucherProofs VoucherProofs2 KexModel KexSpec RvModel StoreModel StoreSpec Backend
  MsgModel SessionModel SessionSpec HttpClientModel HttpClientSpec RvServerModel SiModel DevSiModel SiSpec SiProofs2 SiApiModel SiApiSpec SiApiRun OwnerModel OwnerSpec ClientModel ClientSpec ClientProofs ClientHonest OnboardSpec OnboardProofs OnboardProofs2 OnboardSi.
From Verif Require P_Honest P_Servers CoseFacts.
From Coq Require Import ZifyBool ZifyNat ZifyN.
Local Open Scope N_scope.
Set Default Proof Using "Type".
Local Opaque dec_top from_slice any_value.

(** ** The history grows *)
Definition growing {B} (m : dm B) : Prop := forall s, exists l, s_hist (fst (m s)) = s_hist s ++ l.
Lemma emits_growing Q {B} (m : dm B) : emits Q m -> growing m.
Proof. intros E s. destruct (m s) as [s' r] eqn:M. apply (grows_prefix (fun _ => Q)). exact (E s s' r M). Qed.
Lemma growing_dbind {B C} (m : dm B) (f : B -> dm C) : growing m -> (forall a, growing (f a)) -> growing (dbind m f).
Proof.
  intros M F s. unfold dbind. destruct (M s) as (l & E). destruct (m s) as [s1 [a| |]]; cbn [fst] in *; [|eauto|eauto].
  destruct (F a s1) as (l2 & E2). rewrite E2, E, <- app_assoc. eauto.
Qed.
Lemma growing_ret {B} (a : B) : growing (ret a).
Proof. intros s. exists []. rewrite app_nil_r. reflexivity. Qed.
Lemma growing_fail {B} : growing (@fail B).
Proof. intros s. exists []. rewrite app_nil_r. reflexivity. Qed.
Lemma growing_lift {E B} (o : outcome E B) : growing (lift o).
Proof. intros s. exists []. rewrite app_nil_r. reflexivity. Qed.
Lemma growing_io wo ev : growing (io wo ev).
Proof. intros s. eexists. reflexivity. Qed.
Lemma growing_draw wo n : growing (draw wo n).
Proof. intros s. exists []. rewrite app_nil_r. reflexivity. Qed.
Section growth.
Context (A : aead) (c : crypto) (chk : bool) (ko : kex_ops) (avail : bool) (prefix : option str) (wo : world).
Lemma growing_reporting {B} (m : dm B) : growing m -> growing (reporting A avail wo m).
Proof.
  intros M s. unfold reporting. destruct (M s) as (l & E). destruct (m s) as [s1 [a|e|p]]; cbn [fst] in *; [eauto| |eauto].
  destruct (emits_growing _ _ (emits_complain A avail wo) s1) as (l2 & E2). destruct (complain A avail wo s1) as [s2 [ |e2|p2]]; cbn [fst] in *; rewrite E2, E, <- app_assoc; eauto.
Qed.
Lemma growing_handle l : growing (handle_info c prefix wo l).
Proof. intros s. unfold handle_info. destruct (process _ _ _ _ _) as [d r]. cbn [fst s_hist]. eauto. Qed.
Lemma growing_ask om sm b new : growing (ask A avail wo om sm b new).
Proof. exact (emits_growing _ _ (ask_emits A avail wo om sm b new)). Qed.
Lemma growing_info n : forall out r, growing (info_loop A c avail prefix wo n out r).
Proof.
  induction n as [|n IH]; intros out r; cbn [info_loop]; [apply growing_fail|]. apply growing_dbind; [apply growing_ask|]. intros b. apply growing_dbind; [apply growing_lift|].
  intros [[more fin] l]. destruct fin; [apply growing_ret|]. destruct more; [apply growing_fail|]. apply growing_dbind; [apply growing_handle|]. intros [r' out']. apply IH.
Qed.
Lemma growing_perform_info : growing (perform_info A c avail prefix wo).
Proof. unfold perform_info. apply growing_dbind; [apply growing_lift|]. intros out. apply growing_info. Qed.
Lemma growing_deactivate m : growing (deactivate wo m).
Proof. destruct m; cbn [deactivate]; [apply growing_ret|apply growing_io|]. apply growing_dbind; [apply growing_io|]. intros _. apply growing_io. Qed.
End growth.
Lemma fits_app a b : fits (a ++ b) -> fits a.
Proof. intros F url w I. eapply F. apply in_or_app. left. exact I. Qed.
Lemma fits_first {B C} (m : dm B) (f : B -> dm C) s : (forall a, growing (f a)) -> fits (s_hist (fst (dbind m f s))) -> fits (s_hist (fst (m s))).
Proof.
  intros F H. unfold dbind in H. destruct (m s) as [s1 [a| |]]; cbn [fst] in *; [|exact H|exact H].
  destruct (F a s1) as (l & E). rewrite E in H. eapply fits_app. exact H.
Qed.
Lemma fits_then {B C} (m : dm B) (f : B -> dm C) s s1 a : m s = (s1, Ok a) -> fits (s_hist (fst (dbind m f s))) -> fits (s_hist (fst (f a s1))).
Proof. intros E H. unfold dbind in H. rewrite E in H. exact H. Qed.
Lemma dbind_step {B C} (m : dm B) (f : B -> dm C) s s1 a : m s = (s1, Ok a) -> dbind m f s = f a s1.
Proof. intros E. unfold dbind. rewrite E. reflexivity. Qed.
Lemma reporting_step A avail wo {B} (m : dm B) s s1 a : m s = (s1, Ok a) -> reporting A avail wo m s = (s1, Ok a).
Proof. intros E. unfold reporting. rewrite E. reflexivity. Qed.
Lemma fits_reporting A avail wo {B} (m : dm B) s : fits (s_hist (fst (reporting A avail wo m s))) -> fits (s_hist (fst (m s))).
Proof.
  unfold reporting. destruct (m s) as [s1 [a|e|p]]; cbn [fst]; auto. destruct (emits_growing _ _ (emits_complain A avail wo) s1) as (l2 & E2).
  destruct (complain A avail wo s1) as [s2 [ |e2|p2]]; cbn [fst] in *; rewrite E2; apply fits_app.
Qed.

(** ** The phases *)
Section session.
Context (A : aead) (AR : aead_roundtrip A) (SLG : seal_longer A) (idt : str -> option str) (c : crypto) (HO : outputs_ok c) (HS : sign_correct c) (chk : bool)
  (ko : kex_ops) (CL : curve_laws ko) (KW : kex_works ko) (SDV : P_Servers.seals_derived ko A) (cf : owconf) {W : Type} (be : backend voucher W)
  (key : str) (v : voucher) (holds : W -> Prop) (KP : keeper be key v holds)
  (avail : bool) (prefix : option str) (wo : world) (url : str) (surr : list devent -> around W) (at_ : list devent -> sys (W:=W) (D:=owdata))
  (SD : served A idt (ow_server c chk ko cf be) (oc_kdf_avail cf) wo url surr at_)
  (id : str) (QU : forall h, quiet idt id holds (an_before (surr h)))
  (to1d : cose) (IO : its_owner c chk cf v to1d) (dc : devcred) (IV : its_voucher c chk dc v) (KEY : guid_text (dc_guid dc) = Some key)
  (OR : forall h, owner_ready ko idt (surr h)) (DR : device_ready ko wo).
Notation syn := (synced A idt cf holds url at_ id).
Notation start := (starting idt holds url surr at_ id).
Notation askW := (ask A avail wo).
Definition data1 (n6 : bytes) (kx : kex) : owdata := OwData (Some key) (Some n6) (Some A256Gcm) (Some kx) None false None.
Definition data2 (n6 n7 : bytes) (loops : option N) : owdata := OwData (Some key) (Some n6) None None (Some n7) true loops.
Lemma key_back : guid_parse key = Some (dc_guid dc).
Proof using IV KEY. apply guid_round; [apply (iv_guid_ok _ _ _ _ IV)|exact KEY]. Qed.
Lemma load_here w e : holds w -> oe_fault e = IoOk -> ow_load be w e key = (w, Ok (Some v)).
Proof using KP. intros H F. unfold ow_load. rewrite F, (kp_load _ _ _ _ KP _ _ H). reflexivity. Qed.

Lemma hello_phase s n5 : start s -> nonce_ok n5 -> fits (s_hist (fst (perform_hellodevice A c chk avail wo dc n5 s))) ->
  exists s1 w kx pub tok ph n6, perform_hellodevice A c chk avail wo dc n5 s = (s1, Ok (tok, ph)) /\ s_hist s1 = s_hist s ++ [TWire url w] /\ wr_type w = 60 /\
    hc_keys (s_hc s1) = unencrypted /\ hc_last (s_hc s1) = Some TO2ProveOVHdr /\ syn s1 (Ses (Some TO2ProveOVHdr) None (data1 n6 kx)) /\
    nonce_ok n6 /\ kex_ok ko (Some kx) /\ get_public ko kx = Ok pub /\ signed_by c (c_pub c (oc_sk cf)) tok /\ read_provehdr chk (cs_payload tok) = Ok ph /\
    header_raw v (ph_header ph) /\ ph_hmac ph = ov_hmac v /\ ph_num ph = nlen (entries_raw v) /\ ph_kex ph = pub /\ cose_get_unprotected as_bstr16 tok CUPH_NONCE = Ok (Some n6).
Proof using AR SLG HO HS CL KW SDV KP SD QU IO IV KEY OR DR.
  intros ST N5 FT. destruct (OR (s_hist s)) as [ON OK OG OT]. set (e := env_at avail surr (s_hist s)). set (pt := enc (hello_val (dc_guid dc) n5)).
  destruct (hello_answered c HO HS chk ko CL cf v to1d IO dc IV e n5 pt N5 ON OK) as (kx & pub & tok & b & ph & EK & GP & HR & CD & SG & RP & HR' & HM & NU & PK & CH & UN).
  assert (HC : s_hc s = client_new) by apply (sg_new _ _ _ _ _ _ _ ST).
  assert (GID : nonce_ok (dc_guid dc)) by (split; apply (iv_guid_ok _ _ _ _ IV)).
  destruct (ask_served A AR SLG idt c chk ko cf be key v holds KP avail wo url surr at_ SD id QU TO2HelloDevice TO2ProveOVHdr pt None s (Ses None None ow_new)
     (MHelloDevice (HelloDevice 17 (dc_guid dc) n5 Ecdh384 A256Gcm (ES384, [])) (Hash Sha256 (c_hash c Sha256 pt))) (data1 (oe_nonce e) kx) b (fun _ => True))
    as (s1 & w & AK & HH & WT & HK & HL & SY & _).
  - right. split; [exact ST|reflexivity].
  - rewrite HC. reflexivity.
  - reflexivity.
  - rewrite HC. reflexivity.
  - rewrite HC. reflexivity.
  - reflexivity.
  - intros _. unfold ow_parse, pt. rewrite hello_read by assumption. reflexivity.
  - intros w Hw. exists w. split; [|exact Logic.I]. cbn [ow_handle]. unfold h_hellodevice. cbn [hd2_guid]. rewrite KEY.
    rewrite (load_here w (env_at avail surr (s_hist s)) Hw eq_refl). fold e. rewrite HR. reflexivity.
  - exact Logic.I.
  - eapply fits_first; [|exact FT]. intros b'. apply growing_dbind; [apply growing_lift|]. intros t. apply growing_dbind; [apply growing_lift|]. intros p. apply growing_ret.
  - exists s1, w, kx, pub, tok, ph, (oe_nonce e). split.
    { unfold perform_hellodevice. fold pt. rewrite (dbind_step _ _ _ _ _ AK). unfold dbind, lift. rewrite CD. cbn [map_err]. rewrite CH. reflexivity. }
    split; [exact HH|]. split; [exact WT|]. split; [rewrite HK, HC; reflexivity|]. split; [exact HL|]. split; [exact SY|]. split; [exact ON|]. split; [rewrite <- EK; exact OK|]. tauto.
Qed.

Lemma one_served s last n6 kx i raw : syn s (Ses last None (data1 n6 kx)) -> hc_keys (s_hc s) = unencrypted -> (last = Some TO2ProveOVHdr \/ last = Some TO2OVNextEntry) ->
  i < 256 -> nth_error (entries_raw v) (N.to_nat i) = Some raw -> fits (s_hist (fst (askW TO2GetOVNextEntry TO2OVNextEntry (Ok (enc (VArr [VInt (Z.of_N (i mod 256))]))) None s))) ->
  exists s1 w e b, askW TO2GetOVNextEntry TO2OVNextEntry (Ok (enc (VArr [VInt (Z.of_N (i mod 256))]))) None s = (s1, Ok b) /\ read_ovnext chk b = Ok (i, e) /\ cose_serialize e = Ok raw /\
    s_hist s1 = s_hist s ++ [TWire url w] /\ wr_type w = 62 /\ hc_keys (s_hc s1) = unencrypted /\ syn s1 (Ses (Some TO2OVNextEntry) None (data1 n6 kx)).
Proof using AR SLG HO HS CL KW SDV KP SD QU IO IV KEY OR DR.
  intros SY HK LA I NE FT. replace (i mod 256) with i in * by lia.
  destruct (issued_rewrites c chk v HO HS (io_issued _ _ _ _ _ IO)) as (RW & _). pose proof (k_entries _ _ _ (made_kept _ _ _ HO HS (issued_made _ _ _ (io_issued _ _ _ _ _ IO)))) as IT.
  pose proof (issued_size c chk v HO HS (io_issued _ _ _ _ _ IO)) as SZ. pose proof (io_number _ _ _ _ _ IO) as NU.
  destruct (entry_read chk v i raw RW IT ltac:(lia) NE ltac:(lia)) as (e & b & EN & ON & RD & CS).
  pose proof (sy_last _ _ _ _ _ _ _ _ _ SY) as SLA. cbn [ses_last] in SLA.
  destruct (ask_served A AR SLG idt c chk ko cf be key v holds KP avail wo url surr at_ SD id QU TO2GetOVNextEntry TO2OVNextEntry (enc (VArr [VInt (Z.of_N i)])) None s
     (Ses last None (data1 n6 kx)) (MGetEntry i) (data1 n6 kx) b (fun _ => True)) as (s1 & w & AK & HH & WT & HK1 & HL & SY1 & _).
  - left. exact SY.
  - rewrite <- SLA. destruct LA as [->| ->]; reflexivity.
  - reflexivity.
  - rewrite HK. reflexivity.
  - rewrite HK. reflexivity.
  - reflexivity.
  - intros _. unfold ow_parse. rewrite getentry_read by lia. reflexivity.
  - intros w Hw. exists w. split; [|exact Logic.I]. cbn [ow_handle]. unfold h_getentry. cbn [ses_data data1 od_guid]. rewrite key_back, KEY.
    rewrite (load_here w (env_at avail surr (s_hist s)) Hw eq_refl), EN, ON. reflexivity.
  - exact Logic.I.
  - exact FT.
  - exists s1, w, e, b. split; [exact AK|]. split; [exact RD|]. split; [exact CS|]. split; [exact HH|]. split; [exact WT|]. split; [congruence|exact SY1].
Qed.
Lemma growing_entries i n es : growing (get_entries A chk avail wo i n es).
Proof. exact (emits_growing _ _ (emits_entries A chk avail wo n i es)). Qed.
Lemma entries_phase n6 kx : forall n i es s last, syn s (Ses last None (data1 n6 kx)) -> hc_keys (s_hc s) = unencrypted -> (last = Some TO2ProveOVHdr \/ last = Some TO2OVNextEntry) ->
  (N.to_nat i + n = length (entries_raw v))%nat -> fits (s_hist (fst (get_entries A chk avail wo i n es s))) ->
  exists s1 l, get_entries A chk avail wo i n es s = (s1, Ok (es ++ skipn (N.to_nat i) (entries_raw v))) /\ s_hist s1 = s_hist s ++ l /\ Forall (wire_of url 62) l /\ length l = n /\
    hc_keys (s_hc s1) = unencrypted /\ syn s1 (Ses (match n with O => last | _ => Some TO2OVNextEntry end) None (data1 n6 kx)).
Proof using AR SLG HO HS CL KW SDV KP SD QU IO IV KEY OR DR.
  induction n as [|n IH]; intros i es s last SY HK LA LE FT.
  - exists s, []. cbn [get_entries]. split; [rewrite skipn_all2 by lia; rewrite app_nil_r; reflexivity|]. split; [rewrite app_nil_r; reflexivity|]. split; [constructor|]. split; [reflexivity|]. split; assumption.
  - pose proof (io_number _ _ _ _ _ IO) as NU. unfold nlen in NU. cbn [get_entries] in FT |- *.
    destruct (nth_error (entries_raw v) (N.to_nat i)) as [raw|] eqn:NE; [|apply nth_error_None in NE; lia].
    match type of FT with context [dbind ?m ?f s] => assert (F1 : fits (s_hist (fst (m s)))); [eapply (fits_first m f); [|exact FT]|] end.
    { intros b. apply growing_dbind; [apply growing_lift|]. intros [num e]. destruct (negb (num =? i)); [apply growing_fail|]. apply growing_dbind; [apply growing_lift|]. intros raw'. apply growing_entries. }
    destruct (one_served s last n6 kx i raw SY HK LA ltac:(lia) NE F1) as (s1 & w & e & b & AK & RD & CS & HH & WT & HK1 & SY1).
    rewrite (dbind_step _ _ _ _ _ AK) in FT |- *. 
    rewrite (dbind_step (lift (read_ovnext chk b)) _ s1 s1 (i, e)) in FT |- * by (unfold lift; rewrite RD; reflexivity). rewrite N.eqb_refl in FT |- *. cbn [negb] in FT |- *.
    rewrite (dbind_step (lift (cose_serialize e)) _ s1 s1 raw) in FT |- * by (unfold lift; rewrite CS; reflexivity).
    destruct (IH (i + 1) (es ++ [raw]) s1 (Some TO2OVNextEntry) SY1 HK1 (or_intror eq_refl) ltac:(lia) FT) as (s2 & l & G & HH2 & FL & LL & HK2 & SY2).
    exists s2, (TWire url w :: l). split.
    { rewrite G. f_equal. f_equal. rewrite <- app_assoc. f_equal. replace (N.to_nat (i + 1)) with (S (N.to_nat i)) by lia. clear -NE. revert NE. generalize (N.to_nat i) (entries_raw v). clear i.
      intros k. induction k as [|k IH]; intros [|x l] NE; cbn [nth_error] in NE; try discriminate; [inversion NE; reflexivity|]. cbn [skipn] in *. apply IH. exact NE. }
    split; [rewrite HH2, HH, <- app_assoc; reflexivity|]. split; [constructor; [exists w; split; [reflexivity|exact WT]|exact FL]|]. split; [cbn [length]; lia|]. split; [exact HK2|]. destruct n; exact SY2.
Qed.
Lemma verify_phase n6 kx s tok ph : syn s (Ses (Some TO2ProveOVHdr) None (data1 n6 kx)) -> hc_keys (s_hc s) = unencrypted ->
  signed_by c (c_pub c (oc_sk cf)) tok -> read_provehdr chk (cs_payload tok) = Ok ph -> header_raw v (ph_header ph) -> ph_hmac ph = ov_hmac v -> ph_num ph = nlen (entries_raw v) ->
  fits (s_hist (fst (get_and_verify A c chk avail wo tok ph to1d s))) ->
  exists s1 l, get_and_verify A c chk avail wo tok ph to1d s = (s1, Ok ph) /\ s_hist s1 = s_hist s ++ l /\ Forall (wire_of url 62) l /\ nlen l = nlen (entries_raw v) /\
    hc_keys (s_hc s1) = unencrypted /\ syn s1 (Ses (Some TO2OVNextEntry) None (data1 n6 kx)).
Proof using AR SLG HO HS CL KW SDV KP SD QU IO IV KEY OR DR.
  intros SY HK SG RP HR HM NU FT. unfold get_and_verify in *. pose proof (io_number _ _ _ _ _ IO) as IN.
  assert (F1 : fits (s_hist (fst (get_entries A chk avail wo 0 (N.to_nat (ph_num ph)) [] s)))) by (eapply fits_first; [|exact FT]; intros es; apply growing_lift).
  destruct (entries_phase n6 kx (N.to_nat (ph_num ph)) 0 [] s (Some TO2ProveOVHdr) SY HK (or_introl eq_refl)) as (s1 & l & G & HH & FL & LL & HK1 & SY1); [rewrite NU; unfold nlen; lia|exact F1|].
  change (skipn (N.to_nat 0) (entries_raw v)) with (entries_raw v) in G. cbn [app] in G.
  destruct (io_key _ _ _ _ _ IO) as (ps & VE & OK). pose proof (P_Honest.verified_number _ _ _ _ VE) as PN.
  destruct (P_Honest.last_owner v ps) as (qs & q & -> & LO); [intros ->; cbn in PN; unfold nlen in IN; lia|]. rewrite LO in OK.
  exists s1, l. split.
  { rewrite (dbind_step _ _ _ _ _ G). unfold lift. rewrite (check_owner_accepts c chk v (ph_header ph) qs q tok ph to1d ph HO HS (io_issued _ _ _ _ _ IO) HR ltac:(lia) VE eq_refl HM); [reflexivity| |].
    - rewrite OK. apply P_Honest.signed_get; assumption.
    - rewrite OK. apply P_Honest.signed_verifies. apply (io_to1d _ _ _ _ _ IO). }
  split; [exact HH|]. split; [exact FL|]. split; [unfold nlen in *; lia|]. split; [exact HK1|].
  destruct (N.to_nat (ph_num ph)) eqn:Z; [lia|exact SY1].
Qed.

Lemma prove_phase n6 n7 kO pubO kD ph s : syn s (Ses (Some TO2OVNextEntry) None (data1 n6 kO)) -> hc_keys (s_hc s) = unencrypted -> nonce_ok n6 -> nonce_ok n7 ->
  kex_ok ko (Some kO) -> get_public ko kO = Ok pubO -> ph_kex ph = pubO -> wo_kex wo (s_hist s) Ecdh384 = Some kD ->
  exists keys, key_derivation ko avail wo ph s = (s, Ok (kD, keys)) /\ (fits (s_hist (fst (perform_provedevice A c chk ko avail wo dc kD n6 n7 keys s))) ->
  exists s1 w, perform_provedevice A c chk ko avail wo dc kD n6 n7 keys s = (s1, Ok tt) /\ s_hist s1 = s_hist s ++ [TWire url w] /\ wr_type w = 64 /\ ek_is_some keys = true /\
    hc_keys (s_hc s1) = keys /\ hc_last (s_hc s1) = Some TO2SetupDevice /\ syn s1 (Ses (Some TO2SetupDevice) (Some keys) (data2 n6 n7 None))).
Proof using AR SLG HO HS CL KW SDV KP SD QU IO IV KEY OR DR.
  intros SY HK N6 N7 KO GO PK EK. pose proof (dr_kex _ _ DR (s_hist s)) as KD. rewrite EK in KD.
  destruct (public_ok ko kD CL KD) as (pubD & GD & PB & PL).
  set (e := env_at avail surr (s_hist s)). set (rnd := wo_rand wo (s_hist s) 2).
  destruct (token_made c HO HS chk v dc IV pubD n6 n7 rnd PB PL N6 N7) as (t & raw & CN & CS & CD & CP & CU & SG).
  destruct (prove_accepted c HO HS chk ko CL cf v to1d IO dc IV (kex_works ko) e n6 n7 kD kO pubD pubO avail t eq_refl KW N6 N7 (or_guid _ _ _ (OR (s_hist s))) KD KO GD GO eq_refl CP CU SG) as (kraw & b & st & DK & PC & SB).
  pose proof (P_Servers.prove_check_keys _ _ _ _ _ _ _ _ _ _ _ _ _ A SDV PC) as US. set (keys := from_derived 3 (Combined kraw)) in *.
  exists keys. split.
  { unfold key_derivation. rewrite (sy_kdf _ _ _ _ _ _ _ _ _ SY). rewrite EK. cbn [of_option bind]. rewrite PK, DK. reflexivity. }
  intros FT. unfold perform_provedevice in *.
  rewrite (dbind_step (draw wo 2) _ s s rnd) in FT |- * by reflexivity.
  match type of FT with context [dbind (lift ?o) ?f s] => rewrite (dbind_step (lift o) f s s t) in FT |- * by (unfold lift; rewrite GD; cbn [bind]; rewrite CN; reflexivity) end.
  rewrite CS in FT |- *.
  match type of FT with context [dbind ?m ?f s] => assert (F1 : fits (s_hist (fst (m s)))); [eapply (fits_first m f); [|exact FT]|] end.
  { intros b'. apply growing_dbind; [apply growing_lift|]. intros _. apply growing_ret. }
  pose proof (sy_last _ _ _ _ _ _ _ _ _ SY) as SLA. cbn [ses_last] in SLA.
  destruct (ask_served A AR SLG idt c chk ko cf be key v holds KP avail wo url surr at_ SD id QU TO2ProveDevice TO2SetupDevice raw (Some keys) s
     (Ses (Some TO2OVNextEntry) None (data1 n6 kO)) (MProveDevice t) (data2 n6 n7 None) b (fun _ => True)) as (s1 & w & AK & HH & WT & HK1 & HL & SY1 & _).
  - left. exact SY.
  - rewrite <- SLA. reflexivity.
  - reflexivity.
  - rewrite HK. reflexivity.
  - rewrite HK. reflexivity.
  - reflexivity.
  - intros _. unfold ow_parse. rewrite CD. reflexivity.
  - intros w Hw. exists w. split; [|exact Logic.I]. cbn [ow_handle]. unfold h_prove. cbn [ses_data data1 od_guid od_nonce6 od_kex od_cipher]. rewrite key_back, KEY.
    rewrite (load_here w (env_at avail surr (s_hist s)) Hw eq_refl). fold e. rewrite PC. reflexivity.
  - exact US.
  - exact F1.
  - exists s1, w. split; [rewrite (dbind_step _ _ _ _ _ AK); unfold dbind, lift; rewrite SB; reflexivity|]. split; [exact HH|]. split; [exact WT|]. split; [apply (usable_is_some A); exact US|]. split; [exact HK1|]. split; [exact HL|exact SY1].
Qed.
Lemma dsiready_read : from_slice as_dsiready (enc (VArr [VNull; VNull])) = Ok tt. Proof. vm_compute. reflexivity. Qed.
Lemma osiready_read : from_slice as_osiready (enc (VArr [VNull])) = Ok tt. Proof. vm_compute. reflexivity. Qed.
Lemma siready_phase keys d s : syn s (Ses (Some TO2SetupDevice) (Some keys) d) -> hc_keys (s_hc s) = keys -> ek_is_some keys = true -> od_proven d = true ->
  fits (s_hist (fst (perform_siready A avail wo s))) ->
  exists s1 w, perform_siready A avail wo s = (s1, Ok tt) /\ s_hist s1 = s_hist s ++ [TWire url w] /\ wr_type w = 66 /\ hc_keys (s_hc s1) = keys /\ syn s1 (Ses (Some TO2OwnerServiceInfoReady) (Some keys) d).
Proof using AR SLG KP SD QU.
  intros SY HK ES PR FT. unfold perform_siready in *. pose proof (sy_last _ _ _ _ _ _ _ _ _ SY) as SLA. cbn [ses_last] in SLA.
  destruct (ask_served A AR SLG idt c chk ko cf be key v holds KP avail wo url surr at_ SD id QU TO2DeviceServiceInfoReady TO2OwnerServiceInfoReady (enc (VArr [VNull; VNull])) None s
     (Ses (Some TO2SetupDevice) (Some keys) d) MSiReady d (enc (VArr [VNull])) (fun _ => True)) as (s1 & w & AK & HH & WT & HK1 & HL & SY1 & _).
  - left. exact SY.
  - rewrite <- SLA. reflexivity.
  - reflexivity.
  - rewrite HK, ES. reflexivity.
  - rewrite HK, ES. reflexivity.
  - reflexivity.
  - intros _. unfold ow_parse. rewrite dsiready_read. reflexivity.
  - intros w Hw. exists w. split; [|exact Logic.I]. cbn [ow_handle]. unfold h_siready. cbn [ses_data]. rewrite PR. reflexivity.
  - exact Logic.I.
  - eapply fits_first; [|exact FT]. intros b. apply growing_dbind; [apply growing_lift|]. intros _. apply growing_ret.
  - exists s1, w. split; [rewrite (dbind_step _ _ _ _ _ AK); unfold dbind, lift; rewrite osiready_read; reflexivity|]. split; [exact HH|]. split; [exact WT|]. split; [congruence|exact SY1].
Qed.

(** *** Events that do not concern the server *)
Lemma syn_rest s ses l : syn s ses -> (forall e w, In e l -> e <> TWire url w) -> syn (St (s_hist s ++ l) (s_url s) (s_hc s)) ses.
Proof using SD.
  intros SY N. assert (E : at_ (s_hist s ++ l) = at_ (s_hist s)).
  { revert N. induction l as [|e l IH] using rev_ind; intros N; [rewrite app_nil_r; reflexivity|]. rewrite app_assoc, (sd_rest _ _ _ _ _ _ _ _ SD).
    - apply IH. intros e' w I. apply N. apply in_or_app. left. exact I.
    - intros w. apply N. apply in_or_app. right. left. reflexivity. }
  destruct SY as [S1 S2 S3 S4 S5 S6 S7 S8 S9]. constructor; cbn [s_hist s_url s_hc]; rewrite ?E; assumption.
Qed.
Lemma fx_rest es : forall e w, In e (map TFx es) -> e <> TWire url w.
Proof. intros e w I. apply in_map_iff in I. destruct I as (x & <- & _). discriminate. Qed.

(** *** Service info *)
Section info.
Context (tok : tokens) (auth : str) (AUTH : info_auth tok auth = true) (conf : settings rawfile) (sc : settings sifile) (FS : from_settings c conf = Some sc) (CF : config_fine conf) (HSZ : hash_sizes c)
  (pd : bytes -> option (option inituser)) (API : forall h mods, an_api (surr h) key mods = ask_api tok auth sc pd (dc_guid dc) mods).
Definition the_user : option inituser := match pd (dc_guid dc) with Some u => u | None => st_user conf end.
Context (UF : forall u, the_user = Some u -> user_fine u)
  (SZ : forall mods l, list_of_reply (make_reply sc (pd (dc_guid dc)) mods) = Some l -> nlen (enc (silist_val l)) < 18446744073709551616).
Lemma obliging_willing h : willing (fun es => wo_fx wo (h ++ map TFx es)).
Proof using DR.
  intros es e. pose proof (dr_fx _ _ DR (h ++ map TFx es) e) as H. rewrite map_app, app_assoc. cbn [map]. destruct e; try exact H. destruct H as (o & er & H & _). exists o, er. exact H.
Qed.
Lemma obliging_out h : forall es e out err code, wo_fx wo (h ++ map TFx (es ++ [e])) = Output out err code -> bytes_ok out /\ bytes_ok err.
Proof using DR.
  intros es e out err code E. pose proof (dr_fx _ _ DR (h ++ map TFx es) e) as H. rewrite map_app, app_assoc in E. cbn [map] in E. destruct e; try (rewrite H in E; discriminate E).
  destruct H as (o & er & H & B1 & B2). rewrite H in E. inversion E; subst. auto.
Qed.
Lemma round_served keys out d last s l rep fin : syn s (Ses last (Some keys) d) -> hc_keys (s_hc s) = keys -> ek_is_some keys = true ->
  (last = Some TO2OwnerServiceInfoReady \/ last = Some TO2OwnerServiceInfo) -> Forall legible out -> od_proven d = true -> od_guid d = Some key ->
  match od_loops d with Some n => n | None => 0 end <= 1000 ->
  perform_service_info (an_api (surr (s_hist s)) key) (match od_loops d with Some n => n | None => 0 end) out = Some (rep, fin, l) ->
  fits (s_hist (fst (askW TO2DeviceServiceInfo TO2OwnerServiceInfo (Ok (enc (VArr [VBool false; silist_val out]))) None s))) ->
  exists s1 w, askW TO2DeviceServiceInfo TO2OwnerServiceInfo (Ok (enc (VArr [VBool false; silist_val out]))) None s = (s1, Ok (enc (VArr [VBool rep; VBool fin; silist_val l]))) /\
    s_hist s1 = s_hist s ++ [TWire url w] /\ wr_type w = 68 /\ hc_keys (s_hc s1) = keys /\
    syn s1 (Ses (Some TO2OwnerServiceInfo) (Some keys) (OwData (od_guid d) (od_nonce6 d) (od_cipher d) (od_kex d) (od_nonce7 d) (od_proven d) (Some (match od_loops d with Some n => n | None => 0 end + 1)))).
Proof using AR SLG KP SD QU IV KEY AUTH API SZ.
  intros SY HK ES LA LG PR GD NL PSI FT. pose proof (sy_last _ _ _ _ _ _ _ _ _ SY) as SLA. cbn [ses_last] in SLA.
  destruct (ask_served A AR SLG idt c chk ko cf be key v holds KP avail wo url surr at_ SD id QU TO2DeviceServiceInfo TO2OwnerServiceInfo (enc (VArr [VBool false; silist_val out])) None s
     (Ses last (Some keys) d) (MServiceInfo false out) (OwData (od_guid d) (od_nonce6 d) (od_cipher d) (od_kex d) (od_nonce7 d) (od_proven d) (Some (match od_loops d with Some n => n | None => 0 end + 1)))
     (enc (VArr [VBool rep; VBool fin; silist_val l])) (fun _ => True)) as (s1 & w & AK & HH & WT & HK1 & HL & SY1 & _).
  - left. exact SY.
  - rewrite <- SLA. destruct LA as [->| ->]; reflexivity.
  - reflexivity.
  - rewrite HK, ES. reflexivity.
  - rewrite HK, ES. reflexivity.
  - reflexivity.
  - intros LE. unfold ow_parse. rewrite dsi_read; [reflexivity|exact LG|]. rewrite enc_arr, nlen_app in LE. set (L := silist_val out) in *. cbn [map concat] in LE. rewrite !nlen_app in LE. unfold two64. lia.
  - intros w Hw. exists w. split; [|exact Logic.I]. cbn [ow_handle]. unfold h_serviceinfo. cbn [ses_data]. rewrite PR, GD. cbn [negb]. rewrite key_back, KEY. cbv zeta.
    assert (MAX_SERVICE_INFO_LOOPS <? match od_loops d with Some n => n | None => 0 end = false) as -> by (unfold MAX_SERVICE_INFO_LOOPS; destruct (od_loops d); lia).
    unfold env_at. cbn [oe_api]. rewrite PSI. reflexivity.
  - exact Logic.I.
  - exact FT.
  - exists s1, w. split; [exact AK|]. split; [exact HH|]. split; [exact WT|]. split; [congruence|exact SY1].
Qed.
Lemma api_reply h mods : an_api (surr h) key mods = Some (make_reply sc (pd (dc_guid dc)) (asked_of mods)).
Proof using API AUTH. rewrite API. unfold ask_api, serve. cbn [hr_verb hr_path hr_auth hr_query q_version q_guid q_modules]. rewrite AUTH. reflexivity. Qed.
Lemma info_phase keys n6 n7 s : syn s (Ses (Some TO2OwnerServiceInfoReady) (Some keys) (data2 n6 n7 None)) -> hc_keys (s_hc s) = keys -> ek_is_some keys = true ->
  fits (s_hist (fst (perform_info A c avail prefix wo s))) ->
  exists s1 w1 w2 es, perform_info A c avail prefix wo s = (s1, Ok (match st_reboot conf with Some b => b | None => false end)) /\ s_hist s1 = s_hist s ++ TWire url w1 :: map TFx es ++ [TWire url w2] /\
    wr_type w1 = 68 /\ wr_type w2 = 68 /\ configured prefix conf the_user (offered wo) es /\ hc_keys (s_hc s1) = keys /\ syn s1 (Ses (Some TO2OwnerServiceInfo) (Some keys) (data2 n6 n7 (Some 2))).
Proof using AR SLG HO KP SD QU IV KEY DR AUTH FS CF HSZ API UF SZ.
  intros SY HK ES FT. destruct (dr_release _ _ DR) as (name & RL & SN). pose proof (dr_arch _ _ DR) as SA. destruct (dr_mods _ _ DR) as [ND KM].
  unfold perform_info in *. pose proof (first_told wo name RL) as FI.
  rewrite (dbind_step (lift (first_info wo)) _ s s (si_of (told wo name))) in FT |- * by (unfold lift; rewrite FI; reflexivity).
  change MAX_INFO_LOOPS with (S (S 998)) in FT |- *. revert FT. generalize 998%nat. intros nn FT. cbn [info_loop] in FT |- *.
  assert (SSH : existsb (simod_eqb SSHKey) (asked wo) = true) by (rewrite asked_mem by exact KM; reflexivity).
  assert (RBT : existsb (simod_eqb Reboot) (asked wo) = true) by (rewrite asked_mem by exact KM; reflexivity).
  (* the first round *)
  match type of FT with context [dbind ?m ?f s] => assert (F1 : fits (s_hist (fst (m s)))); [eapply (fits_first m f); [|exact FT]|] end.
  { intros b. apply growing_dbind; [apply growing_lift|]. intros [[mo fi] l']. destruct fi; [apply growing_ret|]. destruct mo; [apply growing_fail|]. apply growing_dbind; [apply growing_handle|]. intros [r' o']. exact (growing_info A c avail prefix wo (S nn) o' (if false then true else r')). }
  assert (PSI0 : forall l, list_of_reply (make_reply sc (pd (dc_guid dc)) (asked wo)) = Some l -> perform_service_info (an_api (surr (s_hist s)) key) 0 (si_of (told wo name)) = Some (false, false, l)).
  { intros l LR. unfold perform_service_info. change (negb (0 =? 0)) with false. cbv iota. rewrite told_modules by assumption. rewrite api_reply. fold (asked wo). rewrite LR. reflexivity. }
  assert (CO : forall w, willing w -> exists l sd written, list_of_reply (make_reply sc (pd (dc_guid dc)) (asked wo)) = Some l /\ process c w prefix l [] = (sd, Ok tt) /\
    Forall2 (file_written prefix) (part (offered wo) BinaryFile (st_files conf)) written /\
    effects (d_log sd) = written ++ map command_run (part (offered wo) Command (st_commands conf)) ++ flat_map disk_bound (part (offered wo) DiskEncryption (st_disks conf)) ++ match the_user with Some u => user_made u | None => [] end /\
    d_reboot sd = match st_reboot conf with Some b => b | None => false end /\ Forall legible l).
  { intros w WI. pose proof (carried_out_list c w prefix conf sc (pd (dc_guid dc)) (asked wo) [] WI HSZ HO FS CF) as H. cbv zeta in H. rewrite SSH, RBT in H. destruct (H UF) as (l & sd & wr & H1 & H2 & H3 & H4 & H5 & H6).
    exists l, sd, wr. rewrite !asked_part in * by exact KM. repeat (split; [assumption|]). assumption. }
  destruct (CO _ (obliging_willing [])) as (l & _ & _ & LR & _ & _ & _ & _ & LL). 
  destruct (round_served keys (si_of (told wo name)) (data2 n6 n7 None) _ s l false false SY HK ES (or_introl eq_refl) (told_legible wo name SN SA ND KM) eq_refl eq_refl ltac:(cbn [data2 od_loops]; lia) (PSI0 l LR) F1)
    as (s1 & w1 & AK1 & HH1 & WT1 & HK1 & SY1). cbn [data2 od_guid od_nonce6 od_cipher od_kex od_nonce7 od_proven od_loops] in SY1. change (0 + 1) with 1 in SY1.
  destruct (CO _ (obliging_willing (s_hist s1))) as (l' & sd & written & LR' & PRO & FW & EFF & RB & _). rewrite LR in LR'. injection LR' as <-.
  pose proof (process_legible c _ prefix (obliging_out (s_hist s1)) l [] sd (Ok tt) PRO ltac:(constructor)) as LO.
  rewrite (dbind_step _ _ _ _ _ AK1) in FT |- *.
  pose proof (osi_read false false l LL (SZ _ _ LR)) as OR1.
  rewrite (dbind_step (lift (from_slice as_osi (enc (VArr [VBool false; VBool false; silist_val l])))) _ s1 s1 (false, false, l)) in FT |- * by (unfold lift; rewrite OR1; reflexivity).
  set (es := effects (d_log sd)) in *. set (s2 := St (s_hist s1 ++ map TFx es) (s_url s1) (s_hc s1)).
  assert (HI : handle_info c prefix wo l s1 = (s2, Ok (d_reboot sd, d_out sd))) by (unfold handle_info; rewrite PRO; reflexivity).
  rewrite (dbind_step _ _ _ _ _ HI) in FT |- *. cbv iota in FT |- *.
  pose proof (syn_rest s1 _ (map TFx es) SY1 (fx_rest es)) as SY2. fold s2 in SY2.
  (* the second round *)
  match type of FT with context [dbind ?m ?f s2] => assert (F2 : fits (s_hist (fst (m s2)))); [eapply (fits_first m f); [|exact FT]|] end.
  { intros b. apply growing_dbind; [apply growing_lift|]. intros [[mo fi] l']. destruct fi; [apply growing_ret|]. destruct mo; [apply growing_fail|]. apply growing_dbind; [apply growing_handle|]. intros [r' o']. apply growing_info. }
  destruct (round_served keys (d_out sd) (data2 n6 n7 (Some 1)) _ s2 [] false true SY2 HK1 ES (or_intror eq_refl) LO eq_refl eq_refl ltac:(cbn [data2 od_loops]; lia) eq_refl F2) as (s3 & w2 & AK2 & HH2 & WT2 & HK2 & SY3).
  cbn [data2 od_guid od_nonce6 od_cipher od_kex od_nonce7 od_proven od_loops] in SY3. change (1 + 1) with 2 in SY3.
  rewrite (dbind_step _ _ _ _ _ AK2).
  assert (OR2 : from_slice as_osi (enc (VArr [VBool false; VBool true; silist_val []])) = Ok (false, true, [])) by (apply osi_read; [constructor|vm_compute; reflexivity]).
  rewrite (dbind_step (lift (from_slice as_osi (enc (VArr [VBool false; VBool true; silist_val []])))) _ s3 s3 (false, true, [])) by (unfold lift; rewrite OR2; reflexivity).
  exists s3, w1, w2, es. split; [unfold ret; rewrite RB; reflexivity|]. split; [rewrite HH2; unfold s2; cbn [s_hist]; rewrite HH1, <- !app_assoc; reflexivity|]. split; [exact WT1|]. split; [exact WT2|].
  split; [exists written; split; [exact FW|exact EFF]|]. split; [exact HK2|exact SY3].
Qed.
End info.

(** *** The end *)
Lemma mark_phase s ses : syn s ses -> exists s1, mark wo s = (s1, Ok tt) /\ s_hist s1 = s_hist s ++ [TMark true] /\ s_hc s1 = s_hc s /\ syn s1 ses.
Proof using SD DR.
  intros SY. unfold mark, io. rewrite (dr_io _ _ DR). eexists. split; [reflexivity|]. split; [reflexivity|]. split; [reflexivity|]. apply (syn_rest s ses [TMark true] SY). intros e w [<-|[]]. discriminate.
Qed.
Lemma deactivate_phase m s ses : syn s ses -> exists s1, deactivate wo m s = (s1, Ok tt) /\ s_hist s1 = s_hist s ++ put_away m /\ s_hc s1 = s_hc s /\ syn s1 ses.
Proof using SD DR.
  intros SY. destruct m; cbn [deactivate put_away].
  - exists s. rewrite app_nil_r. repeat (split; [reflexivity|]). exact SY.
  - unfold io. rewrite (dr_io _ _ DR). eexists. split; [reflexivity|]. split; [reflexivity|]. split; [reflexivity|]. apply (syn_rest s ses [TDelete true] SY). intros e w [<-|[]]. discriminate.
  - unfold dbind, io. rewrite (dr_io _ _ DR). cbn [s_hist s_url s_hc]. rewrite (dr_io _ _ DR). eexists. split; [reflexivity|]. cbn [s_hist s_url s_hc]. split; [rewrite <- app_assoc; reflexivity|]. split; [reflexivity|].
    rewrite <- app_assoc. apply (syn_rest s ses [TErase true; TOff true] SY). intros e w [<-|[<-|[]]]; discriminate.
Qed.
Lemma nonce_read n : nonce_ok n -> from_slice as_done (enc (VArr [bstr_val n])) = Ok n.
Proof.
  intros N. rewrite from_slice_enc.
  - unfold as_done. cbn [as_fields untag]. rewrite as_bstr16_val by apply N. reflexivity.
  - apply vok_mono with (d := 4%nat); [|unfold MAX_DEPTH; lia]. cbn [vok]. split; [unfold two64, nlen; cbn [length]; lia|]. constructor; [exact (vok_nonce 2 _ N)|constructor].
Qed.
Lemma done_phase keys n6 n7 loops s (P : W -> Prop) : syn s (Ses (Some TO2OwnerServiceInfo) (Some keys) (data2 n6 n7 loops)) -> hc_keys (s_hc s) = keys -> ek_is_some keys = true -> nonce_ok n6 -> nonce_ok n7 ->
  (forall now w w', holds w -> b_meta be now w key To2Performed (MBool true) = (w', Ok tt) -> P w') ->
  fits (s_hist (fst (perform_done A avail wo n6 n7 s))) ->
  exists s1 w, perform_done A avail wo n6 n7 s = (s1, Ok tt) /\ s_hist s1 = s_hist s ++ [TWire url w] /\ wr_type w = 70 /\ P (y_world (at_ (s_hist s1))).
Proof using AR SLG KP SD QU IV KEY.
  intros SY HK ES N6 N7 MK FT. unfold perform_done in *. pose proof (sy_last _ _ _ _ _ _ _ _ _ SY) as SLA. cbn [ses_last] in SLA.
  destruct (ask_served A AR SLG idt c chk ko cf be key v holds KP avail wo url surr at_ SD id QU TO2Done TO2Done2 (enc (VArr [bstr_val n6])) None s
     (Ses (Some TO2OwnerServiceInfo) (Some keys) (data2 n6 n7 loops)) (MDone n6) (OwData (Some key) (Some n6) None None None true loops)
     (enc (VArr [bstr_val n7])) P) as (s1 & w & AK & HH & WT & HK1 & HL & SY1 & PW).
  - left. exact SY.
  - rewrite <- SLA. reflexivity.
  - reflexivity.
  - rewrite HK, ES. reflexivity.
  - rewrite HK, ES. reflexivity.
  - reflexivity.
  - intros _. unfold ow_parse. rewrite nonce_read by exact N6. reflexivity.
  - intros w Hw. cbn [ow_handle]. unfold h_done. cbn [ses_data data2 od_guid od_nonce6 od_kex od_cipher od_nonce7 od_proven od_loops negb].
    assert (NE : @nonce_eq unit n6 n6 = Ok true) by (apply CoseFacts.nonce_eq_ok; reflexivity). rewrite NE, key_back, KEY. unfold env_at. cbn [oe_fault oe_now].
    destruct (kp_meta _ _ _ _ KP (an_now (surr (s_hist s))) w Hw) as (w' & EM). rewrite EM. exists w'. split; [reflexivity|]. eapply MK; eassumption.
  - exact Logic.I.
  - eapply fits_first; [|exact FT]. intros b. apply growing_dbind; [apply growing_lift|]. intros n. apply growing_dbind; [apply growing_lift|]. intros [|]; [apply growing_ret|apply growing_fail].
  - exists s1, w. split.
    { rewrite (dbind_step _ _ _ _ _ AK). unfold dbind, lift. rewrite nonce_read by exact N7. cbn [map_err]. assert (NE : @nonce_eq unit n7 n7 = Ok true) by (apply CoseFacts.nonce_eq_ok; reflexivity). rewrite NE. reflexivity. }
    split; [exact HH|]. split; [exact WT|exact PW].
Qed.
End session.
