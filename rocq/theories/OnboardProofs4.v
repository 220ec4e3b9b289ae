(** Lemma: an onboarding between a device and its owner succeeds. *)
From Verif Require Import Base BaseFacts CborModel ValueModel ValueProofs Text Assoc Hex TypesModel CryptoSpec TypesProofs VoucherModel VoucherSpec VoucherProofs VoucherProofs2 KexModel KexSpec RvModel StoreModel StoreSpec Backend
  MsgModel SessionModel SessionSpec HttpClientModel HttpClientSpec RvServerModel SiModel DevSiModel SiSpec SiProofs2 SiApiModel SiApiSpec SiApiRun OwnerModel OwnerSpec ClientModel ClientSpec ClientProofs ClientHonest OnboardSpec OnboardProofs OnboardProofs2 OnboardSi OnboardProofs3.
From Verif Require P_Servers.
From Coq Require Import ZifyBool ZifyNat ZifyN.
Local Open Scope N_scope.
Set Default Proof Using "All".
Local Opaque dec_top from_slice any_value.

Section session.
Context (A : aead) (AR : aead_roundtrip A) (SLG : seal_longer A) (idt : str -> option str) (c : crypto) (HO : outputs_ok c) (HS : sign_correct c) (HSZ : hash_sizes c) (chk : bool)
  (ko : kex_ops) (CL : curve_laws ko) (KW : kex_works ko) (SDV : P_Servers.seals_derived ko A) (cf : owconf) {W : Type} (be : backend voucher W)
  (key : str) (v : voucher) (holds : W -> Prop) (KP : keeper be key v holds)
  (avail : bool) (prefix : option str) (wo : world) (url : str) (surr : list devent -> around W) (at_ : list devent -> sys (W:=W) (D:=owdata))
  (SD : served A idt (ow_server c chk ko cf be) (oc_kdf_avail cf) wo url surr at_)
  (id : str) (QU : forall h, quiet idt id holds (an_before (surr h)))
  (to1d : cose) (IO : its_owner c chk cf v to1d) (dc : devcred) (IV : its_voucher c chk dc v) (KEY : guid_text (dc_guid dc) = Some key)
  (OR : forall h, owner_ready ko idt (surr h)) (DR : device_ready ko wo)
  (tok : tokens) (auth : str) (AUTH : info_auth tok auth = true) (conf : settings rawfile) (sc : settings sifile) (FS : from_settings c conf = Some sc) (CF : config_fine conf)
  (pd : bytes -> option (option inituser)) (API : forall h mods, an_api (surr h) key mods = ask_api tok auth sc pd (dc_guid dc) mods)
  (UF : forall u, the_user dc conf pd = Some u -> user_fine u)
  (SZ : forall mods l, list_of_reply (make_reply sc (pd (dc_guid dc)) mods) = Some l -> nlen (enc (silist_val l)) < 18446744073709551616)
  (marked : W -> str -> Prop) (ML : mark_laws be marked).
Local Ltac grow := repeat first
  [ apply growing_ret | apply growing_draw | apply growing_reporting | apply growing_perform_info | apply growing_deactivate | apply growing_io
  | eapply emits_growing; first [apply emits_verify | apply emits_prove | apply emits_siready | apply emits_done | apply emits_kd with (Q := fun _ => True) | apply emits_nonce6 with (Q := fun _ => True)]
  | apply growing_dbind; [|let a := fresh in intro a; match type of a with (_ * _)%type => destruct a as [? ?] | _ => idtac end] ].
Local Ltac first_fits FT F1 := match type of FT with context [dbind (reporting _ _ _ ?m) ?f ?s] =>
  assert (F1 : fits (s_hist (fst (m s)))); [apply (fits_reporting A avail wo m s); eapply (fits_first (reporting A avail wo m) f); [let a := fresh in intro a; match type of a with (_ * _)%type => destruct a as [? ?] | _ => idtac end; grow|exact FT]|] end.
Local Ltac step FT E := match type of FT with context [dbind (reporting _ _ _ ?m) ?f ?s] => rewrite (dbind_step _ f _ _ _ (reporting_step A avail wo m _ _ _ E)) in FT |- * end; cbv beta iota in FT |- *.
Lemma session_ok m s : starting idt holds url surr at_ id (St (s_hist s) url client_new) -> fits (s_hist (fst (perform_to2 A c chk ko avail prefix wo m dc url to1d s))) ->
  exists s' l es, perform_to2 A c chk ko avail prefix wo m dc url to1d s = (s', Ok (match st_reboot conf with Some b => b | None => false end)) /\
    s_hist s' = s_hist s ++ l /\ session_of url (nlen (entries_raw v)) es m l /\ configured prefix conf (the_user dc conf pd) (offered wo) es /\ marked (y_world (at_ (s_hist s'))) key.
Proof.
  intros ST FT. unfold perform_to2, with_client in *. set (s0 := St (s_hist s) url client_new) in *. unfold to2 in *.
  set (n5 := wo_rand wo (s_hist s) 0). assert (N5 : nonce_ok n5) by apply (dr_rand _ _ DR).
  rewrite (dbind_step (draw wo 0) _ s0 s0 n5) in FT |- * by reflexivity.
  first_fits FT F1.
  destruct (hello_phase A AR SLG idt c HO HS chk ko CL KW SDV cf be key v holds KP avail wo url surr at_ SD id QU to1d IO dc IV KEY OR DR s0 n5 ST N5 F1)
    as (s1 & w1 & kx & pub & tk & ph & n6 & E1 & H1 & T1 & K1 & _ & Y1 & N6 & KX & GP & SB & RP & HR & HM & NM & PK & UN).
  step FT E1.
  assert (E2 : get_nonce6 tk s1 = (s1, Ok n6)). { unfold get_nonce6, dbind, lift. rewrite UN. reflexivity. }
  step FT E2. first_fits FT F3.
  destruct (verify_phase A AR SLG idt c HO HS chk ko CL KW SDV cf be key v holds KP avail wo url surr at_ SD id QU to1d IO dc IV KEY OR DR n6 kx s1 tk ph Y1 K1 SB RP HR HM NM F3)
    as (s2 & l62 & E3 & H2 & T2 & NL & K2 & Y2).
  step FT E3. pose proof (dr_kex _ _ DR (s_hist s2)) as KD. destruct (wo_kex wo (s_hist s2) Ecdh384) as [kD|] eqn:EK; [|destruct KD as (? & ? & ? & _); discriminate].
  set (n7 := wo_rand wo (s_hist s2) 0) in *. assert (N7 : nonce_ok n7) by apply (dr_rand _ _ DR).
  destruct (prove_phase A AR SLG idt c HO HS chk ko CL KW SDV cf be key v holds KP avail wo url surr at_ SD id QU to1d IO dc IV KEY OR DR n6 n7 kx pub kD ph s2 Y2 K2 N6 N7 KX GP PK EK) as (keys & E4 & PP).
  step FT E4. rewrite (dbind_step (draw wo 0) _ s2 s2 n7) in FT |- * by reflexivity.
  first_fits FT F5. destruct (PP F5) as (s3 & w3 & E5 & H3 & T3 & ES & K3 & _ & Y3). step FT E5.
  first_fits FT F6. destruct (siready_phase A AR SLG idt c chk ko cf be key v holds KP avail wo url surr at_ SD id QU keys _ s3 Y3 K3 ES eq_refl F6) as (s4 & w4 & E6 & H4 & T4 & K4 & Y4). step FT E6.
  first_fits FT F7.
  destruct (info_phase A AR SLG idt c HO chk ko cf be key v holds KP avail prefix wo url surr at_ SD id QU dc IV KEY DR tok auth AUTH conf sc FS CF HSZ pd API UF SZ keys n6 n7 s4 Y4 K4 ES F7)
    as (s5 & w5 & w5' & es & E7 & H5 & T5 & T5' & CO & K5 & Y5). step FT E7.
  destruct (mark_phase A idt c chk ko cf be holds wo url surr at_ SD id DR s5 _ Y5) as (s6 & E8 & H6 & C6 & Y6). step FT E8.
  destruct (deactivate_phase A idt c chk ko cf be holds wo url surr at_ SD id DR m s6 _ Y6) as (s7 & E9 & H7 & C7 & Y7). step FT E9.
  first_fits FT F10.
  assert (K7 : hc_keys (s_hc s7) = keys) by congruence.
  destruct (done_phase A AR SLG idt c chk ko cf be key v holds KP avail wo url surr at_ SD id QU dc IV KEY keys n6 n7 (Some 2) s7 (fun w => marked w key) Y7 K7 ES N6 N7) as (s8 & w8 & E10 & H8 & T8 & MK).
  { intros now w w' Hw E. eapply (ml_set _ _ ML); [exact E|]. exists v. rewrite (kp_load _ _ _ _ KP now w Hw). reflexivity. }
  { exact F10. }
  step FT E10.
  exists s8. eexists. exists es. split; [reflexivity|]. split; [rewrite H8, H7, H6, H5, H4, H3, H2, H1; unfold s0; cbn [s_hist]; rewrite <- !app_assoc; reflexivity|].
  split; [|split; [exact CO|exact MK]].
  exists (TWire url w1), l62, (TWire url w3), (TWire url w4), (TWire url w5), (TWire url w5'), (TWire url w8).
  split; [cbn [app]; rewrite <- ?app_assoc; reflexivity|].
  assert (WO : forall n w, wr_type w = n -> wire_of url n (TWire url w)) by (intros n w E; exists w; auto).
  repeat (split; [first [apply WO; assumption | assumption]|]). apply WO. assumption.
Qed.
End session.
